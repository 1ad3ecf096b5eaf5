(** * src/file_ops.rs *)
From Verif Require Export Monad.

(** [std::fs::create_dir_all]: make each missing ancestor, outermost first. *)
Fixpoint inits_from (acc : path) (p : path) : list path :=
  match p with
  | [] => []
  | c :: p' => let acc' := acc ++ [c] in acc' :: inits_from acc' p'
  end.
Definition create_dir_all (p : path) : M unit := for_each (inits_from [] p) f_mkdir.

(** file_ops.rs:27-39 *)
Definition create_path_for_file (p : path) : M unit :=
  dir ← of_option EIo (path_parent p);
  create_dir_all dir.

(** file_ops.rs:11-24 [write_buf], [create_file] *)
Definition write_buf (p : path) (b : string) : M unit :=
  create_path_for_file p ;;
  f_write p b.

(** file_ops.rs:44-76 *)
Definition move_file (src dst : path) (rel : string) : M unit :=
  let original := path_join src rel in
  let target := path_join dst rel in
  create_path_for_file target ;;
  ex ← f_exists original;
  if negb ex then fail ESourceMissing
  else
    r ← catch (f_rename original target);
    match r with
    | inl _ => mret tt
    | inr _ =>
        f_copy original target ;;
        f_remove_file original
    end.

(** file_ops.rs:78-95.  The recursion is on the reversed list of components;
    the path is [reverse rp]. *)
Fixpoint remove_up (rp : list string) : M unit :=
  let p := reverse rp in
  isf ← f_is_file p;
  (if (isf : bool) then f_remove_file p
   else
     isd ← f_is_dir p;
     if (isd : bool) then f_remove_dir p else mret tt) ;;
  match rp with
  | [] => mret tt
  | _ :: rp' => _ ← catch (remove_up rp'); mret tt
  end.
Definition remove_file_and_empty_parent_dirs (p : path) : M unit := remove_up (reverse p).

(** file_ops.rs:97-103 *)
Definition read_file (p : path) : M string := f_read p.
