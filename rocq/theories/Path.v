(** * Paths, as std::path::PathBuf is used by krill-sync.

    A path is the list of its components from the root.  Simplifications: all
    configured directories are taken as absolute; [..] is resolved when
    joining instead of by the kernel (the two agree when no component is a
    symlink). *)
From Verif Require Export Base.

Notation path := (list string) (only parsing).

(** Components of a string as [Path::components] yields them: empty and [.]
    segments are dropped. *)
Definition comps (s : string) : list string :=
  filter (fun c => c <> "" /\ c <> ".") (split_on slash s).

Definition push_comp (p : path) (c : string) : path :=
  if decide (c = "..") then removelast p else p ++ [c].

(** [Path::join]: an absolute argument replaces the path. *)
Definition path_join (p : path) (rel : string) : path :=
  if starts_with_slash rel then foldl push_comp [] (comps rel)
  else foldl push_comp p (comps rel).

(** [PathBuf::from] for an absolute path string. *)
Definition path_of (s : string) : path := path_join [] s.

(** [Path::parent]: [None] for the root. *)
Definition path_parent (p : path) : option path :=
  match p with [] => None | _ => Some (removelast p) end.

(** [Path::display] / serde form of an absolute path. *)
Fixpoint path_tail_str (p : path) : string :=
  match p with [] => "" | c :: p' => "/" +:+ c +:+ path_tail_str p' end.
Definition path_str (p : path) : string :=
  match p with [] => "/" | _ => path_tail_str p end.

(** file_ops.rs:105-109 [path_with_extension]: [PathBuf::set_extension] on the
    last component.  Only used for [current] -> [current.tmp]. *)
Definition set_ext (name ext : string) : string :=
  match rsplit_once dot name with
  | Some (EmptyString, _) => name +:+ "." +:+ ext      (* dot file: no extension *)
  | Some (stem, _) => stem +:+ "." +:+ ext
  | None => name +:+ "." +:+ ext
  end.
Definition path_with_extension (p : path) (ext : string) : path :=
  match p with
  | [] => []
  | _ => removelast p ++ [set_ext (List.last p "") ext]
  end.
