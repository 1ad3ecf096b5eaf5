(** * The file system model: pure part.

    What the std::fs functions used by krill-sync do to a tree.  An operation
    yields [None] when the OS refuses it, otherwise the list of intermediate
    trees that other processes can see (or that a kill leaves behind) and the
    final tree.  Not modelled: permissions, hard links, symlinks in
    non-final components, loss of written data at power failure. *)
From Verif Require Export Path.

Inductive node :=
| File (b : string) (mtime : option Z)   (* [None]: whatever the OS put there *)
| Dir
| Link (target : string).

Global Instance node_eq_dec : EqDecision node.
Proof. solve_decision. Defined.

Notation fs := (@gmap (list string) (@list_eq_dec string string_eq_dec)
  (@list_countable string string_eq_dec string_countable) node).

(** The root always exists. *)
Definition fs_get (f : fs) (p : path) : option node :=
  match p with [] => Some Dir | _ => f !! p end.

(** Follow one final symlink; targets are relative to the link's directory. *)
Definition fs_stat (f : fs) (p : path) : option node :=
  match fs_get f p with
  | Some (Link t) =>
      match fs_get f (path_join (removelast p) t) with
      | Some (Link _) => None
      | o => o
      end
  | o => o
  end.

Definition fs_exists (f : fs) (p : path) : bool :=
  match fs_stat f p with Some _ => true | None => false end.
Definition fs_is_file (f : fs) (p : path) : bool :=
  match fs_stat f p with Some (File _ _) => true | _ => false end.
Definition fs_is_dir (f : fs) (p : path) : bool :=
  match fs_stat f p with Some Dir => true | _ => false end.

(** The parent of [p] is a real directory (not through a link). *)
Definition parent_is_dir (f : fs) (p : path) : bool :=
  match path_parent p with
  | Some q => match fs_get f q with Some Dir => true | _ => false end
  | None => false
  end.

(** [q] lies strictly below [p]. *)
Definition below (p q : path) : Prop := p `prefix_of` q /\ p <> q.
Global Instance below_dec p q : Decision (below p q).
Proof. unfold below. apply _. Defined.

Definition has_children (f : fs) (p : path) : bool :=
  existsb (fun kv => bool_decide (below p kv.1)) (map_to_list f).

(** Result of an operation: intermediate trees and final tree. *)
Definition op_res : Type := option (list fs * fs).

(** [File::open] + [read_to_end] *)
Definition op_read (f : fs) (p : path) : option string :=
  match fs_stat f p with Some (File b _) => Some b | _ => None end.

(** one mkdir step of [create_dir_all]: existing directory is fine *)
Definition op_mkdir (p : path) (f : fs) : op_res :=
  match fs_get f p with
  | Some Dir => Some ([], f)
  | Some _ => None
  | None => if parent_is_dir f p then Some ([], <[p := Dir]> f) else None
  end.

(** All prefixes of a string, shortest first, without the string itself. *)
Fixpoint strict_prefixes (s : string) : list string :=
  match s with
  | EmptyString => []
  | String a s' => "" :: (String a <$> strict_prefixes s')
  end.

(** [File::create] (truncates) followed by [write_all]. *)
Definition op_write (p : path) (b : string) (f : fs) : op_res :=
  match fs_get f p with
  | Some Dir => None
  | Some (Link _) => None       (* simplification: writing through links *)
  | _ =>
      if parent_is_dir f p then
        Some ((fun b' => <[p := File b' None]> f) <$> strict_prefixes b,
              <[p := File b None]> f)
      else None
  end.

(** Remove the path prefix [p] from [q]. *)
Fixpoint strip_path (p q : path) : option path :=
  match p, q with
  | [], _ => Some q
  | a :: p', b :: q' => if decide (a = b) then strip_path p' q' else None
  | _ :: _, [] => None
  end.

(** Move the whole tree at [p] to [q]. *)
Definition move_tree (p q : path) (f : fs) : fs :=
  list_to_map (omap (fun kv => r ← strip_path p kv.1; Some (q ++ r, kv.2)) (map_to_list f))
  ∪ filter (fun kv => ~ (p `prefix_of` kv.1) /\ ~ (q `prefix_of` kv.1)) f.

(** rename(2) *)
Definition op_rename (p q : path) (f : fs) : op_res :=
  match p, fs_get f p with
  | [], _ => None
  | _, None => None
  | _, Some Dir =>
      if parent_is_dir f q && negb (bool_decide (below p q)) then
        match fs_get f q with
        | None => Some ([], move_tree p q f)
        | Some Dir =>
            if decide (p = q) then Some ([], f)
            else if has_children f q then None
            else Some ([], move_tree p q f)
        | Some _ => None
        end
      else None
  | _, Some nd =>
      if parent_is_dir f q then
        match fs_get f q with
        | Some Dir => None
        | _ => Some ([], <[q := nd]> (delete p f))
        end
      else None
  end.

(** symlink(2) *)
Definition op_symlink (target : string) (p : path) (f : fs) : op_res :=
  match fs_get f p with
  | Some _ => None
  | None => if parent_is_dir f p then Some ([], <[p := Link target]> f) else None
  end.

(** unlink(2) *)
Definition op_remove_file (p : path) (f : fs) : op_res :=
  match fs_get f p with
  | Some (File _ _) | Some (Link _) => Some ([], delete p f)
  | _ => None
  end.

(** rmdir(2) *)
Definition op_remove_dir (p : path) (f : fs) : op_res :=
  match p, fs_get f p with
  | [], _ => None
  | _, Some Dir => if has_children f p then None else Some ([], delete p f)
  | _, _ => None
  end.

(** [remove_dir_all]: entries below [p] go one by one, deepest first, then
    [p] itself. *)
Definition below_keys (p : path) (f : fs) : list path :=
  reverse (sort_by_key (fun q => N.of_nat (length q))
    (filter (below p) (map_to_list f).*1)).
Fixpoint delete_seq (ks : list path) (f : fs) : list fs :=
  match ks with
  | [] => []
  | k :: ks' => let f' := delete k f in f' :: delete_seq ks' f'
  end.
Definition op_remove_dir_all (p : path) (f : fs) : op_res :=
  match p, fs_get f p with
  | [], _ => None
  | _, Some Dir =>
      let mids := delete_seq (below_keys p f) f in
      let f' := List.last mids f in
      Some (mids, delete p f')
  | _, _ => None
  end.

(** [fs::copy] *)
Definition op_copy (p q : path) (f : fs) : op_res :=
  match op_read f p with
  | Some b => op_write q b f
  | None => None
  end.

(** [set_file_mtime] *)
Definition op_set_mtime (p : path) (t : Z) (f : fs) : op_res :=
  match fs_get f p with
  | Some (File b _) => Some ([], <[p := File b (Some t)]> f)
  | _ => None
  end.
