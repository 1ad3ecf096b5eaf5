(** * Several processes at once: the lock

    main.rs:21-56.  Any number of krill-sync processes, interleaved at the level
    of single file system operations.  The lock file is locked with flock(2)
    (crate fslock), so a lock belongs to the inode, not to the path: whoever
    opened another inode under the same path gets another lock.

    Simplifications.  A process that holds the lock makes the changes that [run]
    makes from the tree it found when it took the lock; if it then finds the tree
    other than it left it, that is recorded in [s_clash] (a theorem says that
    this does not happen).  Operations that fail are covered by [s_die], which
    can happen in every state.  Configurations and environments are those for
    which the paths of a run are known, as in [mirror]. *)
From Verif Require Export History.
From Verif Require Import FsWf.

(** where a process is *)
Inductive pstate :=
| Start                                   (* before main.rs:28 *)
| Making (ks : list path)                 (* main.rs:33: directories still to make *)
| Opening                                 (* before main.rs:42 *)
| Trying (i : nat)                        (* main.rs:46: has opened inode [i] *)
| Working (i : nat) (rest : list fs) (seen : fs)   (* main.rs:24: has the lock *)
| Ended.

Record sys := mkSys {
  s_tree : fs;
  s_ino : nat;                  (* the inode at the lock path, and the last one used *)
  s_locks : gmap nat nat;       (* inode -> process that has it locked *)
  s_procs : nat -> pstate;
  s_clash : bool }.

(** process [k] is now at [p] *)
Definition upd (f : nat -> pstate) (k : nat) (p : pstate) : nat -> pstate := fun j => if decide (j = k) then p else f j.

Section steps.
  Context (c : config) (base name : string) (cs : nat -> config).
  Notation lk := (lock_path c).

  Definition at_proc (s : sys) (k : nat) (p : pstate) : sys :=
    mkSys (s_tree s) (s_ino s) (s_locks s) (upd (s_procs s) k p) (s_clash s).
  Definition release (k : nat) (l : gmap nat nat) : gmap nat nat := filter (fun x => x.2 <> k) l.
  (** replacing what is at the lock path makes a new inode *)
  Definition ino_after (s : sys) (g : fs) : nat :=
    if decide (g !! lk = s_tree s !! lk) then s_ino s else S (s_ino s).

  Inductive sys_step (k : nat) : sys -> sys -> Prop :=
  (* main.rs:28 *)
  | s_exists s : s_procs s k = Start -> fs_exists (s_tree s) (c_state_dir c) = true -> sys_step k s (at_proc s k Opening)
  | s_missing s : s_procs s k = Start -> fs_exists (s_tree s) (c_state_dir c) = false ->
      sys_step k s (at_proc s k (Making (inits_from [] (c_state_dir c))))
  (* main.rs:33 *)
  | s_mkdir s p ks mids g : s_procs s k = Making (p :: ks) -> op_mkdir p (s_tree s) = Some (mids, g) ->
      sys_step k s (mkSys g (ino_after s g) (s_locks s) (upd (s_procs s) k (Making ks)) (s_clash s))
  | s_made s : s_procs s k = Making [] -> sys_step k s (at_proc s k Opening)
  (* main.rs:42: open, creating the file if it is missing *)
  | s_open s b m : s_procs s k = Opening -> s_tree s !! lk = Some (File b m) ->
      sys_step k s (at_proc s k (Trying (s_ino s)))
  | s_create s : s_procs s k = Opening -> s_tree s !! lk = None -> parent_is_dir (s_tree s) lk = true ->
      sys_step k s (mkSys (<[lk := File "" None]> (s_tree s)) (S (s_ino s)) (s_locks s)
                  (upd (s_procs s) k (Trying (S (s_ino s)))) (s_clash s))
  (* main.rs:45-56, 24: not locked by anyone *)
  | s_lock s i e : s_procs s k = Trying i -> s_locks s !! i = None -> good_world (cs k) base name e (s_tree s) ->
      sys_step k s (mkSys (s_tree s) (s_ino s) (<[i := k]> (s_locks s))
                  (upd (s_procs s) k (Working i (trees (w_trace (run (cs k) e (s_tree s)).2)) (s_tree s))) (s_clash s))
  (* main.rs:49: locked by someone *)
  | s_busy s i j : s_procs s k = Trying i -> s_locks s !! i = Some j -> sys_step k s (at_proc s k Ended)
  (* process.rs *)
  | s_work s i g rest seen : s_procs s k = Working i (g :: rest) seen -> s_tree s = seen ->
      sys_step k s (mkSys g (ino_after s g) (s_locks s) (upd (s_procs s) k (Working i rest g)) (s_clash s))
  | s_disturbed s i rest seen g : s_procs s k = Working i rest seen -> s_tree s <> seen ->
      sys_step k s (mkSys g (ino_after s g) (s_locks s) (s_procs s) true)
  | s_done s i seen : s_procs s k = Working i [] seen ->
      sys_step k s (mkSys (s_tree s) (s_ino s) (release k (s_locks s)) (upd (s_procs s) k Ended) (s_clash s))
  (* an error, or a kill: the kernel releases the lock *)
  | s_die s : sys_step k s (mkSys (s_tree s) (s_ino s) (release k (s_locks s)) (upd (s_procs s) k Ended) (s_clash s)).

  (** any tree that krill-sync's history can have, no process started *)
  Inductive reach : sys -> Prop :=
  | r_init f : mirror any_notif c base name f -> reach (mkSys f 0 ∅ (fun _ => Start) false)
  | r_step s k s' : reach s -> sys_step k s s' -> reach s'
  (** other programs change files that are not krill-sync's, while it is not working *)
  | r_else s g : reach s -> (forall k i rest seen, s_procs s k <> Working i rest seen) ->
      wf g -> (forall p, owned c p \/ p = lk -> g !! p = s_tree s !! p) ->
      reach (mkSys g (s_ino s) (s_locks s) (s_procs s) (s_clash s)).
End steps.
