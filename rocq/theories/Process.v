(** * src/process.rs and src/main.rs *)
From Verif Require Export Rsync.

(** process.rs:71-94: run every script; [true] when one failed *)
Fixpoint run_scripts (l : list path) (issues : bool) : M bool :=
  match l with
  | [] => mret issues
  | p :: l' =>
      r ← run_script p;
      match r with
      | SNoSpawn => fail ESpawn
      | SOk => run_scripts l' issues
      | SFail => run_scripts l' true
      end
  end.
(** process.rs:67-99 *)
Definition pre_validate_scripts (c : config) : M unit :=
  if is_empty (c_scripts c) then mret tt
  else
    issues ← run_scripts (c_scripts c) false;
    if (issues : bool) && c_reject c then fail EScripts else mret tt.

(** process.rs:17-21 *)
Definition load_state (c : config) : M rrdp_state :=
  ex ← f_exists (rrdp_state_path c);
  if (ex : bool) then recover (rrdp_state_path c) else create c.

(** process.rs:53-147: the part after staging *)
Definition publish_staged (st : rrdp_state) (sg : staged_changes) (c : config) : M unit :=
  st1 ← pre_validate st c;
  pre_validate_scripts c ;;
  st2 ← apply_staged_changed st1 sg c;
  when_ (rsync_enabled c) (update_from_rrdp_state st2 c) ;;
  write_notification st2 (c_notify_delay c) ;;
  persist st2 (rrdp_state_path c).

(** process.rs:9-150 *)
Definition process (c : config) : M unit :=
  st ← load_state c;
  staged ← update_staged st c;
  match staged with
  | None => mret tt
  | Some sg => publish_staged st sg c
  end.

(** main.rs:27-56, 21-25: creating the state directory if it is missing, then
    taking the lock ([free]: nobody else holds it), then processing. *)
Definition try_main (c : config) (free : bool) : M unit :=
  ex ← f_exists (c_state_dir c);
  unless_ ex (create_dir_all (c_state_dir c)) ;;
  lock_ex ← f_exists (lock_path c);
  unless_ lock_ex (f_write (lock_path c) "") ;;
  if free then process c else fail ELocked.

(** ** Whole runs *)
(** the world of a fresh process on this tree *)
Definition resume (f : fs) : world := mkWorld f [] 0.
Definition run (c : config) (e : env) (f : fs) : res unit * world := process c e (resume f).
Definition after (r : res unit * world) : fs := w_fs r.2.
(** the trees of a trace *)
Fixpoint trees (l : list event) : list fs :=
  match l with
  | [] => []
  | EvFs f :: l' => f :: trees l'
  | _ :: l' => trees l'
  end.
(** every tree another process can see during the run, and every tree a kill
    can leave behind *)
Definition instants (c : config) (e : env) (f : fs) : list fs :=
  f :: trees (w_trace (run c e f).2).
