(** * The effect monad.

    [env] answers everything the program cannot decide itself; [world] is the
    file system now and the trace of everything observable so far.  All oracles
    take the number of oracle consultations so far as an argument, so repeated
    questions can get different answers. *)
From Verif Require Export Types.

Inductive fetch_mode := Strict | Insecure.
Global Instance fetch_mode_eq_dec : EqDecision fetch_mode.
Proof. solve_decision. Defined.

(** What a GET brings: nothing, or status, ETag header (absent, not text,
    text) and body (unreadable or bytes). *)
Inductive http_reply :=
| HFail
| HReply (status : N) (etag : option (option string)) (body : option string).

Inductive script_res := SOk | SFail | SNoSpawn.

Inductive fs_op := ORead | OMkdir | OWrite | ORename | OSymlink | ORemoveFile
                 | ORemoveDir | ORemoveDirAll | OCopy | OSetMtime.

Record env := mkEnv {
  e_ext : ext;
  e_http : nat -> https -> fetch_mode -> option string -> http_reply;
  e_clock : nat -> Z;
  (* [Some k]: this operation fails after showing its first [k] intermediate trees *)
  e_fault : nat -> fs_op -> option nat;
  e_script : nat -> path -> script_res;
  (* recursion depth at which the stack overflows *)
  e_stack : nat }.

Inductive event :=
| EvFs (f : fs)                                         (* the tree became [f] *)
| EvHttp (u : https) (m : fetch_mode) (etag : option string)  (* GET sent *)
| EvClock (t : Z)                                       (* clock read *)
| EvScript (p : path)                                   (* script started *)
| EvSleep (s : N).

(** [w_trace] is in chronological order. *)
Record world := mkWorld { w_fs : fs; w_trace : list event; w_n : nat }.

Definition M (A : Type) : Type := env -> world -> res A * world.

Global Instance M_ret : MRet M := fun A a e w => (Ok a, w).
Global Instance M_bind : MBind M := fun A B k m e w =>
  match m e w with
  | (Ok a, w') => k a e w'
  | (Err x, w') => (Err x, w')
  | (Panic, w') => (Panic, w')
  end.
Global Instance M_fmap : FMap M := fun A B f m e w =>
  match m e w with
  | (Ok a, w') => (Ok (f a), w')
  | (Err x, w') => (Err x, w')
  | (Panic, w') => (Panic, w')
  end.

Definition fail {A} (x : err) : M A := fun e w => (Err x, w).
Definition panic {A} : M A := fun e w => (Panic, w).
Definition ask : M env := fun e w => (Ok e, w).
Definition getext : M ext := fun e w => (Ok (e_ext e), w).

(** [if let Ok(..) = ..], [.is_err()], [let _ = ..]: the error becomes data.
    A panic is not caught. *)
Definition catch {A} (m : M A) : M (A + err) := fun e w =>
  match m e w with
  | (Ok a, w') => (Ok (inl a), w')
  | (Err x, w') => (Ok (inr x), w')
  | (Panic, w') => (Panic, w')
  end.

Definition of_option {A} (x : err) (o : option A) : M A :=
  match o with Some a => mret a | None => fail x end.

Definition unless_ (b : bool) (m : M unit) : M unit := if b then mret tt else m.
Definition when_ (b : bool) (m : M unit) : M unit := if b then m else mret tt.

(** [for x in l { .. }] with early exit on error *)
Fixpoint for_each {A} (l : list A) (f : A -> M unit) : M unit :=
  match l with
  | [] => mret tt
  | a :: l' => f a ;; for_each l' f
  end.

(** ** Primitives *)
Definition push_fs (l : list fs) (w : world) : world :=
  mkWorld (List.last l (w_fs w)) (w_trace w ++ (EvFs <$> l)) (S (w_n w)).
Definition push_ev (ev : event) (w : world) : world :=
  mkWorld (w_fs w) (w_trace w ++ [ev]) (S (w_n w)).

Definition fs_step (k : fs_op) (f : fs -> op_res) : M unit := fun e w =>
  match f (w_fs w) with
  | None => (Err EIo, push_fs [] w)
  | Some (mids, fin) =>
      match e_fault e (w_n w) k with
      | None => (Ok tt, push_fs (mids ++ [fin]) w)
      | Some j => (Err EIo, push_fs (take j mids) w)
      end
  end.

Definition f_read (p : path) : M string := fun e w =>
  match op_read (w_fs w) p with
  | None => (Err EIo, push_fs [] w)
  | Some b =>
      match e_fault e (w_n w) ORead with
      | None => (Ok b, push_fs [] w)
      | Some _ => (Err EIo, push_fs [] w)
      end
  end.
Definition f_exists (p : path) : M bool := fun e w => (Ok (fs_exists (w_fs w) p), w).
Definition f_is_file (p : path) : M bool := fun e w => (Ok (fs_is_file (w_fs w) p), w).
Definition f_is_dir (p : path) : M bool := fun e w => (Ok (fs_is_dir (w_fs w) p), w).

Definition f_mkdir p := fs_step OMkdir (op_mkdir p).
Definition f_write p b := fs_step OWrite (op_write p b).
Definition f_rename p q := fs_step ORename (op_rename p q).
Definition f_symlink t p := fs_step OSymlink (op_symlink t p).
Definition f_remove_file p := fs_step ORemoveFile (op_remove_file p).
Definition f_remove_dir p := fs_step ORemoveDir (op_remove_dir p).
Definition f_remove_dir_all p := fs_step ORemoveDirAll (op_remove_dir_all p).
Definition f_copy p q := fs_step OCopy (op_copy p q).
Definition f_set_mtime p t := fs_step OSetMtime (op_set_mtime p t).

Definition clock : M Z := fun e w =>
  let t := e_clock e (w_n w) in (Ok t, push_ev (EvClock t) w).
Definition http_get (u : https) (m : fetch_mode) (etag : option string) : M http_reply :=
  fun e w => (Ok (e_http e (w_n w) u m etag), push_ev (EvHttp u m etag) w).
Definition run_script (p : path) : M script_res := fun e w =>
  (Ok (e_script e (w_n w) p), push_ev (EvScript p) w).
Definition sleep (s : N) : M unit := fun e w => (Ok tt, push_ev (EvSleep s) w).

(** ** util.rs:12-30 [Time] *)
(** [i64] wrap-around of release builds *)
Definition wrap64 (z : Z) : Z := ((z + 2 ^ 63) mod 2 ^ 64 - 2 ^ 63)%Z.
(** util.rs:16-19 *)
Definition time_now : M Z := clock.
(** util.rs:21-25 *)
Definition seconds_ago (seconds : Z) : M Z := t ← time_now; mret (wrap64 (t - seconds)).
