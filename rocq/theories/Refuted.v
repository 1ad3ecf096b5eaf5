(** * Properties that the code violates: executions that show it *)
From Verif Require Export DemoRun.
From Verif Require Import PropsSource PropsValidator PropsDecide.
From Verif Require Import FsWf.

Ltac vme := vm_cast_no_check (eq_refl true).
Global Instance node_opt_dec : EqDecision (option node) := _.
Definition at_b (g : fs) (p : path) (o : option node) : bool := bool_decide (g !! p = o).
Lemma at_ok g p o : at_b g p o = true -> g !! p = o.
Proof. apply bool_decide_eq_true_1. Qed.
Definition differ_b (f g : fs) (p q : path) : bool := negb (bool_decide (f !! p = g !! q)).
Lemma differ_ok f g p q : differ_b f g p q = true -> f !! p <> g !! q.
Proof. intros H%negb_true_iff. by apply bool_decide_eq_false in H. Qed.
Lemma there_ok g p : negb (at_b g p None) = true -> g !! p <> None.
Proof. intros H%negb_true_iff. by apply bool_decide_eq_false in H. Qed.
Ltac vmd := lazymatch goal with
  | |- ?g !! ?p = ?o => refine (at_ok g p o _); vme
  | |- ?g !! ?p <> None => refine (there_ok g p _); vme
  | |- ?f !! ?p <> ?g !! ?q => refine (differ_ok f g p q _); vme
  | |- (?a < ?b)%Z => refine (proj1 (Z.ltb_lt a b) _); vme
  | |- _ => refine (bool_decide_unpack _ _); vm_cast_no_check I
  end.
(** a sequence of completed runs with one configuration *)
Inductive completes (c : config) : list env -> fs -> fs -> Prop :=
| cs_nil f : completes c [] f f
| cs_run e es f w g : run c e f = (Ok tt, w) -> completes c es (w_fs w) g -> completes c (e :: es) f g.
Fixpoint run_all (c : config) (es : list env) (f : fs) : option fs :=
  match es with
  | [] => Some f
  | e :: es => let r := run c e f in
               match r.1 with Ok _ => run_all c es (w_fs r.2) | _ => None end
  end.
Lemma run_all_ok c es f g : run_all c es f = Some g -> completes c es f g.
Proof.
  revert f. induction es as [|e es IH]; intros f; cbn [run_all]; [intros [= <-]; constructor|].
  cbv zeta. destruct (run c e f) as [[[]| |] w] eqn:E; cbn [fst snd]; [|done|done].
  intros H. econstructor; [done|]. by apply IH.
Qed.
Lemma completes_check c es f (P : fs -> Prop) `{forall g, Decision (P g)} :
  match run_all c es f with Some g => bool_decide (P g) | None => false end = true ->
  exists g, completes c es f g /\ P g.
Proof.
  destruct (run_all c es f) as [g|] eqn:E; [|done]. intros H'%bool_decide_eq_true. exists g.
  split; [by apply run_all_ok|done].
Qed.

Lemma completes_one c e f :
  match (run c e f).1 with Ok _ => true | _ => false end = true -> completes c [e] f (after (run c e f)).
Proof.
  intros H. unfold after. destruct (run c e f) as [[[]| |] w] eqn:E; cbn [fst] in H; [|done|done].
  econstructor; [done|constructor].
Qed.

(** a source that serves, under each URI other than the notification's, always
    the same document *)
Definition constant_files (es : list env) : Prop :=
  forall e e' k k' m m' t t' u hdr hdr' b b', e ∈ es -> e' ∈ es -> u <> notif_uri ->
    e_http e k u m t = HReply 200 hdr (Some b) -> e_http e' k' u m' t' = HReply 200 hdr' (Some b') -> b = b'.
Definition docs_agree (d d' : list (string * string)) : bool :=
  forallb (fun '(u, b) => if String.eqb u notif_uri then true else
    match Demo.assoc d' u with Some b' => String.eqb b b' | None => true end) d.
Lemma assoc_in {A} (l : list (string * A)) u b : Demo.assoc l u = Some b -> (u, b) ∈ l.
Proof.
  induction l as [|[u' b'] l IH]; cbn; [done|]. destruct (String.eqb_spec u u') as [->|].
  - intros [= ->]. by left.
  - intros H. right. auto.
Qed.
Lemma constant_check (l : list (list (string * string) * Z)) :
  forallb (fun x => forallb (fun y => docs_agree x.1 y.1) l) l = true ->
  constant_files ((fun x => run_env x.1 x.2) <$> l).
Proof.
  intros H e e' k k' m m' t t' u hdr hdr' b b' H1 H2 Hu.
  apply elem_of_list_fmap in H1 as ([d1 t1] & -> & H1). apply elem_of_list_fmap in H2 as ([d2 t2] & -> & H2).
  cbn. unfold serve. destruct (Demo.assoc d1 u) eqn:E1; [|done]. destruct (Demo.assoc d2 u) eqn:E2; [|done].
  intros [= _ <-] [= _ <-]. rewrite forallb_forall in H. apply elem_of_list_In in H1, H2. specialize (H _ H1).
  rewrite forallb_forall in H. specialize (H _ H2). cbn in H. unfold docs_agree in H. rewrite forallb_forall in H.
  apply assoc_in, elem_of_list_In in E1. specialize (H _ E1). cbn in H.
  destruct (String.eqb_spec u notif_uri); [done|]. rewrite E2 in H. by apply String.eqb_eq in H.
Qed.

Definition no_faults (e : env) : Prop := forall n k, e_fault e n k = None.
Definition A3 : list (string * string) := docs_for uuid_A 3 [3; 2]%N.
Definition A5 : list (string * string) := docs_for uuid_A 5 [5; 4; 3]%N.
Definition B1 : list (string * string) := docs_for uuid_B 1 [].
Definition envs (l : list (list (string * string) * Z)) : list env := (fun x => run_env x.1 x.2) <$> l.

(** ** C15 *)
(** Three completed runs, no faults, a source whose files never change: the
    notification published by the last run lists a file that is not there. *)
Definition dangles (c : config) (name : string) (g : fs) : Prop :=
  exists n rel h, g !! notif_path c name = Some (File (x_write_notif safe_ext n) None) /\
    (base +:+ rel, h) ∈ refs n /\ g !! public_path c rel = None.
Theorem C15_refuted : exists es g,
  constant_files es /\ Forall no_faults es /\ completes demo_config es start_tree g /\ dangles demo_config name g.
Proof.
  exists (envs [(A3, 0%Z); (B1, 1000%Z); (A5, 9000%Z)]).
  assert (exists g, completes demo_config (envs [(A3, 0%Z); (B1, 1000%Z); (A5, 9000%Z)]) start_tree g /\
    (g !! notif_path demo_config name = Some (File (x_write_notif safe_ext (src3 1)) None) /\
     g !! public_path demo_config (delta_rel uuid_A 3) = None)) as (g & H1 & H2 & H3).
  { refine (completes_check _ _ _ _ _). vme. }
  exists g. split; [apply constant_check; by vm_compute|]. split; [by repeat constructor|]. split; [done|].
  exists (src3 1), (delta_rel uuid_A 3), (demo_hash (delta_doc uuid_A 3)). split; [done|]. split; [|done].
  apply (bool_decide_unpack _). by vm_compute.
Qed.

(** ** C22 *)
(** the tree when the run is killed at the first instant with this property *)
Fixpoint first_with {A} (P : A -> bool) (d : A) (l : list A) : A :=
  match l with [] => d | a :: l' => if P a then a else first_with P d l' end.
Lemma first_with_in {A} (P : A -> bool) d l : first_with P d l ∈ d :: l.
Proof.
  induction l as [|a l IH]; cbn; [by left|]. destruct (P a); [right; left|].
  apply elem_of_cons in IH as [->|?]; [by left|by do 2 right].
Qed.
Definition killed_when (c : config) (e : env) (f : fs) (P : fs -> bool) : fs :=
  first_with P f (trees (w_trace (run c e f).2)).
Lemma killed_instant c e f P : killed_when c e f P ∈ instants c e f.
Proof. apply first_with_in. Qed.
(** killed just after this file was written *)
Definition killed_after (p : path) (c : config) (e : env) (f : fs) : fs :=
  let r := run c e f in
  let final := w_fs r.2 !! p in
  first_with (fun g => bool_decide (g !! p = final)) f (trees (w_trace r.2)).
Lemma killed_after_instant p c e f : killed_after p c e f ∈ instants c e f.
Proof. apply first_with_in. Qed.
(** a completed run; two runs for the next version that are killed just after
    the rsync state was saved; a completed run: 'current' points to a directory
    that does not exist. *)
Definition run1 : fs := after (run demo_config (run_env A3 0) start_tree).
Definition kill1 : fs := killed_after (rsync_state_path demo_config) demo_config (run_env A5 1000) run1.
Definition kill2 : fs := killed_after (rsync_state_path demo_config) demo_config (run_env A5 1001) kill1.
Theorem C22_refuted : exists e0 e1 e2 e3 f1 f2 f3 g t,
  constant_files [e0; e1; e2; e3] /\ Forall no_faults [e0; e1; e2; e3] /\
  completes demo_config [e0] start_tree f1 /\
  f2 ∈ instants demo_config e1 f1 /\ f3 ∈ instants demo_config e2 f2 /\
  completes demo_config [e3] f3 g /\
  g !! rsync_current demo_config = Some (Link t) /\ g !! (c_rsync_dir demo_config ++ [t]) = None.
Proof.
  exists (run_env A3 0), (run_env A5 1000), (run_env A5 1001), (run_env A5 9000), run1, kill1, kill2.
  assert (exists g, completes demo_config [run_env A5 9000] kill2 g /\
    (g !! rsync_current demo_config = Some (Link (dir_name (mkRev uuid_A 5))) /\
     g !! (c_rsync_dir demo_config ++ [dir_name (mkRev uuid_A 5)]) = None)) as (g & H1 & H2 & H3).
  { refine (completes_check _ _ _ _ _). vme. }
  exists g, (dir_name (mkRev uuid_A 5)).
  split; [apply (constant_check [(A3, 0%Z); (A5, 1000%Z); (A5, 1001%Z); (A5, 9000%Z)]); by vm_compute|].
  split; [by repeat constructor|]. split; [apply completes_one; vme|].
  split; [apply killed_after_instant|]. split; [apply killed_after_instant|]. done.
Qed.

(** ** C16 *)
(** A run that is killed while it saves its state leaves a tree on which no
    later run, whatever its options and circumstances, gets anywhere. *)
Definition same_state_dir (c c' : config) : Prop := c_state_dir c = c_state_dir c'.
Definition torn3 : fs := killed_when demo_config (env3 1) (tree3 1)
  (fun g => bool_decide (g !! rrdp_state_path demo_config = Some (File "" None))).
Theorem C16_refuted : exists f e g,
  mirror any_notif demo_config base name f /\ no_faults e /\ (exists w, run demo_config e f = (Ok tt, w)) /\
  g ∈ instants demo_config e f /\
  forall c' e', same_state_dir demo_config c' ->
    (exists x, (run c' e' g).1 = Err x) /\ instants c' e' g = [g].
Proof.
  exists (tree3 1), (env3 1), torn3. split; [apply mirror3; lia|]. split; [done|].
  split. { destruct (ran_ok demo_config (env3 1) (tree3 1) (fun _ => True)) as (w & E & _); [by vm_compute|done|by exists w]. }
  split; [apply killed_instant|]. intros c' e' Hs. apply (C04_bad_state c' e' torn3 ""); [|by vm_compute].
  unfold rrdp_state_path. rewrite <- Hs. by vm_compute.
Qed.

(** ** C20 *)
Definition moves_config : config := {|
  c_verbose := 0; c_quiet := false;
  c_state_dir := ["var"; "ks"]; c_rrdp_dir := ["srv"; "rrdp"];
  c_notify_delay := 0; c_max_deltas := Some 100;
  c_rsync_dir := ["srv"; "rsync"]; c_force_moves := true; c_rsync_disable := false;
  c_include_host := false; c_cleanup_after := 7200; c_insecure := false;
  c_notif_uri := notif_uri; c_source_base := None; c_fetch_map := None;
  c_tal_files := []; c_scripts := []; c_reject := false; c_offline := false |}.
Definition moved1 : fs := after (run moves_config (run_env A3 0) start_tree).
Definition no_current (g : fs) : bool := negb (fs_exists g (rsync_current moves_config)).
Theorem C20_refuted : exists e0 e1 f g,
  no_faults e0 /\ no_faults e1 /\ completes moves_config [e0] start_tree f /\
  fs_exists f (rsync_current moves_config) = true /\
  g ∈ instants moves_config e1 f /\ fs_exists g (rsync_current moves_config) = false.
Proof.
  exists (run_env A3 0), (run_env A5 1000), moved1, (killed_when moves_config (run_env A5 1000) moved1
    no_current).
  split; [done|]. split; [done|]. split; [apply completes_one; vme|]. split; [by vm_compute|].
  split; [apply killed_instant|by vm_compute].
Qed.

(** ** C29 *)
(** With --tal-reject-invalid, the second run publishes a version that the same
    run rejects an hour later, when the stored copy has expired. *)
Definition tal_config : config := with_reject c_tal.
Definition content_docs (n : N) (l : list (rsync_uri * string)) : list (string * string) :=
  [(notif_uri, json_text (j_notif (mkNotif uuid_A n (base +:+ "s" +:+ pretty n) (demo_hash (snap_text l)) [])));
   (base +:+ "s" +:+ pretty n, snap_text l);
   (ta_uri, text j_cert ta_cert)].
Definition tal_start : fs := <[["srv"] := Dir]> (<[["var"] := Dir]> tal_fs).
Definition tal_run1 : fs := after (run tal_config (run_env (content_docs 1 (ca_files "ta/" [] [] [])) 0) tal_start).
Theorem C29_refuted : exists e0 e1 e2 f g,
  completes tal_config [e0] tal_start f /\
  completes tal_config [e1] f g /\ g !! notif_path tal_config name <> f !! notif_path tal_config name /\
  (* the same source and the same clock, but an hour later *)
  (forall k, e_clock e2 k = e_clock e1 k + 3600)%Z /\ e_http e1 = e_http e2 /\ e_ext e1 = e_ext e2 /\
  (run tal_config e2 f).1 = Err EInvalid.
Proof.
  exists (run_env (content_docs 1 (ca_files "ta/" [] [] [])) 0), (run_env (content_docs 2 bad_files) 1000),
    (run_env (content_docs 2 bad_files) 4600), tal_run1.
  assert (exists g, completes tal_config [run_env (content_docs 2 bad_files) 1000] tal_run1 g /\
    g !! notif_path tal_config name <> tal_run1 !! notif_path tal_config name) as (g & H1 & H2).
  { refine (completes_check _ _ _ _ _). vme. }
  exists g. split; [apply completes_one; vme|]. split; [done|]. split; [done|]. split; [done|].
  split; [done|]. split; [done|]. by vm_compute.
Qed.

(** ** C47 *)
(** The run is killed after it replaced the notification and before it saved
    its state.  After the next, completed run there is a file in the RRDP
    directory that the killed run put there and of which no record is left. *)
Definition unrecorded (c : config) (g : fs) (p : path) : Prop :=
  exists st, DemoRun.state_of c g = Some st /\
    (forall rel h, (rel, h) ∈ state_files st -> public_path c rel <> p) /\
    (forall d, d ∈ st_deprecated st -> dp_path d <> p).
Definition lost3 : fs := killed_after (notif_path demo_config name) demo_config (env3 1) (tree3 1).
Definition unrecorded_check (c : config) (g : fs) (p : path) : bool :=
  match DemoRun.state_of c g with
  | Some st => forallb (fun r => negb (bool_decide (public_path c r.1 = p))) (state_files st) &&
               forallb (fun d => negb (bool_decide (dp_path d = p))) (st_deprecated st)
  | None => false
  end.
Lemma unrecorded_ok c g p : unrecorded_check c g p = true -> unrecorded c g p.
Proof.
  unfold unrecorded_check. destruct (DemoRun.state_of c g) as [st|] eqn:E; [|done]. intros [H1 H2]%andb_true_iff. exists st.
  rewrite forallb_forall in H1, H2. split; [done|]. split.
  - intros rel h Hin%elem_of_list_In. specialize (H1 _ Hin). by apply negb_true_iff, bool_decide_eq_false in H1.
  - intros d Hin%elem_of_list_In. specialize (H2 _ Hin). by apply negb_true_iff, bool_decide_eq_false in H2.
Qed.
Definition later3 : fs := after (run demo_config (env3 2) lost3).
Theorem C47_refuted : exists e1 e2 f g g' p b,
  mirror any_notif demo_config base name f /\ no_faults e1 /\ no_faults e2 /\
  g ∈ instants demo_config e1 f /\ completes demo_config [e2] g g' /\
  under (c_rrdp_dir demo_config) p /\ p <> notif_path demo_config name /\
  f !! p = None /\ g !! p = Some (File b None) /\ g' !! p = Some (File b None) /\
  unrecorded demo_config g' p.
Proof.
  exists (env3 1), (env3 2), (tree3 1), lost3, later3,
    (public_path demo_config (snap_rel uuid_A 5)), (snap_doc uuid_A 5).
  split; [apply mirror3; lia|]. split; [done|]. split; [done|]. split; [apply killed_after_instant|].
  split; [apply completes_one; vme|]. split; [by eexists|]. split; [by vm_compute|].
  split; [vmd|]. split; [vmd|].
  split; [vmd|].
  apply unrecorded_ok. vme.
Qed.

(** ** C46 *)
(** The notification is replaced after a delay of 600 seconds.  A later run
    deletes a file the replaced notification listed, although no time between
    the end of the delay and that run is as long as the retention time. *)
Definition delay_config : config := {|
  c_verbose := 0; c_quiet := false;
  c_state_dir := ["var"; "ks"]; c_rrdp_dir := ["srv"; "rrdp"];
  c_notify_delay := 600; c_max_deltas := Some 100;
  c_rsync_dir := ["srv"; "rsync"]; c_force_moves := false; c_rsync_disable := true;
  c_include_host := false; c_cleanup_after := 7200; c_insecure := false;
  c_notif_uri := notif_uri; c_source_base := None; c_fetch_map := None;
  c_tal_files := []; c_scripts := []; c_reject := false; c_offline := false |}.
(** the events of a run before the notification is replaced *)
Fixpoint until (p : path) (before : option node) (l : list event) : list event :=
  match l with
  | [] => []
  | EvFs g :: l' => if bool_decide (g !! p = before) then EvFs g :: until p before l' else []
  | ev :: l' => ev :: until p before l'
  end.
Fixpoint slept (l : list event) : Z :=
  match l with [] => 0 | EvSleep s :: l' => Z.of_N s + slept l' | _ :: l' => slept l' end.
Definition delayed0 : fs := after (run delay_config (run_env A3 0) start_tree).
Definition delayed1 : fs := after (run delay_config (run_env B1 1000) delayed0).
Definition delayed2 : fs := after (run delay_config (run_env (docs_for uuid_B 2 [2]%N) 8300) delayed1).
Theorem C46_refuted : exists e0 e1 e2 f0 f1 f2 t1 t2 n p,
  (forall k, e_clock e1 k = t1) /\ (forall k, e_clock e2 k = t2) /\
  completes delay_config [e0] start_tree f0 /\ completes delay_config [e1] f0 f1 /\ completes delay_config [e2] f1 f2 /\
  (* until the second run replaces it, the served notification lists [p] *)
  f0 !! notif_path delay_config name = Some (File (x_write_notif safe_ext n) None) /\
  (exists rel h, (base +:+ rel, h) ∈ refs n /\ p = public_path delay_config rel) /\
  f1 !! notif_path delay_config name <> f0 !! notif_path delay_config name /\
  (* it is replaced no earlier than at [t1] plus the time slept *)
  (t2 < t1 + slept (until (notif_path delay_config name) (f0 !! notif_path delay_config name)
                      (w_trace (run delay_config e1 f0).2)) + c_cleanup_after delay_config)%Z /\
  f1 !! p <> None /\ f2 !! p = None.
Proof.
  exists (run_env A3 0), (run_env B1 1000), (run_env (docs_for uuid_B 2 [2]%N) 8300), delayed0, delayed1,
    delayed2, 1000%Z, 8300%Z, (src3 0),
    (public_path delay_config (snap_rel uuid_A 3)).
  split; [done|]. split; [done|].
  split; [apply completes_one; vme|]. split; [apply completes_one; vme|].
  split; [apply completes_one; vme|].
  split; [vmd|].
  split. { exists (snap_rel uuid_A 3), (demo_hash (snap_doc uuid_A 3)). split; [|done]. by left. }
  split; [vmd|].
  split; [vmd|].
  split; vmd.
Qed.

(** ** C48 *)
(** A run with another RRDP directory than the recorded one completes, and
    leaves no notification in the configured directory; the notification in the
    old one lists a snapshot that is not there. *)
Definition other_config : config := {|
  c_verbose := 0; c_quiet := false;
  c_state_dir := ["var"; "ks"]; c_rrdp_dir := ["srv"; "other"];
  c_notify_delay := 0; c_max_deltas := Some 100;
  c_rsync_dir := ["srv"; "rsync"]; c_force_moves := false; c_rsync_disable := true;
  c_include_host := false; c_cleanup_after := 7200; c_insecure := false;
  c_notif_uri := notif_uri; c_source_base := None; c_fetch_map := None;
  c_tal_files := []; c_scripts := []; c_reject := false; c_offline := false |}.
Definition other1 : fs := after (run other_config (env3 1) (tree3 1)).
Theorem C48_refuted : exists e f g,
  mirror any_notif demo_config base name f /\ no_faults e /\ completes other_config [e] f g /\
  g !! notif_path other_config name = None /\
  g !! notif_path demo_config name <> f !! notif_path demo_config name /\
  dangles demo_config name g.
Proof.
  exists (env3 1), (tree3 1), other1.
  split; [apply mirror3; lia|]. split; [done|]. split; [apply completes_one; vme|].
  split; [vmd|]. split; [vmd|].
  exists (src3 1), (snap_rel uuid_A 5), (demo_hash (snap_doc uuid_A 5)).
  split; [vmd|]. split; [by left|]. vmd.
Qed.

(** ** C03: the excluded case *)
(** A source that answers an unconditional request with 304, and a file left in
    the staging directory: bytes are published under a URI for which the source
    listed another hash. *)
Definition rude_env : env := with_http (run_env A5 1000) (fun k u m t =>
  if String.eqb u (base +:+ snap_rel uuid_A 5) then HReply 304 None None else serve A5 k u m t).
Definition stale_tree : fs :=
  <[staging_dir demo_config ++ split_on slash (snap_rel uuid_A 5) := File "stale" None]>
  (<[staging_dir demo_config ++ [sid uuid_A; "5"] := Dir]>
  (<[staging_dir demo_config ++ [sid uuid_A] := Dir]>
  (<[staging_dir demo_config := Dir]> (tree3 1)))).
Definition stale_kill : fs :=
  killed_when demo_config rude_env stale_tree (fun g => fs_exists g (public_path demo_config (snap_rel uuid_A 5))).
Theorem C03_304_refuted : exists e f g n rel h b,
  no_faults e /\ wf f /\ (forall k t, e_http e k notif_uri Strict t = HReply 200 None (Some (x_write_notif safe_ext n))) /\
  (base +:+ rel, h) ∈ refs n /\ g ∈ instants demo_config e f /\
  f !! public_path demo_config rel = None /\ g !! public_path demo_config rel = Some (File b None) /\ x_hash (e_ext e) b <> h.
Proof.
  exists rude_env, stale_tree, stale_kill,
    (src3 1), (snap_rel uuid_A 5), (demo_hash (snap_doc uuid_A 5)), "stale".
  split; [done|]. split; [apply wf_check_ok; vme|].
  split; [intros k t; by vm_compute|]. split; [by left|]. split; [apply killed_instant|].
  split; [vmd|].
  split; [vmd|]. by vm_compute.
Qed.

Print Assumptions C15_refuted.
Print Assumptions C16_refuted.
Print Assumptions C20_refuted.
Print Assumptions C22_refuted.
Print Assumptions C29_refuted.
Print Assumptions C46_refuted.
Print Assumptions C47_refuted.
Print Assumptions C48_refuted.
Print Assumptions C03_304_refuted.
