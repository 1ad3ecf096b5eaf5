(** * What cleaning up does: C12, C13, C14 *)
From Coq Require Import ZifyN ZifyNat ZifyBool.
From Verif Require Import PropsRun.
From Verif Require Import DemoRun RunDone CleanProofs FsWf.

(** ** C12: dropped files are kept for the cleanup time *)
(** No file in the RRDP directory disappears, at any instant of the run, unless
    it has been recorded as unused (or is dropped by this very run) at a time
    [t] that is not later than some reading of the clock in this run minus the
    cleanup time. *)
Theorem C12_kept c base name e f g p b m :
  setting c base name e f -> honest_run c e f -> g ∈ instants c e f ->
  under (c_rrdp_dir c) p -> p <> notif_tmp c name ->
  f !! p = Some (File b m) -> (forall b' m', g !! p <> Some (File b' m')) ->
  exists t k, recorded_at c base name e f p t /\ (t <= wrap64 (e_clock e k - c_cleanup_after c))%Z.
Proof.
  intros Hset Hh Hg Hp Ht E Hgone. pose proof Hset as Hs%setting_sane.
  destruct (decide (p = notif_path c name)) as [->|HN].
  { destruct (C02_atomic c base name e f Hset) as [n Hn]. exfalso.
    destruct (Hn g Hg) as [E'|E']; [rewrite E in E'|]; by apply Hgone in E'. }
  destruct (phase_fate c base name e f Hs Hh g p Hp HN Ht (instant_phase c base name e f Hs g Hg))
    as [H|[(n0 & n & rel & h & _ & _ & _ & -> & Hpb)|[_ (cb & t & [k ->] & H1 & H2)]]].
  - apply view_file in E. rewrite <- H in E. apply view_file in E. by apply Hgone in E.
  - destruct Hpb as [(b' & m' & E' & _)|(_ & (b' & m' & _ & E' & _) & _)]; by apply Hgone in E'.
  - by exists t, k.
Qed.
(** What a completed run drops from the published set it records with one of
    its clock readings -- unless that record has expired already. *)
Theorem C12_recorded c base name e f w st st' rel h :
  setting c base name e f -> run c e f = (Ok tt, w) ->
  starts_from c base name f st -> starts_from c base name (w_fs w) st' ->
  (rel, h) ∈ state_files st -> (forall h', (rel, h') ∉ state_files st') ->
  exists t, run_clock e t /\
    (mkDep t (public_path c rel) ∈ st_deprecated st' \/
     exists k, (t <= wrap64 (e_clock e k - c_cleanup_after c))%Z).
Proof.
  intros Hs%setting_sane Hrun Hst Hst' Hin Hout. destruct (ok_run c base name e f Hs w Hrun)
    as [(H & _)|(st0 & n0 & n & sg & f1 & v & st1 & f2 & cb & st2 & f3 & f4 & n' & f5 & Ha & _ & _ & HN & H2)].
  - rewrite H in Hst'. rewrite (starts_unique _ _ _ _ _ _ Hst' Hst) in Hout. by destruct (Hout h).
  - destruct (H2 _ Hst') as [v' ->]. pose proof (an_rsync _ _ _ _ _ _ _ _ _ _ _ _ _ _ _ _ _ (as_notify _ _ _ _ _ _ _ _ _ _ _ _ _ _ _ _ _ _ _ Ha)) as A1.
    pose proof (am_start _ _ _ _ _ _ _ _ _ _ (ac_move _ _ _ _ _ _ _ _ _ _ _ _ _ (ar_clean _ _ _ _ _ _ _ _ _ _ _ _ _ _ _ _ A1))) as Hst0.
    rewrite (starts_unique _ _ _ _ _ _ Hst0 Hst) in *. clear Hst0 st0.
    destruct (records c base name e f _ _ _ _ _ _ _ _ _ _ _ A1) as (deps & D1 & D2 & D3).
    assert (Hd : public_path c rel ∈ dropped st sg).
    { apply (dropped_spec c base name st sg rel h); [by eapply start_good|done|]. intros d Hd Er.
      apply (Hout (ds_hash d)). unfold state_files. cbn. apply elem_of_app. right. apply elem_of_list_fmap.
      exists d. split; [by rewrite Er|]. apply (new_delta_in c base name e f _ _ _ _ _ _ _ _ _ _ _ d A1). by left. }
    rewrite <- D2 in Hd. apply elem_of_list_fmap in Hd as (d & Ed & Hd). rewrite Forall_forall in D3.
    exists (dp_since d). split; [by apply D3|].
    destruct (Z.lt_ge_cases cb (dp_since d)) as [Hlt|Hge].
    + left. cbn. rewrite D1. apply elem_of_list_filter. split; [done|]. apply elem_of_app. right.
      rewrite Ed. by destruct d.
    + right. destruct (ar_time _ _ _ _ _ _ _ _ _ _ _ _ _ _ _ _ A1) as [k ->]. by exists k.
Qed.
(** Records are not forgotten before they expire. *)
Theorem C12_remembered c base name e f w st st' d :
  setting c base name e f -> run c e f = (Ok tt, w) ->
  starts_from c base name f st -> starts_from c base name (w_fs w) st' ->
  d ∈ st_deprecated st ->
  d ∈ st_deprecated st' \/ exists k, (dp_since d <= wrap64 (e_clock e k - c_cleanup_after c))%Z.
Proof.
  intros Hs%setting_sane Hrun Hst Hst' Hd. destruct (ok_run c base name e f Hs w Hrun)
    as [(H & _)|(st0 & n0 & n & sg & f1 & v & st1 & f2 & cb & st2 & f3 & f4 & n' & f5 & Ha & _ & _ & HN & H2)].
  - rewrite H in Hst'. rewrite (starts_unique _ _ _ _ _ _ Hst' Hst). by left.
  - destruct (H2 _ Hst') as [v' ->].
    pose proof (an_rsync _ _ _ _ _ _ _ _ _ _ _ _ _ _ _ _ _ (as_notify _ _ _ _ _ _ _ _ _ _ _ _ _ _ _ _ _ _ _ Ha)) as A1.
    pose proof (am_start _ _ _ _ _ _ _ _ _ _ (ac_move _ _ _ _ _ _ _ _ _ _ _ _ _ (ar_clean _ _ _ _ _ _ _ _ _ _ _ _ _ _ _ _ A1))) as Hst0.
    rewrite (starts_unique _ _ _ _ _ _ Hst0 Hst) in *.
    destruct (records c base name e f _ _ _ _ _ _ _ _ _ _ _ A1) as (deps & D1 & D2 & D3).
    destruct (Z.lt_ge_cases cb (dp_since d)) as [Hlt|Hge].
    + left. cbn. rewrite D1. apply elem_of_list_filter. split; [done|]. apply elem_of_app. by left.
    + right. destruct (ar_time _ _ _ _ _ _ _ _ _ _ _ _ _ _ _ _ A1) as [k ->]. by exists k.
Qed.

(** ** C13: expired files are removed and forgotten *)
(** After a completed run that changed anything, for some reading of its clock:
    the records are those made before and by this run that have not expired,
    and no expired one has a file. *)
Theorem C13_forgotten c base name e f w st st' :
  setting c base name e f -> run c e f = (Ok tt, w) -> w_fs w <> f ->
  starts_from c base name f st -> starts_from c base name (w_fs w) st' ->
  exists k deps, let before := wrap64 (e_clock e k - c_cleanup_after c) in
    (forall d, d ∈ deps -> run_clock e (dp_since d) /\
       exists rel h, (rel, h) ∈ state_files st /\ dp_path d = public_path c rel) /\
    st_deprecated st' = filter (fun d => (before < dp_since d)%Z) (st_deprecated st ++ deps) /\
    (forall d b m, d ∈ st_deprecated st ++ deps -> (dp_since d <= before)%Z -> w_fs w !! dp_path d <> Some (File b m)).
Proof.
  intros Hs%setting_sane Hrun Hch Hst Hst'. destruct (ok_run c base name e f Hs w Hrun)
    as [(H & _)|(st0 & n0 & n & sg & f1 & v & st1 & f2 & cb & st2 & f3 & f4 & n' & f5 & Ha & Hsv & _ & HN & H2)]; [done|].
  destruct (H2 _ Hst') as [v' ->].
  pose proof (an_rsync _ _ _ _ _ _ _ _ _ _ _ _ _ _ _ _ _ (as_notify _ _ _ _ _ _ _ _ _ _ _ _ _ _ _ _ _ _ _ Ha)) as A1.
  pose proof (ar_clean _ _ _ _ _ _ _ _ _ _ _ _ _ _ _ _ A1) as A2.
  pose proof (am_start _ _ _ _ _ _ _ _ _ _ (ac_move _ _ _ _ _ _ _ _ _ _ _ _ _ A2)) as Hst0.
  rewrite (starts_unique _ _ _ _ _ _ Hst0 Hst) in *.
  destruct (mg_deprecated _ _ _ _ (ac_merged _ _ _ _ _ _ _ _ _ _ _ _ _ A2)) as (deps & M1 & M2 & M3).
  destruct (ar_time _ _ _ _ _ _ _ _ _ _ _ _ _ _ _ _ A1) as [k Hk].
  exists k, deps. cbv zeta. rewrite <- Hk. split; [|split].
  - intros d Hd. rewrite Forall_forall in M3. split; [by apply M3|].
    apply (dropped_files c base name (set_validator st v) sg); [apply good_set_validator; by eapply start_good|].
    rewrite <- M2. apply elem_of_list_fmap. by exists d.
  - cbn. destruct A1 as [_ _ A3 _ _]. rewrite A3. cbn. by rewrite M1.
  - intros d b m Hd Hle E.
    assert (Hx : expired st1 cb (dp_path d)) by (exists d; by rewrite M1).
    pose proof (ar_gone _ _ _ _ _ _ _ _ _ _ _ _ _ _ _ _ A1 _ Hx) as Hg.
    destruct (expired_public c base name e f Hs _ _ _ _ _ _ _ _ _ _ A2 Hx) as (rel & Hr & Ep).
    rewrite Ep in *. destruct (good_rel_apart c name rel Hr) as [P1%apart_neq P2%apart_neq].
    apply view_file in E. rewrite (final_view c base name e f Hs _ _ _ _ _ _ _ _ _ _ _ _ _ _ _ _ (public_under c rel) P1 P2 Ha Hsv) in E.
    apply view_file in E. unfold fs_exists, fs_stat in Hg. rewrite fs_get_nonroot in Hg.
    + by rewrite E in Hg.
    + unfold public_path. pose proof (split_on_nonempty slash rel). by destruct (c_rrdp_dir c), (split_on slash rel).
Qed.
(** Cleaning leaves no directory empty that contained something before, unless
    the operating system refuses to remove it. *)
Theorem C13_no_empty_directory st c e w r w' q :
  (forall n, e_fault e n ORemoveFile = None /\ e_fault e n ORemoveDir = None) ->
  wf (w_fs w) -> clean st c e w = (r, w') ->
  q <> [] -> w_fs w' !! q = Some Dir ->
  (exists p nd, w_fs w !! p = Some nd /\ below q p) ->
  exists p nd, w_fs w' !! p = Some nd /\ below q p.
Proof.
  intros Hnf Hwf Hcl Hq Hd Hi.
  pose proof (w_clean_tidy e (w_fs w) Hnf c st w Hwf (fun _ _ _ _ H => H)) as H. apply wpt_elim in H.
  rewrite Hcl in H. cbn [snd] in H. by apply (H q Hq).
Qed.

(** ** C14: cleanup deletes nothing else *)
(** At every instant of a cleanup: nothing is new or altered; a file that is
    gone is an expired record's; a directory that is gone is above an expired
    record's path, or is that path, and has nothing in it. *)
Theorem C14_only_expired st c e w r w' g :
  wf (w_fs w) -> (forall d, d ∈ st_deprecated st -> dp_path d <> []) ->
  clean st c e w = (r, w') ->
  (g = w_fs w' \/ exists l, w_trace w' = w_trace w ++ l /\ EvFs g ∈ l) ->
  let before := wrap64 (e_clock e (w_n w) - c_cleanup_after c) in
  g ⊆ w_fs w /\
  forall p nd, w_fs w !! p = Some nd -> g !! p = None ->
    (exists d, d ∈ st_deprecated st /\ (dp_since d <= before)%Z /\ (p = dp_path d \/ (nd = Dir /\ below p (dp_path d)))) /\
    (forall q nd', g !! q = Some nd' -> ~ below p q).
Proof.
  intros Hwf Hne Hcl Hg before.
  assert (HC : cleaning st before (w_fs w) g).
  { pose proof (w_cleaning e c st w (fun _ w' => cleaning st before (w_fs w) (w_fs w')) Hwf Hne
                  ltac:(done) ltac:(done)) as (l' & E & HJ & HQ).
    rewrite Hcl in E, HQ. cbn [snd] in E, HQ. destruct Hg as [->|(l & Hl & Hg)]; [done|].
    rewrite Hl in E. apply app_inv_head in E as <-. rewrite Forall_forall in HJ. by apply (HJ _ Hg). }
  destruct HC as [C1 C2 C3].
  split; [done|]. intros p nd Ep Eg. split.
  - destruct (C3 p) as [E|[(d & Hd & Hle & ->)|((q & (d & Hd & Hle & ->) & Hb) & [E|E] & _)]].
    + congruence.
    + exists d. auto.
    + congruence.
    + exists d. split; [done|]. split; [done|]. right. split; [congruence|done].
  - intros q nd' Eq Hb. assert (Hp : p <> []).
    { intros ->. pose proof (Hwf _ _ Ep) as [? _]%parent_is_dir_spec. done. }
    pose proof (wf_below _ _ _ _ C1 Eq Hb Hp). congruence.
Qed.

(** A run long after the others: it drops the files of session A and removes
    those dropped by the second run. *)
Definition late : env := run_env (docs3 2) 20000.
Lemma late_offers f n : offers demo_config late f n -> n = src3 2.
Proof. apply docs3_offers. lia. Qed.
Lemma late_setting : setting demo_config base name late (tree3 2).
Proof.
  split; [apply demo_cfg_ok|apply mirror3; lia|]. split; [|apply safe_clean].
  intros n ->%late_offers. apply src3_good.
Qed.
Lemma late_honest : honest_run demo_config late (tree3 2).
Proof.
  destruct (serve_honest 2 ltac:(lia)) as (H1 & H2 & H3). split; [apply serve_no_304|]. split; [done|].
  intros n ->%late_offers. intros u h h' L1%listing_ref L2%listing_ref.
  destruct L1 as (a & Ha & <- & <-), L2 as (b & Hb & E & <-). by rewrite (sb_unique _ _ _ src3_stable 2 2 a b).
Qed.
Definition late_tree : fs := after (run demo_config late (tree3 2)).
Example C12_applies :
  setting demo_config base name late (tree3 2) /\ honest_run demo_config late (tree3 2) /\
  (exists w, run demo_config late (tree3 2) = (Ok tt, w) /\ w_fs w = late_tree) /\
  let p := public_path demo_config (snap_rel uuid_A 3) in
  (exists b m, tree3 2 !! p = Some (File b m)) /\ late_tree !! p = None /\
  let q := public_path demo_config (snap_rel uuid_A 5) in
  (exists b m, late_tree !! q = Some (File b m)).
Proof.
  split; [apply late_setting|]. split; [apply late_honest|]. split.
  { by apply (ran_ok _ _ _ (fun g => g = late_tree)); [vm_compute|]. }
  split; [do 2 eexists; vm_compute; reflexivity|]. split; [vm_compute; reflexivity|].
  do 2 eexists; vm_compute; reflexivity.
Qed.
Example C13_applies : late_tree <> tree3 2 /\
  (exists st, starts_from demo_config base name (tree3 2) st /\ length (st_deprecated st) = 2) /\
  (exists st, starts_from demo_config base name late_tree st /\ length (st_deprecated st) = 4).
Proof.
  split; [apply (bool_decide_unpack _); by vm_compute|].
  split; (refine (state_of_check _ _ _ _ _ _); by vm_compute).
Qed.
(** a cleanup on the tree of the second run *)
Example C14_applies : exists st r w', starts_from demo_config base name (tree3 2) st /\
  clean st demo_config late (resume (tree3 2)) = (r, w') /\ wf (tree3 2) /\
  w_fs w' !! public_path demo_config (snap_rel uuid_A 3) = None.
Proof.
  assert (H : match state_of demo_config (tree3 2) with
              | Some st => bool_decide (w_fs (clean st demo_config late (resume (tree3 2))).2 !!
                             public_path demo_config (snap_rel uuid_A 3) = None)
              | None => false end = true) by (by vm_compute).
  destruct (state_of demo_config (tree3 2)) as [st|] eqn:E; [|done]. exists st. do 2 eexists.
  split; [by apply state_of_starts|]. split; [apply surjective_pairing|]. split.
  - destruct (mirror_own any_notif demo_config base name (tree3 2) demo_cfg_ok) as [? _]; [apply mirror3; lia|done].
  - by apply bool_decide_eq_true in H.
Qed.
Print Assumptions C12_kept.
Print Assumptions C12_recorded.
Print Assumptions C12_remembered.
Print Assumptions C13_forgotten.
Print Assumptions C13_no_empty_directory.
Print Assumptions C14_only_expired.
