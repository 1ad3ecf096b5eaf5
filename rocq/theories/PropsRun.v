(** * What a run does to the tree: C02, C03, C07, C26 *)
From Coq Require Import ZifyN ZifyNat ZifyBool.
From Verif Require Import DemoRun RunDone.

(** ** C02: the notification is replaced atomically *)
(** There is one new document for the whole run; at every instant the public
    notification is as it was before, or that document in full. *)
Theorem C02_atomic c base name e f :
  setting c base name e f ->
  exists n, forall g, g ∈ instants c e f ->
    g !! notif_path c name = f !! notif_path c name \/
    g !! notif_path c name = Some (File (x_write_notif (e_ext e) n) None).
Proof.
  intros Hs%setting_sane. pose proof (sn_cfg _ _ _ _ _ Hs) as Hc. destruct (run c e f) as [r w] eqn:E.
  destruct (run_story c base name e f Hs r w E)
    as [[H _]|(st & n0 & n & sg & f1 & v & st' & f2 & cb & st2 & f3 & f4 & n' & H1 & H2 & H & _)].
  - exists (mkNotif (mkUuid 0 eq_refl) 0 "" "" []). intros g Hg. left.
    apply (front_N c base name Hc e f Hs). by apply H.
  - assert (E4 : f4 !! notif_path c name = f !! notif_path c name).
    { destruct (N_quiet c base name Hc) as (Q1 & Q2 & Q3 & Q4 & _).
      by apply (notify_path c base name e f Hs _ Q1 Q2 Q3 Q4 _ _ _ _ _ _ _ _ _ _ _ _ H1). }
    exists n'. intros g Hg. destruct (H g Hg) as [Hf|[[_ _ [Hn|Hn]]|(f5 & [_ _ _ H5] & Hsv)]].
    + left. by apply (front_N c base name Hc e f Hs).
    + left. by rewrite Hn.
    + by right.
    + right. by rewrite (save_N c base name Hc _ _ _ Hsv).
Qed.
(** a run that does replace a document *)
Example C02_applies : setting demo_config base name (env3 1) (tree3 1) /\
  tree3 1 !! notif_path demo_config name <> None /\
  tree3 2 !! notif_path demo_config name <> tree3 1 !! notif_path demo_config name.
Proof.
  split; [apply setting3; lia|]. split; [|apply moved3; lia]. intros E%served_none.
  pose proof (served3 1 ltac:(lia) ltac:(lia)) as H. rewrite E in H. discriminate H.
Qed.

(** ** C26: writes stay inside the configured directories *)
(** Every difference to the tree before the run is at a path krill-sync owns, or
    is the appearance or disappearance of a directory above such a path; and a
    directory with anything in it never disappears. *)
Theorem C26_frame c base name e f g p :
  setting c base name e f -> g ∈ instants c e f -> g !! p <> f !! p ->
  owned c p \/
  ((exists q, owned c q /\ below p q) /\ (f !! p = None \/ f !! p = Some Dir) /\ (g !! p = None \/ g !! p = Some Dir)).
Proof.
  intros Hs%setting_sane Hg Hne.
  destruct (phase_frame c base name e f Hs g (instant_phase c base name e f Hs g Hg)) as [_ Hm].
  destruct (Hm p) as [?|[?|(Ha & H1 & H2)]]; [done|by left|]. right. auto.
Qed.
Theorem C26_parents c base name e f g p q nd :
  setting c base name e f -> g ∈ instants c e f -> g !! q = Some nd -> below p q -> p <> [] -> g !! p = Some Dir.
Proof.
  intros Hs%setting_sane Hg Hq Hb Hp.
  pose proof (phase_wf c base name e f g (instant_phase c base name e f Hs g Hg)) as Hwf.
  destruct Hb as [[k ->] Hne]. revert nd Hq Hne. induction k as [|a k IH] using rev_ind; intros nd Hq Hne.
  - by rewrite app_nil_r in Hne.
  - specialize (Hwf _ _ Hq). unfold parent_is_dir in Hwf.
    assert (path_parent (p ++ k ++ [a]) = Some (p ++ k)) as Epp.
    { apply path_parent_spec. rewrite app_assoc, List.removelast_last. split; [|done]. by destruct p, k. }
    rewrite Epp in Hwf.
    destruct (decide (k = [])) as [->|Hk].
    + rewrite app_nil_r in Hwf. rewrite fs_get_nonroot in Hwf by done. by destruct (g !! p) as [[| |]|].
    + rewrite fs_get_nonroot in Hwf by (by destruct p). destruct (g !! (p ++ k)) as [[| |]|] eqn:Ek; try done.
      apply (IH Dir eq_refl). intros E. rewrite <- (app_nil_r p) in E at 1. by apply app_inv_head in E.
Qed.

Example C26_applies : setting demo_config base name (env3 1) (tree3 1) /\
  exists p, owned demo_config p /\ tree3 2 !! p <> tree3 1 !! p.
Proof.
  split; [apply setting3; lia|]. exists (notif_path demo_config name). split.
  - right. left. apply under_app.
  - apply moved3. lia.
Qed.
Print Assumptions C02_atomic.
Print Assumptions C26_frame.
Print Assumptions C26_parents.

(** ** C03: only verified files are published *)
(** At every instant, a file in the RRDP directory (other than the notification
    and its temporary file) that was not there before the run is the file that
    the source's notification lists for that path, with the listed hash. *)
Theorem C03_verified c base name e f g p b m :
  setting c base name e f -> honest_run c e f -> ~ may_copy e ->
  g ∈ instants c e f ->
  under (c_rrdp_dir c) p -> p <> notif_path c name -> p <> notif_tmp c name ->
  g !! p = Some (File b m) -> f !! p <> Some (File b m) ->
  exists n rel h, offers c e f n /\ (base +:+ rel, h) ∈ refs n /\ p = public_path c rel /\ x_hash (e_ext e) b = h.
Proof.
  intros Hs%setting_sane Hh Hcp Hg Hp HN Ht E Hne.
  pose proof (instant_phase c base name e f Hs g Hg) as Hph.
  destruct (phase_fate c base name e f Hs Hh g p Hp HN Ht Hph)
    as [H|[(n0 & n & rel & h & [Ho Hsv] & Hr & Hgr & -> & Hpb)|[H _]]].
  - destruct Hne. apply view_file. rewrite <- H. by apply view_file.
  - exists n0, rel, h. split; [done|]. split; [by eapply sav_refs|]. split; [done|].
    destruct Hpb as [(b' & m' & E' & Hb)|[? _]]; [|done]. cbn in E', Hb. rewrite E in E'. by injection E' as -> ->.
  - apply view_file in E. congruence.
Qed.
(** Also when renaming fails (say, because the staging directory is on another file
    system) and files are copied instead: then the file may be there in part. *)
Theorem C03_copied c base name e f g p b m :
  setting c base name e f -> honest_run c e f ->
  g ∈ instants c e f ->
  under (c_rrdp_dir c) p -> p <> notif_path c name -> p <> notif_tmp c name ->
  g !! p = Some (File b m) -> f !! p <> Some (File b m) ->
  exists n rel h rest, offers c e f n /\ (base +:+ rel, h) ∈ refs n /\ p = public_path c rel /\
    x_hash (e_ext e) (b +:+ rest) = h /\ ((forall k, e_fault e k ORename = None) -> rest = "").
Proof.
  intros Hs%setting_sane Hh Hg Hp HN Ht E Hne.
  pose proof (instant_phase c base name e f Hs g Hg) as Hph.
  destruct (phase_fate c base name e f Hs Hh g p Hp HN Ht Hph)
    as [H|[(n0 & n & rel & h & [Ho Hsv] & Hr & Hgr & -> & Hpb)|[H _]]].
  - destruct Hne. apply view_file. rewrite <- H. by apply view_file.
  - exists n0, rel, h.
    assert (Hin : (base +:+ rel, h) ∈ refs n0) by (by eapply sav_refs).
    destruct Hpb as [(b' & m' & E' & Hb)|[[k Hk] [(b' & m' & rest & E' & Hb) _]]]; cbn in E', Hb; rewrite E in E'; injection E' as <- <-.
    + exists "". by rewrite sapp_nil_r.
    + exists rest. split_and!; [done..|]. intros Hn. by rewrite Hn in Hk.
  - apply view_file in E. congruence.
Qed.
(** The same for the tree after a completed run, also when files could not be
    renamed and were copied instead. *)
Theorem C03_completed c base name e f w p b m :
  setting c base name e f -> honest_run c e f ->
  run c e f = (Ok tt, w) ->
  under (c_rrdp_dir c) p -> p <> notif_path c name -> p <> notif_tmp c name ->
  w_fs w !! p = Some (File b m) -> f !! p <> Some (File b m) ->
  exists n rel h, offers c e f n /\ (base +:+ rel, h) ∈ refs n /\ p = public_path c rel /\ x_hash (e_ext e) b = h.
Proof.
  intros Hs%setting_sane Hh Hrun Hp HN Ht E Hne.
  destruct (ok_run c base name e f Hs w Hrun)
    as [[H _]|(st & n0 & n & sg & f1 & v & st' & f2 & cb & st2 & f3 & f4 & n' & f5 & Ha & Hsv & _)]; [congruence|].
  apply view_file in E. rewrite (final_view c base name e f Hs _ _ _ _ _ _ _ _ _ _ _ _ _ _ _ p Hp HN Ht Ha Hsv) in E.
  destruct Ha as [[[A1 A2 A3 A4 A5] _] _ _ _]. destruct (clean_view _ _ _ _ p A4) as [E'|[_ E']]; [|congruence].
  rewrite E' in E. apply view_file in E.
  destruct (ac_files _ _ _ _ _ _ _ _ _ _ _ _ _ A1) as [Hmv Hpub].
  { eapply (run_honest c base name e f Hs Hh). apply A1. }
  pose proof (ac_move _ _ _ _ _ _ _ _ _ _ _ _ _ A1) as Am.
  destruct (decide (Exists (fun en => p = public_path c en.1) (staged_entries sg))) as [(en & Hen & ->)%Exists_exists|Hno].
  - destruct (entry_ref c base name e f Hs _ _ _ _ _ _ Am Hen) as ([Ho Hs'] & _ & Hr).
    exists n0, en.1, en.2. split; [done|]. split; [by eapply sav_refs|]. split; [done|].
    rewrite Forall_forall in Hpub. destruct (Hpub _ Hen) as (b' & m' & Eb & Hb). rewrite E in Eb.
    by injection Eb as -> ->.
  - destruct Hne. apply view_file in E. apply view_file.
    rewrite <- (stage_view c f f1 p (am_tree _ _ _ _ _ _ _ _ _ _ Am)).
    2: { intros Hu. by apply (apart_disjoint _ _ p (ck_s_r _ _ _ (sn_cfg _ _ _ _ _ Hs))). }
    rewrite <- E. symmetry. destruct Hmv as [_ Hm _ _]. apply (view_mods _ _ _ _ _ Hm).
    intros (en & Hen & [->| ->]); [|by destruct Hno; apply Exists_exists; exists en].
    destruct (entry_ref c base name e f Hs _ _ _ _ _ _ Am Hen) as (_ & (Hcl & _) & _).
    apply (apart_disjoint _ _ (staging_path c en.1) (ck_s_r _ _ _ (sn_cfg _ _ _ _ _ Hs))); [|done].
    by apply staging_path_under.
Qed.
(** A run that brings new files satisfies all hypotheses. *)
Lemma serve_honest i : i <= 2 -> honest_run demo_config (env3 i) (tree3 i).
Proof.
  intros Hi. split; [apply serve_no_304|]. split.
  - pose proof (follows3 i ltac:(lia)) as Hf.
    by destruct (follows_inv _ _ _ _ _ demo_cfg_ok src3_stable src3_good safe_clean _ _ Hf) as (L & [_ ? _ _ _ _]).
  - intros n ->%env3_offers; [|done]. intros u h h' H1%listing_ref H2%listing_ref.
    destruct H1 as (a & Ha & <- & <-), H2 as (b & Hb & E & <-).
    by rewrite (sb_unique _ _ _ src3_stable i i a b).
Qed.
Example C03_applies :
  setting demo_config base name (env3 1) (tree3 1) /\ honest_run demo_config (env3 1) (tree3 1) /\ ~ may_copy (env3 1) /\
  (exists w, run demo_config (env3 1) (tree3 1) = (Ok tt, w)) /\
  let p := public_path demo_config (snap_rel uuid_A 5) in
  (exists b m, tree3 2 !! p = Some (File b m)) /\ tree3 1 !! p = None.
Proof.
  split; [apply setting3; lia|]. split; [apply serve_honest; lia|]. split; [apply serve_no_copy|]. split.
  - destruct (ran3 1) as (w & H & _); [lia|by exists w].
  - split; [apply file3; by right|apply new3].
Qed.
Print Assumptions C03_verified.
Print Assumptions C03_copied.
Print Assumptions C03_completed.

(** ** C07: the published version is the source's version *)
(** A run that succeeds has either left the tree alone, because the source
    answered "not modified" or has the recorded session and serial, or has
    published the session, serial and snapshot of the source's notification. *)
Theorem C07_version c base name e f w :
  setting c base name e f -> run c e f = (Ok tt, w) ->
  (w_fs w = f /\ exists st, starts_from c base name f st /\
    ((exists src, located (e_ext e) (config_fetcher c) (c_notif_uri c) = Some src /\ says_304 e src (ns_etag (st_source st))) \/
     (exists n s, offers c e f n /\ st_snap st = Some s /\ ss_session s = n_session n /\ ss_serial s = n_serial n))) \/
  (exists n n', offers c e f n /\
    w_fs w !! notif_path c name = Some (File (x_write_notif (e_ext e) n') None) /\
    n_session n' = n_session n /\ n_serial n' = n_serial n /\
    n_snap_uri n' = n_snap_uri n /\ n_snap_hash n' = n_snap_hash n).
Proof.
  intros Hs%setting_sane Hrun. destruct (ok_run c base name e f Hs w Hrun)
    as [(H & st & Hst & Hnn)|(st & n0 & n & sg & f1 & v & st' & f2 & cb & st2 & f3 & f4 & n' & f5 & Ha & _ & _ & HN & _)].
  - left. split; [done|]. exists st. split; [done|]. destruct Hnn as [?|(n0 & n & [Ho Hsv] & Hcv)]; [by left|]. right.
    destruct (sav_same _ _ _ _ _ Hsv) as (E1 & E2 & _).
    unfold compare_version in Hcv. destruct (st_snap st) as [s|]; [|done].
    case_bool_decide as Hse; [|done]. cbn in Hcv. destruct (N.compare_spec (ss_serial s) (n_serial n)); [|done..].
    exists n0, s. rewrite <- E1, <- E2. done.
  - right. destruct Ha as [[A1 _] (s & Es & ->) _ _].
    destruct (new_deltas c base name e f _ _ _ _ _ _ _ _ _ _ _ A1) as [_ Es2]. rewrite Es in Es2. injection Es2 as ->.
    pose proof (am_staged _ _ _ _ _ _ _ _ _ _ (ac_move _ _ _ _ _ _ _ _ _ _ _ _ _ (ar_clean _ _ _ _ _ _ _ _ _ _ _ _ _ _ _ _ A1))) as Hst.
    destruct (so_source _ _ _ _ _ _ _ _ Hst) as [Ho Hsv]. destruct (sav_same _ _ _ _ _ Hsv) as (E1 & E2 & E3 & E4).
    destruct (so_snap _ _ _ _ _ _ _ _ Hst) as (S1 & S2 & S3 & S4 & _).
    exists n0. eexists. split; [done|]. split; [exact HN|]. cbn. by rewrite S1, S2, S3, <- S4.
Qed.
(** one run of each kind *)
(** a successful run that has no trees in its trace *)
Definition unchanged_b (r : res unit * world) : bool :=
  match r.1, trees (w_trace r.2) with Ok _, [] => true | _, _ => false end.
Lemma unchanged_ok c e f : unchanged_b (run c e f) = true -> exists w, run c e f = (Ok tt, w) /\ w_fs w = f.
Proof.
  intros H. unfold unchanged_b in H. destruct (run c e f) as [[[]| |] w] eqn:E; [|done|done]. exists w. split; [done|].
  pose proof (after_instant c e f) as Ha. unfold instants in Ha. rewrite E in Ha. cbn [fst snd] in *.
  destruct (trees (w_trace w)); [|done]. apply elem_of_list_singleton in Ha. exact Ha.
Qed.
Example C07_applies :
  setting demo_config base name (env3 1) (tree3 1) /\
  (exists w, run demo_config (env3 1) (tree3 1) = (Ok tt, w) /\ w_fs w <> tree3 1) /\
  setting demo_config base name (env3 1) (tree3 2) /\
  (exists w, run demo_config (env3 1) (tree3 2) = (Ok tt, w) /\ w_fs w = tree3 2).
Proof.
  split; [apply setting3; lia|]. split; [|split].
  - apply ran_changed3. lia.
  - split; [apply demo_cfg_ok|apply mirror3; lia|apply env3_good; lia].
  - assert (H : unchanged_b (run demo_config (env3 1) t3_2) = true) by vm_cast_no_check (eq_refl true).
    rewrite <- (tree_at_eq 2) by lia. apply unchanged_ok, H.
Qed.
Print Assumptions C07_version.

