(** * C71: the staging directory *)
From Coq Require Import ZifyN ZifyNat ZifyBool.
From Verif Require Import Refuted Tracks DemoRun RunDone PropsHistory FsWf.

(** where the file with the URI [base ++ rel] is put before it is published *)
Definition staged_file (c : config) (rel : string) : path := staging_dir c ++ split_on slash rel.
(** the copy of the source's notification *)
Definition staged_notif (c : config) (name : string) : path := staging_dir c ++ [name].

(** no notification the source offers names a file that is staged at [p], or at
    a directory above [p] *)
Definition unlisted (c : config) (base : string) (e : env) (f : fs) (p : path) : Prop :=
  forall n u h rel, offers c e f n -> (u, h) ∈ refs n -> u = base +:+ rel -> ~ under (staged_file c rel) p.

(** ** The steps after staging, for any set of paths with the public directories *)
Section tail.
  Context (c : config) (base name : string) (Hc : cfg_ok c base name) (e : env) (f0 : fs).
  Context (A T : path -> Prop) (Aup : forall p q, T p -> under p q -> A q) (Aroot : ~ A []).
  Context (TR : forall p, under (c_rrdp_dir c) p -> T p) (TY : forall p, under (c_rsync_dir c) p -> T p).
  Context (Asp : A (rrdp_state_path c)) (Ayp : A (rsync_state_path c)).
  Notation I := (inside A f0).

  Lemma t_A p : T p -> A p.
  Proof using Aup. intros H. eapply Aup; [exact H|apply under_refl]. Qed.

  Lemma t_move rel : clean_rel rel -> T (staging_path c rel) -> keeps e I (move_file (staging_dir c) (c_rrdp_dir c) rel).
  Proof using Aup Aroot TR.
    intros H HT. apply (k_move_file e A f0 T Aup Aroot); [done|].
    rewrite path_join_clean by done. apply TR, under_app.
  Qed.

  Lemma t_write_notification st delay : good_state c base name st -> keeps e I (write_notification st delay).
  Proof using Hc Aup Aroot TR.
    intros Hg. unfold write_notification. apply keeps_bind; [apply keeps_when, keeps_sleep|]. intros _.
    rewrite (gs_map _ _ _ _ Hg), (gs_source _ _ _ _ Hg). unfold mp_path, tmp_name. cbn [mp_dir ns_name].
    rewrite (path_join_name _ name) by apply (ck_name _ _ _ Hc).
    rewrite (path_join_name _ (name +:+ ".tmp")) by (by eapply ends_with_tmp_noslash).
    apply keeps_bind; [apply q_make_notification|]. intros n. apply keeps_bind; [apply keeps_getext|]. intros x.
    apply keeps_bind; [|intros _].
    - apply k_write_buf; [apply Aroot|]. apply t_A, TR, under_app.
    - apply (k_rename e A f0 T Aup Aroot); apply TR, under_app.
  Qed.

  (** what follows the moves *)
  Lemma w_tail st sg w (Q : res unit -> world -> Prop) :
    I (w_fs w) -> (forall st', merged e st sg st' -> good_state c base name st') -> clean_snapshots (e_ext e) ->
    (forall r w', I (w_fs w') -> Q r w') ->
    wpt e (on_fs I)
      (st1 ← deprecate_snapshot st;
       let st2 := set_snap st1 (sg_snap sg) in
       st3 ← (if sg_reset sg then deltas_deprecate_all st2 else deltas_deprecate_before st2 (sg_cutoff sg));
       clean (merge_deltas st3 (sg_deltas sg)) c) w
      (fun r w' => match r with
       | Ok st2 => wpt e (on_fs I)
           (when_ (rsync_enabled c) (update_from_rrdp_state st2 c) ;;
            write_notification st2 (c_notify_delay c) ;;
            persist st2 (rrdp_state_path c)) w' Q
       | Err x => Q (Err x) w'
       | Panic => Q Panic w'
       end).
  Proof using Hc Aup Aroot TR TY Asp Ayp.
    intros HI Hm Hx HQ.
    apply (w_apply_memory e (on_fs I) ltac:(done) st sg (fun st' => clean st' c)).
    intros w3 st3 E3 Hmg. pose proof (Hm _ Hmg) as Hg3.
    apply (w_clean e c I (fun q => A q \/ anc A q) (fun g H => proj1 H)).
    - by rewrite E3.
    - apply in_rmd.
    - intros d Hd _. destruct (gs_deprecated _ _ _ _ Hg3 _ Hd) as (rel & Hr & ->).
      assert (HA : A (public_path c rel)) by (apply t_A, TR, public_under).
      split; [intros Ex; rewrite Ex in HA; by apply Aroot in HA|].
      split; [by apply in_rmf|]. intros q Hq _. by eapply pre_A.
    - intros x w4 HI4. by apply HQ.
    - intros w4 st4 Hcl HI4 _.
      assert (Hg4 : good_state c base name st4) by (by eapply good_cleaned).
      eapply wpt_keeps; [|exact HI4|auto].
      apply keeps_bind; [apply keeps_when; by apply (k_update_from_rrdp c e A T f0 Aup Aroot TY)|]. intros _.
      apply keeps_bind; [by apply t_write_notification|]. intros _. by apply k_write_buf.
  Qed.

  (** staging, when the staged files are in [A] *)
  Lemma t_retrieve_file fe u h target : A target -> keeps e I (retrieve_file fe u h target).
  Proof using Aroot.
    intros HA w HI. unfold retrieve_file. wp1. wp1. wp1. wp1.
    assert (Hget : forall w1, w_fs w1 = w_fs w ->
      wpt e (on_fs I) (src ← resolve_source fe u; _ ← fetch src (Some h) None (Some target); mret tt) w1
        (fun _ w' => I (w_fs w'))).
    { intros w1 E1. wp1. apply w_resolve_source; [|intros; by rewrite E1].
      intros src Hs. wp1. unfold fetch. wp1. apply w_fetch_raw.
      - by destruct src.
      - intros w2 b t E2 _. wp1. wp1. wp1. destruct (hash_matches (e_ext e) h b); wp1; [|by rewrite E2, E1].
        wp1. eapply wpt_keeps; [by apply k_write_buf|by rewrite E2, E1|].
        intros [[]|x|] w3 HI3; [|done..]. wp1. by wp1.
      - intros w2 E2 _. wp1. wp1. wp1. wp1. wp1. wp1. by rewrite E2, E1.
      - intros w2 x E2. by rewrite E2, E1. }
    wp1; [|by apply Hget]. destruct (hash_matches (e_ext e) h b); [by wp1|by apply Hget].
  Qed.

  Lemma t_relative {B} m u (k : string -> M B) :
    (forall rel, u = mp_base m +:+ rel -> keeps e I (k rel)) -> keeps e I (mp_relative m u ≫= k).
  Proof using.
    intros H w HI. wp1. unfold mp_relative. wp1; [|done]. apply strip_prefix_spec in H0. by apply H.
  Qed.
  Lemma t_deltas_stage st reset fe l :
    (forall d rel, d ∈ l -> di_uri d = mp_base (st_map st) +:+ rel -> A (staging_path c rel)) ->
    keeps e I (deltas_stage st reset fe c l).
  Proof using Aroot.
    induction l as [|d l IH]; intros HA; cbn [deltas_stage]; [apply keeps_ret|].
    assert (HA' : keeps e I (deltas_stage st reset fe c l)).
    { apply IH. intros d' rel' Hd'. apply HA. by constructor. }
    destruct (delta_is_new st reset (di_serial d)); [|done].
    apply t_relative. intros rel Hu.
    apply keeps_bind; [apply t_retrieve_file; eapply HA; [constructor|done]|]. intros _.
    apply keeps_bind; [apply keeps_of_option|]. intros ?. apply keeps_bind; [apply q_time_now|]. intros ?.
    apply keeps_bind; [done|]. intros ?. apply keeps_ret.
  Qed.
  Lemma t_snapshot_stage st n fe :
    (forall rel, n_snap_uri n = mp_base (st_map st) +:+ rel -> A (staging_path c rel)) ->
    keeps e I (snapshot_stage st n fe c).
  Proof using Aroot.
    intros HA. unfold snapshot_stage. apply t_relative. intros rel Hu.
    apply keeps_bind; [apply t_retrieve_file, HA, Hu|]. intros _.
    apply keeps_bind; [apply keeps_of_option|]. intros ?. apply keeps_bind; [apply q_time_now|]. intros ?. apply keeps_ret.
  Qed.
  Lemma t_update_staged st w :
    I (w_fs w) -> mp_base (st_map st) = base -> A (staging_path c (ns_name (st_source st))) ->
    (forall n u h rel, offers c e (w_fs w) n -> (u, h) ∈ refs n -> u = base +:+ rel -> A (staging_path c rel)) ->
    wpt e (on_fs I) (update_staged st c) w (fun _ w' => I (w_fs w')).
  Proof using Aroot.
    intros HI Hb Hn HA. unfold update_staged. cbv zeta. wp1. unfold notif_source_fetch. wp1. apply w_read_notification.
    { by intros [|] _. }
    2: { intros w1 src E1 _ _. wp1. wp1. by rewrite E1. }
    2: { intros w1 x E1. by rewrite E1. }
    intros w1 src b n0 t E1 Hloc Hs Hpn. wp1. wp1. wp1.
    assert (Hoff : offers c e (w_fs w) n0) by (exists src, b; done).
    destruct (sort_and_verify (e_ext e) (c_max_deltas c) n0) as [[n fine]|] eqn:Hsv; [|wp1; by rewrite E1].
    destruct fine; cbn [negb]; [|wp1; by rewrite E1].
    assert (HA' : forall u h rel, (u, h) ∈ refs n -> u = mp_base (st_map st) +:+ rel -> A (staging_path c rel)).
    { intros u h rel Hin Eu. rewrite Hb in Eu. eapply HA; [exact Hoff| |exact Eu]. by eapply sav_refs. }
    destruct (compare_version st n) as [reset| |]; [|wp1; by rewrite E1|wp1; by rewrite E1].
    eapply wpt_keeps; [|by rewrite E1|auto].
    apply keeps_bind; [by apply k_write_buf|]. intros _.
    apply keeps_bind; [apply t_snapshot_stage; intros rel Hu; eapply HA'; [|exact Hu]; constructor|]. intros snap.
    apply keeps_bind; [|intros; apply keeps_ret].
    apply t_deltas_stage. intros d rel Hd Hu. eapply (HA' _ (di_hash d)); [|exact Hu]. right.
    apply elem_of_list_fmap. by exists d.
  Qed.
End tail.

(** ** Files the source's versions do not name stay *)
Lemma staged_file_eq c rel : clean_rel rel -> staging_path c rel = staged_file c rel.
Proof. apply staging_path_clean. Qed.

Section left.
  Context (c : config) (base name : string) (e : env) (f : fs) (Hs : sane c base name e f).
  Context (p : path) (Hp : under (staging_dir c) p) (Hn : p <> staged_notif c name) (Hul : unlisted c base e f p).
  Let Hc : cfg_ok c base name := sn_cfg _ _ _ _ _ Hs.
  Let A (q : path) : Prop := owned c q /\ q <> p.
  Let T (q : path) : Prop := trees_of c q /\ ~ under q p.
  Notation I := (inside A f).

  Lemma left_up q r : T q -> under q r -> A r.
  Proof using. intros [H1 H2] Hu. split; [by eapply T_up|]. by intros ->. Qed.
  Lemma left_root : ~ A [].
  Proof using Hs. intros [H _]. by apply (A_root c base name Hc) in H. Qed.
  Lemma left_R q : under (c_rrdp_dir c) q -> T q.
  Proof using Hs Hp.
    intros H. split; [by apply T_R|]. intros Hu. eapply (apart_disjoint _ _ p (ck_s_r _ _ _ Hc)); [done|]. by eapply under_trans.
  Qed.
  Lemma left_Y q : under (c_rsync_dir c) q -> T q.
  Proof using Hs Hp.
    intros H. split; [by apply T_Y|]. intros Hu. eapply (apart_disjoint _ _ p (ck_s_y _ _ _ Hc)); [done|]. by eapply under_trans.
  Qed.
  Lemma left_states : A (rrdp_state_path c) /\ A (rsync_state_path c).
  Proof using Hs Hp.
    assert (H1 : apart (staging_dir c) (rrdp_state_path c)) by (rewrite staging_eq, rrdp_state_eq; by apply apart_names).
    assert (H2 : apart (staging_dir c) (rsync_state_path c)) by (rewrite staging_eq, rsync_state_eq; by apply apart_names).
    split; split; [unfold owned; tauto| |unfold owned; tauto|]; intros E.
    - apply (apart_disjoint _ _ p H1); [done|]. rewrite E. apply under_refl.
    - apply (apart_disjoint _ _ p H2); [done|]. rewrite E. apply under_refl.
  Qed.
  Lemma left_file rel : clean_rel rel -> ~ under (staged_file c rel) p -> T (staging_path c rel) /\ A (staging_path c rel).
  Proof using.
    intros Hr H. rewrite (staged_file_eq _ _ Hr).
    assert (HT : T (staged_file c rel)) by (split; [left; apply under_app|done]).
    split; [done|]. by eapply left_up, under_refl.
  Qed.

  Lemma left_process : wpt e (on_fs I) (process c) (resume f) (fun _ w' => I (w_fs w')).
  Proof using Hs Hp Hn Hul.
    assert (Hwf : wf f) by apply (sn_tree _ _ _ _ _ Hs).
    assert (I0 : I f) by (split; [done|apply mods_refl]).
    unfold process. wp1. eapply (w_load_state c base name Hc); [|intros w1 x E1; by rewrite E1].
    intros w1 st E1 Hst. cbn [resume w_fs] in E1, Hst.
    assert (Hg : good_state c base name st) by (by eapply start_good).
    assert (Hcl : forall n0 u h rel, offers c e (w_fs w1) n0 -> (u, h) ∈ refs n0 -> u = base +:+ rel -> clean_rel rel).
    { intros n0 u h rel Hoff Hin Eu. rewrite E1 in Hoff. by destruct (sn_notif _ _ _ _ _ Hs n0 Hoff _ _ _ Hin Eu). }
    assert (S1 : wpt e (on_fs I) (update_staged st c) w1 (fun _ w' => I (w_fs w'))).
    { apply (t_update_staged c base e f A left_root).
      - by rewrite E1.
      - by rewrite (gs_map _ _ _ _ Hg).
      - rewrite (gs_source _ _ _ _ Hg). cbn [ns_name]. unfold staging_path. rewrite path_join_name by apply (ck_name _ _ _ Hc).
        split; [left; apply under_app|]. intros E. by apply Hn.
      - intros n u h rel Hoff Hin Eu. apply left_file; [by eapply Hcl|]. rewrite E1 in Hoff. by eapply Hul. }
    assert (S2 : wpt e (on_fs (fun _ => True)) (update_staged st c) w1
      (fun r _ => forall sg, r = Ok (Some sg) -> exists n0 n, staged_ok c e f base st sg n0 n)).
    { apply (w_update_staged e c (fun _ => True) ltac:(done) ltac:(done) base name st w1); try done.
      - by rewrite (gs_map _ _ _ _ Hg).
      - by rewrite (gs_source _ _ _ _ Hg).
      - apply (ck_name _ _ _ Hc).
      - intros n0 n Hsv u h. by eapply sav_refs.
      - intros w' sg n0 n _ Hso _ sg' [= <-]. rewrite E1 in Hso. by exists n0, n. }
    wp1. eapply wpt_conseq; [exact (wpt_and _ _ _ _ _ _ _ S1 S2)|by intros [] []|].
    intros [[sg|]|x|] w2 [HI2 HS2]; [|by wp1|done..].
    destruct (HS2 _ eq_refl) as (n0 & n & Hso). clear HS2 S1 S2.
    assert (Hn0 : good_notif base name n0) by (apply (sn_notif _ _ _ _ _ Hs), Hso).
    assert (Hent : forall rel h, (rel, h) ∈ staged_entries sg -> clean_rel rel /\ T (staging_path c rel)).
    { intros rel h Hin. destruct (entry_good c base name e f st sg n0 n rel h) as [[Hr _] Hrf]; try done.
      split; [done|]. apply left_file; [done|]. eapply Hul; [apply Hso|eapply sav_refs; [apply Hso|exact Hrf]|done]. }
    unfold publish_staged. wp1.
    eapply (wpt_quiet e _ (pre_validate st c) w2 (fun r => forall st', r = Ok st' -> exists v, st' = set_validator st v /\
         check_step c (st_validator st) v));
      [intros; apply q_pre_validate|apply pre_validate_check; apply Forall_app_2; [apply (ck_state _ _ _ Hc)|by constructor]|done|].
    intros [st1|x|] w3 E3 Hv; [|by rewrite E3..].
    destruct (Hv _ eq_refl) as (v & -> & _). clear Hv. rewrite <- E3 in HI2.
    wp1. eapply wpt_keeps; [apply q_scripts|done|]. intros [[]|x|] w4 HI4; [|done..].
    unfold apply_staged_changed.
    wp1. wp1. eapply wpt_keeps; [apply (t_move c e f A T left_up left_root left_R);
      eapply (Hent _ (ss_hash (sg_snap sg))); constructor|done|].
    intros [[]|x|] w5 HI5; [|done..].
    wp1. eapply wpt_keeps; [apply keeps_for_each|done|].
    { intros d Hd. apply (t_move c e f A T left_up left_root left_R);
        apply (Hent _ (ds_hash d)); right; apply elem_of_list_fmap; by exists d. }
    intros [[]|x|] w6 HI6; [|done..].
    destruct left_states as [L1 L2].
    apply (w_tail c base name Hc e f A T left_up left_root left_R left_Y L1 L2); [done| |apply (sn_snap _ _ _ _ _ Hs)|done].
    intros st' Hm. eapply (good_merged c base name e f (set_validator st v) sg n0 n); [by apply good_set_validator|done| |done].
    destruct Hso as [O1 O2 O3 O4 O5]. by split.
  Qed.

  Lemma left_kept g : g ∈ instants c e f -> f !! p <> None -> f !! p <> Some Dir -> g !! p = f !! p.
  Proof using Hs Hp Hn Hul.
    intros Hg H1 H2. destruct left_process as (l & Hl & HF & _). unfold instants, run in Hg. rewrite Hl in Hg.
    cbn [resume w_trace app] in Hg. rewrite Forall_forall in HF.
    assert (HI : g = f \/ I g).
    { apply elem_of_cons in Hg as [->|Hg]; [by left|]. right. apply trees_in in Hg. by apply (HF _ Hg). }
    destruct HI as [->|[_ Hm]]; [done|]. destruct (Hm p) as [?|[[_ ?]|(_ & [?|?] & _)]]; done.
  Qed.
End left.

Theorem C71_left c base name e f g p :
  setting c base name e f -> under (staging_dir c) p -> p <> staged_notif c name -> unlisted c base e f p ->
  f !! p <> None -> f !! p <> Some Dir -> g ∈ instants c e f -> g !! p = f !! p.
Proof. intros Hs%setting_sane H1 H2 H3 H4 H5 H6. by apply (left_kept c base name e f Hs p H1 H2 H3). Qed.

(** any number of runs in which the source does not name the file, each
    completed, failed or killed anywhere *)
Inductive unlisted_runs (c : config) (base name : string) (p : path) (f0 : fs) : fs -> Prop :=
| ur_start : unlisted_runs c base name p f0 f0
| ur_run f c' e g : unlisted_runs c base name p f0 f -> same_places c c' -> good_world c' base name e f ->
    unlisted c' base e f p -> g ∈ instants c' e f -> unlisted_runs c base name p f0 g
| ur_else f g : unlisted_runs c base name p f0 f -> wf g -> (forall q, owned c q -> g !! q = f !! q) ->
    unlisted_runs c base name p f0 g.
Theorem C71_for_good c base name f0 f p :
  cfg_ok c base name -> mirror any_notif c base name f0 ->
  under (staging_dir c) p -> p <> staged_notif c name -> f0 !! p <> None -> f0 !! p <> Some Dir ->
  unlisted_runs c base name p f0 f -> f !! p = f0 !! p.
Proof.
  intros Hc Hm Hp Hn H1 H2 Hr.
  assert (H : mirror any_notif c base name f /\ f !! p = f0 !! p); [|by apply H].
  induction Hr as [|f c' e g H [IHm IH] Hpl Hw Hu Hg|f g H [IHm IH] Hwf Hsame].
  - done.
  - split; [by eapply (mi_run _ _ _ _ f c' e)|]. rewrite <- IH.
    assert (Es : staging_dir c' = staging_dir c) by (rewrite !staging_eq; destruct Hpl as (_ & -> & _); done).
    apply (C71_left c' base name e f g p).
    + split; [by eapply places_cfg|by eapply mirror_places|done].
    + by rewrite Es.
    + unfold staged_notif. by rewrite Es.
    + done.
    + by rewrite IH.
    + by rewrite IH.
    + done.
  - split; [by eapply mi_else|]. rewrite <- IH. apply Hsame. by left.
Qed.
(** ** What a completed run leaves there *)
(** what staging changed: the listed files, and directories *)
Definition staged_only (c : config) (L : list string) : fs -> fs -> Prop :=
  mods (fun q => exists rel, rel ∈ L /\ q = staging_path c rel) (fun _ => True).
Lemma staged_only_mono c L L' f g : (forall rel, rel ∈ L -> rel ∈ L') -> staged_only c L f g -> staged_only c L' f g.
Proof. intros H. apply mods_weaken; [|by left]. intros q (rel & H1 & ->). eauto. Qed.

Section completed.
  Context (c : config) (base name : string) (e : env) (f : fs) (Hs : sane c base name e f).
  Let Hc : cfg_ok c base name := sn_cfg _ _ _ _ _ Hs.
  Notation anything := (on_fs (fun _ : fs => True)).

  Lemma s_retrieve fe u h rel w : clean_rel rel ->
    wpt e anything (retrieve_file fe u h (staging_path c rel)) w
      (fun r w' => r = Ok tt -> staged_only c [rel] (w_fs w) (w_fs w')).
  Proof using.
    intros Hr. apply (w_retrieve_file e c (fun _ => True) ltac:(done) ltac:(done)); [done|by apply staging_path_under|done|].
    intros w' _ Hm _ _. eapply mods_weaken; [| |exact Hm]; [|by left].
    intros q <-. exists rel. split; [constructor|done].
  Qed.
  Lemma s_deltas st reset fe l :
    (forall d rel, d ∈ l -> di_uri d = mp_base (st_map st) +:+ rel -> clean_rel rel) -> forall w,
    wpt e anything (deltas_stage st reset fe c l) w
      (fun r w' => forall ds, r = Ok ds -> staged_only c (ds_rel <$> ds) (w_fs w) (w_fs w')).
  Proof using.
    induction l as [|d l IH]; intros Hcl w; cbn [deltas_stage].
    { wp1. intros ds [= <-]. apply mods_refl. }
    assert (Hcl' : forall d' rel, d' ∈ l -> di_uri d' = mp_base (st_map st) +:+ rel -> clean_rel rel).
    { intros d' rel' Hd'. apply Hcl. by constructor. }
    destruct (delta_is_new st reset (di_serial d)); [|by apply IH].
    wp1. unfold mp_relative at 1. wp1; [|done]. rename a into rel. apply strip_prefix_spec in H.
    wp1. eapply wpt_post; [apply s_retrieve; eapply Hcl; [constructor|exact H]|].
    intros [[]|x|] w1 H1; [|done..]. specialize (H1 eq_refl).
    wp1. unfold mp_relative. wp1; [|done]. apply strip_prefix_spec in H0.
    assert (a = rel) as -> by (rewrite H in H0; by apply sapp_inv_head in H0).
    wp1. wp1; [done|]. wp1. eapply wpt_post; [by apply IH|].
    intros [ds|x|] w2 H2; [|done..]. specialize (H2 _ eq_refl). cbn [w_fs] in H2. wp1. intros ds' [= <-].
    eapply mods_trans; [eapply staged_only_mono; [|exact H1]|eapply staged_only_mono; [|exact H2]].
    - intros r ->%elem_of_list_singleton. constructor.
    - intros r Hr. by constructor.
  Qed.
  Lemma s_update_staged st w :
    mp_base (st_map st) = base -> ns_name (st_source st) = name ->
    (forall n0 u h rel, offers c e (w_fs w) n0 -> (u, h) ∈ refs n0 -> u = base +:+ rel -> clean_rel rel) ->
    wpt e anything (update_staged st c) w
      (fun r w' => forall sg, r = Ok (Some sg) ->
        staged_only c (name :: (staged_entries sg).*1) (w_fs w) (w_fs w')).
  Proof using Hs.
    intros Hb Hn Hcl. unfold update_staged. cbv zeta. wp1. unfold notif_source_fetch. wp1. apply w_read_notification.
    { by intros [|] _. }
    2: { intros w1 src E1 _ _. wp1. by wp1. }
    2: { by intros w1 x E1. }
    intros w1 src b n0 t E1 Hloc Hsv0 Hpn. wp1. wp1. wp1.
    assert (Hoff : offers c e (w_fs w) n0) by (exists src, b; done).
    destruct (sort_and_verify (e_ext e) (c_max_deltas c) n0) as [[n fine]|] eqn:Hsv; [|by wp1].
    destruct fine; cbn [negb]; [|by wp1].
    assert (Hcl' : forall u h rel, (u, h) ∈ refs n -> u = mp_base (st_map st) +:+ rel -> clean_rel rel).
    { intros u h rel Hin Eu. rewrite Hb in Eu. eapply Hcl; [exact Hoff| |exact Eu]. by eapply sav_refs. }
    destruct (compare_version st n) as [reset| |]; [|by wp1|by wp1].
    wp1. rewrite Hn.
    assert (Hw : wpt e anything (write_buf (staging_path c name) (x_write_notif (e_ext e) n)) w1
      (fun r w' => r = Ok tt -> staged_only c [name] (w_fs w) (w_fs w'))).
    { eapply wpt_conseq; [eapply (w_write_buf e (staged_only c [name] (w_fs w)) (fun _ => True) (staging_path c name)
        (x_write_notif (e_ext e) n) w1 (fun _ w' => staged_only c [name] (w_fs w) (w_fs w')))| |].
      - rewrite E1. apply mods_refl.
      - intros g q H1 _ Hq Hnn Hpd. apply mods_mkdir; auto.
      - done.
      - intros g b' H1 Hbb Hp Hst Hpd. apply mods_insert; [|done]. exists name. split; [constructor|done].
      - done.
      - done.
      - by intros [].
      - done. }
    eapply wpt_post; [exact Hw|]. intros [[]|x|] w2 H2; [|done..]. specialize (H2 eq_refl). clear Hw.
    wp1. unfold snapshot_stage. wp1. unfold mp_relative at 1. wp1; [|done]. rename a into rel.
    apply strip_prefix_spec in H.
    wp1. eapply wpt_post; [apply s_retrieve; eapply Hcl'; [constructor|exact H]|].
    intros [[]|x|] w3 H3; [|done..]. specialize (H3 eq_refl).
    wp1. unfold mp_relative. wp1; [|done]. apply strip_prefix_spec in H0.
    assert (a = rel) as -> by (rewrite H in H0; by apply sapp_inv_head in H0).
    wp1. wp1; [done|]. wp1. wp1. eapply wpt_post; [apply s_deltas|].
    { intros d rel' Hd Hu. eapply (Hcl' _ (di_hash d)); [|exact Hu]. right. apply elem_of_list_fmap. by exists d. }
    intros [ds|x|] w4 H4; [|done..]. specialize (H4 _ eq_refl). cbn [w_fs] in H4. wp1. intros sg [= <-].
    unfold staged_entries. cbn [sg_snap sg_deltas ss_rel fmap list_fmap fst].
    eapply mods_trans; [|eapply mods_trans].
    - eapply staged_only_mono; [|exact H2]. intros r ->%elem_of_list_singleton. constructor.
    - eapply staged_only_mono; [|exact H3]. intros r ->%elem_of_list_singleton. right. constructor.
    - eapply staged_only_mono; [|exact H4]. intros r Hr. right. right.
      apply elem_of_list_fmap in Hr as (d & -> & Hd). apply elem_of_list_fmap. exists (ds_rel d, ds_hash d). split; [done|].
      apply elem_of_list_fmap. by exists d.
  Qed.
  (** moving only takes files away from the staging directory *)
  Definition taken (f1 g : fs) : Prop := forall q, under (staging_dir c) q -> g !! q = f1 !! q \/ g !! q = None.
  Lemma taken_refl g : taken g g.
  Proof using. intros q _. by left. Qed.
  Lemma taken_trans g1 g2 g3 : taken g1 g2 -> taken g2 g3 -> taken g1 g3.
  Proof using. intros H1 H2 q Hq. destruct (H2 q Hq) as [->|?]; [by apply H1|by right]. Qed.
  Lemma outside_taken g1 g2 : mods (under (c_rrdp_dir c)) (anc (under (c_rrdp_dir c))) g1 g2 ->
    forall q, under (staging_dir c) q -> g2 !! q = g1 !! q.
  Proof using Hs.
    intros Hm q Hq. eapply mods_same; [exact Hm| |].
    - intros Hr. by apply (apart_disjoint _ _ q (ck_s_r _ _ _ Hc)).
    - intros (r & Hr & Hb). apply (apart_disjoint _ _ r (ck_s_r _ _ _ Hc)); [|done].
      eapply under_trans; [exact Hq|by apply below_under].
  Qed.
  Lemma rename_takes o t g mids fin : under (staging_dir c) o -> under (c_rrdp_dir c) t ->
    op_rename o t g = Some (mids, fin) -> taken g fin /\ fin !! o = None.
  Proof using Hs.
    intros Ho Ht E.
    assert (Hd : forall q, under (staging_dir c) q -> ~ under t q).
    { intros q Hq Hu. apply (apart_disjoint _ _ q (ck_s_r _ _ _ Hc)); [done|]. by eapply under_trans. }
    assert (Hot : o <> t) by (intros ->; eapply Hd; [exact Ho|apply under_refl]).
    assert (Hins : forall nd, taken g (<[t := nd]> (delete o g)) /\ <[t := nd]> (delete o g) !! o = None).
    { intros nd. split; [|by rewrite lookup_insert_ne, lookup_delete by done].
      intros q Hq. assert (t <> q) by (intros <-; eapply Hd; [exact Hq|apply under_refl]).
      rewrite lookup_insert_ne by done. destruct (decide (q = o)) as [->|Hne]; [right; apply lookup_delete|].
      left. by rewrite lookup_delete_ne. }
    assert (Hmv : taken g (move_tree o t g) /\ move_tree o t g !! o = None).
    { split.
      - intros q Hq. rewrite move_tree_other by (by apply Hd). destruct (decide (under o q)); auto.
      - rewrite move_tree_other by (by apply Hd). rewrite decide_True; [done|apply under_refl]. }
    unfold op_rename in E. destruct o as [|o0 o']; [done|]. set (o := o0 :: o') in *.
    destruct (fs_get g o) as [[b m| |l]|]; [| | |done].
    - destruct (parent_is_dir g t); [|done]. destruct (fs_get g t) as [[]|]; try done; injection E as <- <-; apply Hins.
    - destruct (parent_is_dir g t && negb (bool_decide (below o t))); [|done].
      destruct (fs_get g t) as [[]|]; try done; [|by injection E as <- <-].
      destruct (decide (o = t)); [done|]. destruct (has_children g t); [done|]. by injection E as <- <-.
    - destruct (parent_is_dir g t); [|done]. destruct (fs_get g t) as [[]|]; try done; injection E as <- <-; apply Hins.
  Qed.

  Lemma s_move rel w : clean_rel rel -> wf (w_fs w) ->
    wpt e anything (move_file (staging_dir c) (c_rrdp_dir c) rel) w
      (fun r w' => r = Ok tt -> taken (w_fs w) (w_fs w') /\ w_fs w' !! staging_path c rel = None).
  Proof using Hs.
    intros Hr Hwf. set (R := under (c_rrdp_dir c)).
    assert (R0 : ~ R []) by (intros H; apply prefix_nil_inv in H; by apply (rrdp_ne c _ _ Hc)).
    unfold move_file. cbv zeta. change (path_join (staging_dir c) rel) with (staging_path c rel).
    assert (Ho : under (staging_dir c) (staging_path c rel)) by (by apply staging_path_under).
    assert (Ht : R (path_join (c_rrdp_dir c) rel)) by (rewrite path_join_clean by done; apply under_app).
    wp1. eapply wpt_conseq; [apply (k_create_path e R (w_fs w)); [exact Ht|split; [done|apply mods_refl]]|by intros []|].
    intros [[]|x|] w1 [Hwf1 Hm1]; [|done..]. pose proof (outside_taken _ _ Hm1) as T1.
    wp1. wp1. destruct (fs_exists (w_fs w1) (staging_path c rel)); cbn [negb]; [|by wp1].
    wp1. wp1. unfold f_rename. apply wpt_fs_step.
    - intros _. wp1. eapply wpt_conseq; [apply (k_copy e R (w_fs w)); [exact R0|exact Ht|by split]|by intros []|].
      intros [[]|x|] w2 [Hwf2 Hm2]; [|done..]. pose proof (outside_taken _ _ Hm2) as T2.
      apply wpt_fs_step; [done|]. intros mids fin E. split; [by apply Forall_forall|]. split; [|done].
      intros _. rewrite push_fs_snoc. unfold op_remove_file in E.
      assert (fin = delete (staging_path c rel) (w_fs w2)) as -> by (destruct (fs_get (w_fs w2) _) as [[]|]; congruence).
      split; [|apply lookup_delete]. intros q Hq. destruct (decide (q = staging_path c rel)) as [->|Hne]; [right; apply lookup_delete|].
      left. rewrite lookup_delete_ne by done. by apply T2.
    - intros mids fin E. split; [by apply Forall_forall|].
      destruct (rename_takes _ _ _ _ _ Ho Ht E) as [T2 Hg].
      split.
      + wp1. intros _. rewrite push_fs_snoc. split; [|done]. intros q Hq. rewrite <- (T1 q Hq). by apply T2.
      + intros j Hj. assert (mids = []) as ->.
        { unfold op_rename in E. destruct (staging_path c rel); [done|].
          repeat match type of E with context[match ?x with _ => _ end] => destruct x; try done end; by injection E. }
        rewrite take_nil.
        wp1. eapply wpt_conseq; [apply (k_copy e R (w_fs w)); [exact R0|exact Ht|by split]|by intros []|].
        intros [[]|x|] w2 [Hwf2 Hm2]; [|done..]. pose proof (outside_taken _ _ Hm2) as T3.
        apply wpt_fs_step; [done|]. intros mids' fin' E'. split; [by apply Forall_forall|]. split; [|done].
        intros _. rewrite push_fs_snoc. unfold op_remove_file in E'.
        assert (fin' = delete (staging_path c rel) (w_fs w2)) as -> by (destruct (fs_get (w_fs w2) _) as [[]|]; congruence).
        split; [|apply lookup_delete]. intros q Hq. destruct (decide (q = staging_path c rel)) as [->|Hne]; [right; apply lookup_delete|].
        left. rewrite lookup_delete_ne by done. by apply T3.
  Qed.
  (** after the moves *)
  Lemma s_move' f0 rel w : clean_rel rel -> inside (owned c) f0 (w_fs w) ->
    wpt e anything (move_file (staging_dir c) (c_rrdp_dir c) rel) w
      (fun r w' => inside (owned c) f0 (w_fs w') /\
         (r = Ok tt -> taken (w_fs w) (w_fs w') /\ w_fs w' !! staging_path c rel = None)).
  Proof using Hs.
    intros Hr HI. eapply wpt_conseq; [exact (wpt_and _ _ _ _ _ _ _ (k_move c base name Hc e f0 rel Hr w HI) (s_move rel w Hr (proj1 HI)))| |].
    - by intros [].
    - done.
  Qed.
  Lemma s_moves f0 l w : (forall d, d ∈ l -> clean_rel (ds_rel d)) -> inside (owned c) f0 (w_fs w) ->
    wpt e anything (for_each l (fun d => move_file (staging_dir c) (c_rrdp_dir c) (ds_rel d))) w
      (fun r w' => inside (owned c) f0 (w_fs w') /\
         (r = Ok tt -> taken (w_fs w) (w_fs w') /\ forall d, d ∈ l -> w_fs w' !! staging_path c (ds_rel d) = None)).
  Proof using Hs.
    revert w. induction l as [|d l IH]; intros w Hcl HI; cbn [for_each].
    { wp1. split; [done|]. intros _. split; [apply taken_refl|]. by intros d ?%elem_of_nil. }
    wp1. eapply wpt_post; [apply (s_move' f0); [apply Hcl; constructor|done]|].
    intros [[]|x|] w1 [HI1 H1]; [|done..]. destruct (H1 eq_refl) as [T1 N1].
    eapply wpt_post; [apply IH; [|done]; intros d' Hd'; apply Hcl; by right|].
    intros r w2 [HI2 H2]. split; [done|]. intros Hr. destruct (H2 Hr) as [T2 N2].
    split; [by eapply taken_trans|]. intros d' [->|Hd']%elem_of_cons; [|by apply N2].
    destruct (T2 (staging_path c (ds_rel d))) as [->|?]; [apply staging_path_under, Hcl; constructor|done|done].
  Qed.

  (** apart from the staging directory *)
  Let A (q : path) : Prop := owned c q /\ ~ under (staging_dir c) q.
  Let T (q : path) : Prop := under (c_rrdp_dir c) q \/ under (c_rsync_dir c) q.
  Lemma rest_up q r : T q -> under q r -> A r.
  Proof using Hs.
    intros [H|H] Hu; (split; [unfold owned|]).
    - right. left. by eapply under_trans.
    - intros Hp. apply (apart_disjoint _ _ r (ck_s_r _ _ _ Hc)); [done|]. by eapply under_trans.
    - right. right. left. by eapply under_trans.
    - intros Hp. apply (apart_disjoint _ _ r (ck_s_y _ _ _ Hc)); [done|]. by eapply under_trans.
  Qed.
  Lemma rest_root : ~ A [].
  Proof using Hs. intros [H _]. by apply (A_root c base name Hc) in H. Qed.
  Lemma rest_states : A (rrdp_state_path c) /\ A (rsync_state_path c).
  Proof using.
    assert (H1 : apart (staging_dir c) (rrdp_state_path c)) by (rewrite staging_eq, rrdp_state_eq; by apply apart_names).
    assert (H2 : apart (staging_dir c) (rsync_state_path c)) by (rewrite staging_eq, rsync_state_eq; by apply apart_names).
    split; (split; [unfold owned; tauto|]); intros E.
    - by apply (apart_disjoint _ _ _ H1 E), under_refl.
    - by apply (apart_disjoint _ _ _ H2 E), under_refl.
  Qed.
  Lemma rest_kept g1 g2 q : inside A g1 g2 -> under (staging_dir c) q -> g2 !! q = g1 !! q.
  Proof using.
    intros [_ Hm] Hq. eapply mods_same; [exact Hm|by intros [_ ?]|].
    intros (r & [_ Hr] & Hb). apply Hr. eapply under_trans; [exact Hq|by apply below_under].
  Qed.

  Lemma s_process : wpt e anything (process c) (resume f) (fun r w' => r = Ok tt ->
    forall p, under (staging_dir c) p -> p <> staged_notif c name ->
      w_fs w' !! p = f !! p \/ w_fs w' !! p = None \/ w_fs w' !! p = Some Dir).
  Proof using Hs.
    assert (Hwf : wf f) by apply (sn_tree _ _ _ _ _ Hs).
    unfold process. wp1. eapply (w_load_state c base name Hc); [|by intros w1 x E1].
    intros w1 st E1 Hst. cbn [resume w_fs] in E1, Hst.
    assert (Hg : good_state c base name st) by (by eapply start_good).
    assert (Hcl : forall n0 u h rel, offers c e (w_fs w1) n0 -> (u, h) ∈ refs n0 -> u = base +:+ rel -> clean_rel rel).
    { intros n0 u h rel Hoff Hin Eu. rewrite E1 in Hoff. by destruct (sn_notif _ _ _ _ _ Hs n0 Hoff _ _ _ Hin Eu). }
    assert (Hb : mp_base (st_map st) = base) by (by rewrite (gs_map _ _ _ _ Hg)).
    assert (Hn : ns_name (st_source st) = name) by (by rewrite (gs_source _ _ _ _ Hg)).
    assert (S1 : wpt e (on_fs (stage_tree c f)) (update_staged st c) w1
      (fun r w' => stage_tree c f (w_fs w') /\ (r = Ok None -> w_fs w' = f) /\
         forall sg, r = Ok (Some sg) -> exists n0 n, staged_ok c e f base st sg n0 n)).
    { apply (w_update_staged e c (stage_tree c f) (st_mk c f) (st_wr c f) base name st w1); try done.
      - rewrite E1. by apply st_refl.
      - apply (ck_name _ _ _ Hc).
      - intros n0 n Hsv u h. by eapply sav_refs.
      - intros w' H E _. split; [done|]. split; [by rewrite E|done].
      - intros w' sg n0 n H Hso _. split; [done|]. split; [done|]. intros sg' [= <-]. rewrite E1 in Hso. by exists n0, n. }
    wp1. eapply wpt_conseq; [exact (wpt_and _ _ _ _ _ _ _ S1 (s_update_staged st w1 Hb Hn Hcl))|by intros []|].
    intros [[sg|]|x|] w2 [(HT2 & HN2 & HS2) HM2]; [|wp1|done..].
    2: { intros _ p _ _. left. by rewrite HN2. }
    destruct (HS2 _ eq_refl) as (n0 & n & Hso). specialize (HM2 _ eq_refl). clear HN2 HS2 S1. rewrite E1 in HM2.
    assert (Hn0 : good_notif base name n0) by (apply (sn_notif _ _ _ _ _ Hs), Hso).
    assert (Hent : forall rel h, (rel, h) ∈ staged_entries sg -> clean_rel rel).
    { intros rel h Hin. by destruct (entry_good c base name e f st sg n0 n rel h) as [[Hr _] _]. }
    unfold publish_staged. wp1.
    eapply (wpt_quiet e _ (pre_validate st c) w2 (fun r => forall st', r = Ok st' -> exists v, st' = set_validator st v /\
         check_step c (st_validator st) v));
      [intros; apply q_pre_validate|apply pre_validate_check; apply Forall_app_2; [apply (ck_state _ _ _ Hc)|by constructor]|done|].
    intros [st1|x|] w3 E3 Hv; [|done..].
    destruct (Hv _ eq_refl) as (v & -> & _). clear Hv.
    wp1. eapply (wpt_quiet e _ (pre_validate_scripts c) w3 (fun _ => True));
      [intros; apply q_scripts|apply wpt_triv; intros; apply q_scripts|done|].
    intros [[]|x|] w4 E4 _; [|done..]. rewrite E3 in E4.
    assert (HI4 : inside (owned c) (w_fs w2) (w_fs w4)) by (rewrite E4; split; [apply HT2|apply mods_refl]).
    unfold apply_staged_changed. wp1. wp1.
    eapply wpt_post; [apply (s_move' (w_fs w2)); [eapply (Hent _ (ss_hash (sg_snap sg))); constructor|done]|].
    intros [[]|x|] w5 [HI5 H5]; [|done..]. destruct (H5 eq_refl) as [T5 N5]. clear H5.
    wp1. eapply wpt_post; [apply (s_moves (w_fs w2)); [|done]|].
    { intros d Hd. apply (Hent _ (ds_hash d)). right. apply elem_of_list_fmap. by exists d. }
    intros [[]|x|] w6 [HI6 H6]; [|done..]. destruct (H6 eq_refl) as [T6 N6]. clear H6.
    destruct rest_states as [L1 L2].
    eapply wpt_conseq; [apply (w_tail c base name Hc e (w_fs w6) A T rest_up rest_root ltac:(by left) ltac:(by right) L1 L2
      (set_validator st v) sg w6 (fun _ w' => inside A (w_fs w6) (w_fs w')))|by intros []|].
    { split; [apply HI6|apply mods_refl]. }
    { intros st' Hm. eapply (good_merged c base name e f (set_validator st v) sg n0 n); [by apply good_set_validator|done| |done].
      destruct Hso as [O1 O2 O3 O4 O5]. by split. }
    { apply (sn_snap _ _ _ _ _ Hs). }
    { done. }
    assert (Hfin : forall w', inside A (w_fs w6) (w_fs w') -> forall p, under (staging_dir c) p -> p <> staged_notif c name ->
      w_fs w' !! p = f !! p \/ w_fs w' !! p = None \/ w_fs w' !! p = Some Dir).
    { intros w' Hi p Hp Hpn. rewrite (rest_kept _ _ _ Hi Hp).
      destruct (taken_trans _ _ _ T5 T6 p Hp) as [E6|E6]; [|by auto]. rewrite E4 in E6.
      destruct (HM2 p) as [E2|[(rel & Hin & ->)|(_ & _ & [E2|E2])]].
      - left. by rewrite E6.
      - right. left. apply elem_of_cons in Hin as [->|Hin].
        { exfalso. apply Hpn. unfold staging_path. apply path_join_name, (ck_name _ _ _ Hc). }
        unfold staged_entries in Hin. apply elem_of_cons in Hin as [->|Hin].
        + destruct (T6 _ Hp) as [E|E]; [|exact E]. cbn [fst] in *. by rewrite E.
        + apply elem_of_list_fmap in Hin as ([r h] & -> & Hin). apply elem_of_list_fmap in Hin as (d & [= -> ->] & Hd).
          by apply N6.
      - right. left. by rewrite E6.
      - right. right. by rewrite E6. }
    intros [st2|x|] w7 H7; [|done..].
    eapply wpt_conseq; [exact H7|by intros []|]. intros r w8 H8 _. by apply Hfin.
  Qed.
End completed.

(** A run that completes adds no file to the staging directory but the copy of
    the notification, and changes none. *)
Theorem C71_completed c base name e f w p :
  setting c base name e f -> run c e f = (Ok tt, w) ->
  under (staging_dir c) p -> p <> staged_notif c name -> w_fs w !! p <> f !! p ->
  w_fs w !! p = None \/ w_fs w !! p = Some Dir.
Proof.
  intros Hs%setting_sane Hr H1 H2 H3. destruct (s_process c base name e f Hs) as (l & _ & _ & H).
  unfold run in Hr. rewrite Hr in H. by destruct (H eq_refl p H1 H2) as [?|[?|?]]; auto.
Qed.
(** ** This happens *)
(** The source's deltas cannot be fetched, so the run fails after it has staged
    the snapshot; the source then starts a new session. *)
Definition short_env : env := run_env (take 2 (docs3 1)) 1000.
Definition failed5 : fs := after (run demo_config short_env (tree3 1)).
Definition snap5 : path := staged_file demo_config (snap_rel uuid_A 5).
Definition left_check (f : fs) (p : path) (r1 r2 : res unit * world) : bool :=
  match r1.1, r2.1 with
  | Err _, Ok _ =>
      match f !! p, after r1 !! p, after r2 !! p with
      | None, Some (File b _), Some (File b' _) => String.eqb b (snap_doc uuid_A 5) && String.eqb b' (snap_doc uuid_A 5)
      | _, _, _ => false
      end && bool_decide (after r2 !! notif_path demo_config name <> after r1 !! notif_path demo_config name)
  | _, _ => false
  end.
Lemma left_facts f p r1 r2 : left_check f p r1 r2 = true ->
  (exists x w, r1 = (Err x, w) /\ w_fs w = after r1) /\ (exists w, r2 = (Ok tt, w) /\ w_fs w = after r2) /\ f !! p = None /\
  (exists b m, after r1 !! p = Some (File b m)) /\ after r1 !! p <> None /\ after r1 !! p <> Some Dir /\
  after r2 !! notif_path demo_config name <> after r1 !! notif_path demo_config name.
Proof.
  unfold left_check. destruct r1 as [[|x|] w1], r2 as [[[]| |] w2]; cbn [fst]; try done.
  destruct (f !! p); [done|]. destruct (after (Err x, w1) !! p) as [[b m| |]|] eqn:E; try done.
  destruct (after (Ok tt, w2) !! p) as [[b' m'| |]|]; try done.
  intros [_ H%bool_decide_eq_true_1]%andb_true_iff. repeat split; try done; eauto.
Qed.
Lemma left_checked : left_check (tree3 1) snap5 (run demo_config short_env (tree3 1)) (run demo_config (env3 2) failed5) = true.
Proof. vme. Qed.
Lemma short_offers f n : offers demo_config short_env f n -> n = src3 1.
Proof.
  intros H. apply serve_offers in H as (b & H1 & H2); [|done..].
  assert (E : x_parse_notif safe_ext (json_text (j_notif (src3 1))) = Some (src3 1) /\
          Demo.assoc (take 2 (docs3 1)) notif_uri = Some (json_text (j_notif (src3 1)))) by (by vm_compute).
  destruct E as [E1 E2]. congruence.
Qed.
Lemma short_good f : good_world demo_config base name short_env f.
Proof. split; [|apply safe_clean]. intros n ->%short_offers. apply src3_good. Qed.
Lemma failed_mirror : mirror any_notif demo_config base name failed5.
Proof.
  eapply (mi_run _ _ _ _ (tree3 1) demo_config short_env);
    [exact (mirror3 1 (le_S _ _ (le_S _ _ (le_n 1))))|apply same_places_refl|apply short_good|done|apply after_instant].
Qed.
Definition unlisted_check (n : notification) (p : path) : bool :=
  forallb (fun '(u, _) => match strip_prefix base u with
     | Some rel => negb (bool_decide (under (staged_file demo_config rel) p)) | None => true end) (refs n).
Lemma unlisted_B f : unlisted demo_config base (env3 2) f snap5.
Proof.
  intros n u h rel ->%(env3_offers 2); [|lia].
  assert (Hc : unlisted_check (src3 2) snap5 = true) by (by vm_compute). unfold unlisted_check in Hc.
  rewrite forallb_forall in Hc. intros Hin ->. specialize (Hc (base +:+ rel, h)).
  cbn beta iota in Hc. rewrite strip_prefix_app in Hc.
  apply elem_of_list_In in Hin. specialize (Hc Hin). by apply negb_true_iff, bool_decide_eq_false in Hc.
Qed.
Lemma snap5_under : under (staging_dir demo_config) snap5.
Proof. apply under_app. Qed.
Lemma snap5_name : snap5 <> staged_notif demo_config name.
Proof. intros E%(f_equal length). by vm_compute in E. Qed.
Lemma next_runs : unlisted_runs demo_config base name snap5 failed5 (after (run demo_config (env3 2) failed5)).
Proof.
  eapply (ur_run _ _ _ _ _ failed5 demo_config (env3 2));
    [constructor|apply same_places_refl|exact (env3_good 2 failed5 (le_n 2))|apply unlisted_B|apply after_instant].
Qed.
Opaque run failed5 tree3.
Theorem C71_refuted : exists f e g e' w p,
  setting demo_config base name e f /\ f !! p = None /\ under (staging_dir demo_config) p /\
  (* a run fails and leaves a file *)
  (exists x w0, run demo_config e f = (Err x, w0) /\ w_fs w0 = g) /\ (exists b m, g !! p = Some (File b m)) /\
  (* the next one publishes another version, and the file is still there *)
  run demo_config e' g = (Ok tt, w) /\ w_fs w !! notif_path demo_config name <> g !! notif_path demo_config name /\
  w_fs w !! p = g !! p /\
  (* and stays unless the source names it again *)
  forall f', unlisted_runs demo_config base name p g f' -> f' !! p = g !! p.
Proof.
  destruct (left_facts _ _ _ _ left_checked) as ((x & w0 & E1 & E1') & (w & E2 & E2') & E0 & Eb & H1 & H2 & Hne).
  pose proof (fun f' => C71_for_good demo_config base name failed5 f' snap5 demo_cfg_ok failed_mirror snap5_under snap5_name H1 H2) as Hall.
  exists (tree3 1), short_env, failed5, (env3 2), w, snap5.
  split; [split; [apply demo_cfg_ok|exact (mirror3 1 (le_S _ _ (le_S _ _ (le_n 1))))|apply short_good]|].
  split; [exact E0|]. split; [exact snap5_under|].
  split; [exact (ex_intro _ x (ex_intro _ w0 (conj E1 E1')))|].
  split; [exact Eb|]. split; [exact E2|]. rewrite E2'.
  split; [exact Hne|]. split; [|exact Hall]. apply (Hall _ next_runs).
Qed.

(** the hypotheses: this run, and one that completes and changes the directory *)
Example C71_applies : exists f e, setting demo_config base name e f /\ unlisted demo_config base e f snap5 /\
  f !! snap5 <> None /\ f !! snap5 <> Some Dir.
Proof.
  destruct (left_facts _ _ _ _ left_checked) as (_ & _ & _ & _ & H1 & H2 & _).
  exists failed5, (env3 2). split; [split; [apply demo_cfg_ok|apply failed_mirror|exact (env3_good 2 failed5 (le_n 2))]|].
  split; [apply unlisted_B|]. split; [exact H1|exact H2].
Qed.
(** ... a later run for the same version takes the snapshot from there *)
Definition next_check (f : fs) (p : path) (r : res unit * world) : bool :=
  match r.1, f !! p, after r !! p with Ok _, Some _, None => true | _, _, _ => false end.
Lemma next_facts f p r : next_check f p r = true -> exists w, r = (Ok tt, w) /\ w_fs w !! p <> f !! p.
Proof.
  unfold next_check, after. destruct r as [[[]| |] w]; cbn [fst snd]; [|done..].
  destruct (f !! p), (w_fs w !! p) eqn:E; try done. intros _. exists w. by rewrite E.
Qed.
Lemma next_checked : next_check failed5 snap5 (run demo_config (env3 1) failed5) = true.
Proof. vme. Qed.
Example C71_completed_applies : exists f e w, setting demo_config base name e f /\ run demo_config e f = (Ok tt, w) /\
  w_fs w !! snap5 <> f !! snap5.
Proof.
  destruct (next_facts _ _ _ next_checked) as (w & H1 & H2). exists failed5, (env3 1), w.
  split; [split; [apply demo_cfg_ok|apply failed_mirror|exact (env3_good 1 failed5 (le_S _ _ (le_n 1)))]|].
  split; [exact H1|exact H2].
Qed.
Transparent run failed5 tree3.
Print Assumptions C71_left.
Print Assumptions C71_for_good.
Print Assumptions C71_completed.
Print Assumptions C71_refuted.
