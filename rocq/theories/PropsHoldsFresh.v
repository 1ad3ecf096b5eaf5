(** * Lookups that are due (C53) and what pre-validation looks at (C29) *)
From Verif Require Import PropsValidator PropsDecide RunMaster RunView ReadBack HistoryProofs Demo DemoTree DemoRun Refuted PropsHoldsRequests PropsHoldsDelay.
From Verif Require Import FsWf.

(** A successful lookup, online, of a repository that was not looked up in this
    run and was fetched an hour or longer ago, or never: the data is that of
    a notification the source offers at the time, unless the source says that
    nothing changed since then. *)
Theorem C53_refresh e v u when w v' d' w' :
  get_latest v u false when e w = (Ok (v', inl d'), w') ->
  (forall d, vi_data v !! u = Some d -> rd_fetched d = false /\ forall k, (rd_last_fetch d <= e_clock e k - 3600)%Z) ->
  vi_data v' !! u = Some d' /\
  ((exists n, offered_notif e (w_fs w) (get_fetcher v u) n /\
      up_to_date e (w_fs w) (get_fetcher v u) n (vi_data v !! u) d') \/
   (exists d src, vi_data v !! u = Some d /\ same_content d d' /\
      located (e_ext e) (get_fetcher v u) (fe_notif (get_fetcher v u)) = Some src /\ says_304 e src (rd_etag d))).
Proof.
  intros E Hd.
  assert (H : wpt e anyev (get_latest v u false when) w (fun r w' => forall v' d', r = Ok (v', inl d') ->
    vi_data v' !! u = Some d' /\
    ((exists n, offered_notif e (w_fs w) (get_fetcher v u) n /\
        up_to_date e (w_fs w) (get_fetcher v u) n (vi_data v !! u) d') \/
     (exists d src, vi_data v !! u = Some d /\ same_content d d' /\
        located (e_ext e) (get_fetcher v u) (fe_notif (get_fetcher v u)) = Some src /\ says_304 e src (rd_etag d))))).
  2: { destruct (wpt_run _ _ _ _ _ _ _ H E) as (_ & _ & _ & H'). by apply H'. }
  clear E v' d' w'. set (f := get_fetcher v u).
  assert (HF : fetcher_ok e anyev f) by (intros u' [] t; done).
  assert (Hn : forall d', vi_data (set_data v (<[u:=d']> (vi_data v))) !! u = Some d') by (intros; cbn; apply lookup_insert).
  unfold get_latest. fold f.
  destruct (vi_data v !! u) as [d|] eqn:Ed.
  - destruct (Hd d eq_refl) as [Hf Hl]. rewrite Hf. wp1. wp1; [done|].
    destruct (Z.ltb_spec (e_clock e (w_n w) - 3600) (rd_last_fetch d)) as [Hlt|_]; [specialize (Hl (w_n w)); lia|].
    wp1. wp1. apply w_read_notification; [by eauto|..].
    + intros w1 src b n t Hw1 Hloc Hsrv Hp. cbn [push_ev w_fs] in Hw1, Hsrv.
      assert (Hoff : offered_notif e (w_fs w) f n) by by exists src, b.
      destruct (bool_decide (n_session n = rd_session d) && (n_serial n =? rd_serial d)%N) eqn:Esame.
      { apply andb_true_iff in Esame as [E1%bool_decide_eq_true E2%N.eqb_eq]. wp1. intros v' d'. rewrite Hn.
        intros [= <- <-]. split; [apply Hn|]. left. exists n. split; [done|]. by constructor. }
      wp1. wp1. apply w_data_from_deltas; [done|..].
      * intros w2 s' o' Hw2 Hses Hnd Hc Hmax Hex. wp1. intros v' d'. rewrite Hn.
        intros [= <- <-]. split; [apply Hn|]. left. exists n. split; [done|]. rewrite Hw1 in Hc. by constructor.
      * intros w2 _ Hw2. wp1. wp1. apply w_data_from_snapshot; [done|..].
        -- intros w3 o Hw3 Hsn. wp1. intros v' d'. rewrite Hn. rewrite Hw2, Hw1 in Hsn.
           intros [= <- <-]. split; [apply Hn|]. left. exists n. split; [done|]. by apply up_snapshot.
        -- intros w3 _ Hw3. wp1. intros v' d'. cbn. rewrite lookup_delete. done.
    + intros w1 src Hw1 Hloc H304. wp1. intros v' d'. rewrite Hn. intros [= <- <-]. split; [apply Hn|]. right.
      exists d, src. done.
    + intros w1 x Hw1. wp1. done.
  - wp1. wp1. unfold retrieve_new_repository. wp1. apply w_read_notification; [by eauto|..].
    + intros w1 src b n t Hw1 Hloc Hsrv Hp. unfold notif_content. wp1. wp1.
      apply w_data_from_snapshot; [done|..].
      * intros w2 o Hw2 Hsn. wp1. intros v' d'. rewrite Hn. rewrite Hw1 in Hsn.
        intros [= <- <-]. split; [apply Hn|]. left. exists n. split; [by exists src, b|]. by apply up_snapshot.
      * intros w2 x Hw2. wp1. done.
    + intros w1 src Hw1 Hloc H304. unfold notif_content. wp1. wp1. wp1. done.
    + intros w1 x Hw1. wp1. done.
Qed.

(** ** The tree before a step is among the trees of the run *)
Lemma last_tree_in l f : last_tree l f ∈ f :: trees l.
Proof.
  unfold last_tree. destruct (trees l) as [|g t]; [constructor|]. right.
  revert g. induction t as [|g' t IH]; intros g; [by left|]. right. apply IH.
Qed.
Lemma tracks_extends {A B} (m : M A) (k : A -> M B) e f a w1 w2 r :
  tracks m -> tracks (k a) -> m e (resume f) = (Ok a, w1) -> k a e w1 = (r, w2) ->
  w_fs w1 ∈ f :: trees (w_trace w2).
Proof.
  intros H1 H2 E1 E2. destruct (H1 e (resume f)) as (l & A1 & A2). rewrite E1 in A1, A2. cbn in A1, A2.
  destruct (H2 e w1) as (l' & B1 & _). rewrite E2 in B1. cbn in B1. rewrite B1, A1, A2, trees_app.
  pose proof (last_tree_in l f) as Hin. apply elem_of_cons in Hin as [->|Hin]; [by left|].
  right. apply elem_of_app. by left.
Qed.

(** ** The staged notification *)
Section staged.
  Context (c : config) (base name : string) (Hc : cfg_ok c base name) (e : env).
  Let np : path := staging_path c name.
  Let anyfs : fs -> Prop := fun _ => True.
  Lemma any_mk : mk_ok anyfs (stage_paths c).
  Proof using. done. Qed.
  Lemma any_wr p b : under (staging_dir c) p -> wr_ok anyfs p b.
  Proof using. done. Qed.

  Lemma other_path rel : good_rel name rel -> staging_path c rel <> np.
  Proof using Hc.
    intros (Hcl & Hn & _) E. unfold np in E. rewrite (staging_path_clean c rel Hcl) in E.
    unfold staging_path in E. rewrite path_join_name in E by apply (ck_name _ _ _ Hc).
    apply app_inv_head in E. apply Hn. by rewrite E.
  Qed.

  Lemma w_retrieve_keep f u h rel t w (Q : res unit -> world -> Prop) :
    good_rel name rel -> w_fs w !! np = Some (File t None) ->
    (forall x w', Q (Err x) w') -> (forall w', w_fs w' !! np = Some (File t None) -> Q (Ok tt) w') ->
    wpt e (on_fs anyfs) (retrieve_file f u h (staging_path c rel)) w Q.
  Proof using Hc.
    intros Hr Ht HE HQ. apply (w_retrieve_file e c anyfs any_mk any_wr); [done|by apply staging_path_under, Hr|done|].
    intros w' _ Hm _. apply HQ. eapply mods_file; [exact Hm| |done|exact Ht]. by apply other_path.
  Qed.
  Lemma w_deltas_keep st reset f t l : mp_base (st_map st) = base ->
    (forall d rel, d ∈ l -> di_uri d = base +:+ rel -> good_rel name rel) ->
    forall w, w_fs w !! np = Some (File t None) ->
    wpt e (on_fs anyfs) (deltas_stage st reset f c l) w (fun r w' => forall ds, r = Ok ds -> w_fs w' !! np = Some (File t None)).
  Proof using Hc.
    intros Hb. induction l as [|d l IH]; intros Hg w Ht; cbn [deltas_stage]; [by wp1|].
    assert (IH' : forall w, w_fs w !! np = Some (File t None) ->
      wpt e (on_fs anyfs) (deltas_stage st reset f c l) w (fun r w' => forall ds, r = Ok ds -> w_fs w' !! np = Some (File t None))).
    { apply IH. intros d' rel Hd'. apply Hg. by constructor. }
    destruct (delta_is_new st reset (di_serial d)); [|by apply IH'].
    wp1. unfold mp_relative at 1. wp1; [|done]. rename a into rel. rewrite Hb in H. apply strip_prefix_spec in H.
    wp1. apply (w_retrieve_keep _ _ _ _ t); [eapply Hg; [by left|done]|done|done|].
    intros w1 Ht1. wp1. unfold mp_relative. wp1; [|done]. wp1. wp1; [done|]. wp1.
    eapply wpt_conseq; [by apply IH'|done|]. intros [ds|x|] w2 Hw2; [|done..]. wp1. intros ds' _. by eapply Hw2.
  Qed.

  (** what is staged, and the notification that is read from the staging
      directory in pre-validation, belong to the same version *)
  Lemma w_staged_notif st w :
    mp_base (st_map st) = base -> ns_name (st_source st) = name ->
    (forall n0, offers c e (w_fs w) n0 -> good_notif base name n0) ->
    wpt e (on_fs anyfs) (update_staged st c) w (fun r w' => forall sg, r = Ok (Some sg) -> exists n0 n,
      from_source c e (w_fs w) n0 n /\ snap_of base e n (sg_snap sg) /\
      w_fs w' !! np = Some (File (x_write_notif (e_ext e) n) None)).
  Proof using Hc.
    intros Hb Hn Hgood. unfold update_staged. cbv zeta. wp1.
    unfold notif_source_fetch. wp1. apply w_read_notification.
    { by intros [| ] _. }
    2: { intros w1 src E1 Hloc H304. wp1. wp1. done. }
    2: { intros w1 x E1. done. }
    intros w1 src b n0 t E1 Hloc Hs Hpn. wp1. wp1. wp1.
    assert (Hoff : offers c e (w_fs w) n0) by (exists src, b; done).
    destruct (sort_and_verify (e_ext e) (c_max_deltas c) n0) as [[n fine]|] eqn:Hsv; [|by wp1].
    destruct fine; cbn [negb]; [|by wp1].
    assert (Hcl : forall u h rel, (u, h) ∈ refs n -> u = base +:+ rel -> good_rel name rel).
    { intros u h rel Hin. eapply (Hgood _ Hoff); by eapply sav_refs. }
    destruct (compare_version st n) as [reset| |] eqn:Hcv; [|by wp1..].
    wp1. rewrite Hn. fold np.
    eapply wpt_conseq; [eapply (w_write_buf e anyfs (fun _ => True) np (x_write_notif (e_ext e) n) w1
       (fun r w' => r <> Panic /\ (r = Ok tt -> w_fs w' !! np = Some (File (x_write_notif (e_ext e) n) None))))| |]; try done.
    intros [[]|x|] w2 [Hpn2 Hf2]; [|done..]. specialize (Hf2 eq_refl).
    wp1. unfold snapshot_stage. wp1. unfold mp_relative at 1. wp1; [|done]. rename a into rel.
    rewrite Hb in H. apply strip_prefix_spec in H.
    assert (Hrel : good_rel name rel) by (eapply Hcl; [|exact H]; constructor).
    wp1. apply (w_retrieve_keep _ _ _ _ (x_write_notif (e_ext e) n)); [done|done|done|].
    intros w3 Hf3. wp1. unfold mp_relative. wp1; [|done].
    rewrite Hb in H0. apply strip_prefix_spec in H0.
    wp1. wp1; [done|]. wp1. wp1.
    eapply wpt_conseq; [eapply (w_deltas_keep st reset (config_fetcher c) (x_write_notif (e_ext e) n)); [done| |exact Hf3]|done|].
    { intros d rel' Hd Eu. eapply (Hcl _ (di_hash d)); [|exact Eu]. unfold refs. right.
      apply elem_of_list_fmap. by exists d. }
    intros [ds|x|] w4 Hw4; [|done..]. wp1. intros sg [= <-]. exists n0, n. split; [done|]. split; [|by eapply Hw4].
    repeat split; try done. by exists (w_n w3).
  Qed.
End staged.

(** ** Data read from the state file counts as not looked up *)
Lemma map_not_fetched j m u d : as_map as_repo_data j = Some m -> m !! u = Some d -> rd_fetched d = false.
Proof.
  unfold as_map. intros E Hd. destruct (as_obj j) as [l|]; [|done]. cbn in E.
  destruct (mapM _ l) as [kvs|] eqn:Em; [|done]. cbn in E. injection E as <-.
  apply elem_of_list_to_map_2 in Hd. rewrite elem_of_reverse in Hd. apply mapM_Some in Em.
  apply elem_of_list_lookup in Hd as [i Hi]. destruct (Forall2_lookup_r _ _ _ _ _ Em Hi) as ([k v] & _ & Ek). cbn in Ek.
  unfold as_repo_data in Ek. destruct (as_obj v) as [l'|]; [|done]. cbn in Ek.
  destruct (field_opt "etag" _ l'); [|done]. cbn in Ek. destruct (field "last_fetch" _ l'); [|done]. cbn in Ek.
  destruct (field "session_id" _ l'); [|done]. cbn in Ek. destruct (field "serial" _ l'); [|done]. cbn in Ek.
  destruct (field "objects" _ l'); [|done]. cbn in Ek.
  by injection Ek as <- <-.
Qed.
Lemma stored_not_fetched b st v u d : state_parse b = Some st -> st_validator st = Some v ->
  vi_data (vd_repos v) !! u = Some d -> rd_fetched d = false.
Proof.
  unfold state_parse. destruct (json_parse b) as [j|]; [|done]. cbn. unfold as_state.
  destruct (as_obj j) as [l|]; [|done]. cbn.
  destruct (field "notification_source" _ l); [|done]. cbn. destruct (field "mappings" _ l); [|done]. cbn.
  destruct (field_opt "snapshot" _ l); [|done]. cbn. destruct (field "deltas" _ l); [|done]. cbn.
  destruct (field "deprecated_files" _ l); [|done]. cbn.
  destruct (field_opt "validator" as_validator l) as [v'|] eqn:Ev; [|done]. cbn. intros [= <-]. cbn. intros ->.
  unfold field_opt in Ev. destruct (lookup_field _ l) as [jv|]; [|done].
  unfold as_opt in Ev. assert (as_validator jv = Some v) as Hv.
  { destruct jv; try done; destruct (as_validator _) eqn:E; try done; by injection Ev as ->. }
  clear Ev. unfold as_validator in Hv. destruct (as_obj jv) as [l2|]; [|done]. cbn in Hv.
  destruct (field "tals" _ l2); [|done]. cbn in Hv. destruct (field "repositories" as_visited l2) as [r|] eqn:Er; [|done].
  cbn in Hv. injection Hv as <-. cbn. unfold field in Er. destruct (lookup_field "repositories" l2) as [jr|]; [|done].
  cbn in Er. unfold as_visited in Er. destruct (as_obj jr) as [l5|]; [|done]. cbn in Er.
  destruct (field "fetchers" _ l5); [|done]. cbn in Er. destruct (field "data" _ l5) as [dm|] eqn:Em; [|done].
  cbn in Er. injection Er as <-. cbn. unfold field in Em. destruct (lookup_field "data" l5) as [jd|]; [|done].
  cbn in Em. by eapply map_not_fetched.
Qed.

Section checked.
  Context (c : config) (base name : string) (Hc : cfg_ok c base name) (e : env).

  Lemma staged_located : located (e_ext e) (staged_fetcher c base) (c_notif_uri c) = Some (SFile (staging_path c name)).
  Proof using Hc. unfold located. cbn. rewrite (ck_uri _ _ _ Hc), strip_prefix_app. done. Qed.
  Lemma staged_offers g n n1 :
    g !! staging_path c name = Some (File (x_write_notif (e_ext e) n) None) ->
    x_parse_notif (e_ext e) (x_write_notif (e_ext e) n) = Some n ->
    offered_notif e g (staged_fetcher c base) n1 -> n1 = n.
  Proof using Hc.
    intros Hf Hp (src & b & Hl & Hs & Hb). cbn [staged_fetcher fe_notif] in Hl. rewrite staged_located in Hl. injection Hl as <-.
    cbn in Hs. assert (Hne : staging_path c name <> []).
    { unfold staging_path. rewrite path_join_name by apply (ck_name _ _ _ Hc). by destruct (staging_dir c). }
    destruct (read_file_at _ _ _ _ Hne Hf) as [Hr _].
    rewrite Hr in Hs. injection Hs as <-. rewrite Hp in Hb. by injection Hb.
  Qed.

  (** pre-validation that lets a version pass *)
  Lemma passes st w st' w' n :
    order_ok (e_ext e) -> c_reject c = true -> c_tal_files c <> [] -> usual_check c (st_validator st) ->
    (forall v d, st_validator st = Some v -> vi_data (vd_repos v) !! c_notif_uri c = Some d ->
       rd_fetched d = false /\ forall k, (rd_last_fetch d <= e_clock e k - 3600)%Z) ->
    w_fs w !! staging_path c name = Some (File (x_write_notif (e_ext e) n) None) ->
    x_parse_notif (e_ext e) (x_write_notif (e_ext e) n) = Some n ->
    pre_validate st c e w = (Ok st', w') ->
    exists old d vd vd' rep when w1 w2,
      (old = None \/ exists v, st_validator st = Some v /\ vi_data (vd_repos v) !! c_notif_uri c = old) /\
      w_fs w1 = w_fs w /\ validate_at vd (c_offline c) when e w1 = (Ok (vd', rep), w2) /\
      vi_data (vd_repos vd') !! c_notif_uri c = Some d /\
      up_to_date e (w_fs w) (staged_fetcher c base) n old d /\ ~ trouble rep (c_notif_uri c).
  Proof using Hc.
    intros Hx Hrej Ht Hus Hdue Hf Hp E.
    destruct (C28_decision st c e w _ w' Hx E) as (_ & H1 & H2).
    destruct (reconfigure_validator st c e w) as [[st1|x|] w1] eqn:Er; [|by specialize (H1 _ _ eq_refl)|].
    2: { unfold pre_validate, mbind, M_bind in E. by rewrite Er in E. }
    destruct (H2 Ht _ _ eq_refl) as (v & -> & H3 & H4). clear H1 H2.
    pose proof Er as Er'. apply C39_reuse in Er' as (tals & base' & v0 & v' & w0 & Etal & Eb & Hold & Hnew & Ei & Ev); [|done].
    rewrite (ck_parent _ _ _ Hc) in Eb. injection Eb as <-.
    assert (v' = v) as -> by (unfold set_validator in Ev; by injection Ev). clear Ev.
    assert (Hw0 : w_fs w0 = w_fs w).
    { destruct (wpt_run _ _ _ _ _ _ _ (q_read_tals e (fun g => g = w_fs w) (c_tal_files c) w eq_refl) Etal) as (_ & _ & _ & H). exact H. }
    (* the validator before the staged data is loaded *)
    assert (Hv0 : get_fetcher (vd_repos v0) (c_notif_uri c) = staged_fetcher c base /\
      (forall d, vi_data (vd_repos v0) !! c_notif_uri c = Some d ->
         rd_fetched d = false /\ forall k, (rd_last_fetch d <= e_clock e k - 3600)%Z) /\
      (vi_data (vd_repos v0) !! c_notif_uri c = None \/ exists v, st_validator st = Some v /\
         vi_data (vd_repos v) !! c_notif_uri c = vi_data (vd_repos v0) !! c_notif_uri c)).
    { destruct (st_validator st) as [old|] eqn:Eo.
      - destruct (decide (vd_tals old = tals)) as [Hta|Hta].
        + cbn in Hus. destruct Hus as [_ (b' & Eb' & Hfe)]. rewrite (ck_parent _ _ _ Hc) in Eb'. injection Eb' as <-.
          assert (v0 = old) as ->.
          { apply Hold; [done|]. split; [done|]. exists (c_notif_uri c). by rewrite Hfe, lookup_singleton. }
          split; [unfold get_fetcher; by rewrite Hfe, lookup_singleton|]. split; [intros d Hd; by apply (Hdue old d)|]. right. by exists old.
        + destruct Hnew as (_ & Hd & Hfe); [intros ? [= <-] [? _]; done|]. rewrite Hd.
          split; [unfold get_fetcher; by rewrite Hfe, lookup_singleton|]. split; [done|]. by left.
      - destruct Hnew as (_ & Hd & Hfe); [done|]. rewrite Hd.
        split; [unfold get_fetcher; by rewrite Hfe, lookup_singleton|]. split; [done|]. by left. }
    destruct Hv0 as (Hfe & Hd0 & Hold0). clear Hold Hnew.
    (* loading it *)
    unfold initialise_staging_data, mbind, M_bind, clock in Ei.
    destruct (get_latest (vd_repos v0) (c_notif_uri c) false (e_clock e (w_n w0)) e _) as [[[v1 [d|x]]|x|] w1'] eqn:Eg; [|done..].
    unfold mret, M_ret in Ei. injection Ei as Ev Ew. subst w1'.
    pose proof Eg as Eg'. apply C53_refresh in Eg' as [Hd1 Hup]; [|done].
    assert (Hdf : rd_fetched d = true).
    { assert (H : wpt e (fun _ => True) (get_latest (vd_repos v0) (c_notif_uri c) false (e_clock e (w_n w0))) (push_ev (EvClock (e_clock e (w_n w0))) w0) (fun r w' => match r with
       | Ok (v', r) => forall d, r = inl d -> rd_fetched d = true
       | _ => False end)).
      { apply w_get_latest; [intros _ _; split; [done|apply fetcher_any]|]. intros w3 v3 r3 _ _ _ _ G _ d3 G3. by apply G. }
      destruct (wpt_run _ _ _ _ _ _ _ H Eg) as (_ & _ & _ & Q). by apply Q. }
    assert (Hw1 : w_fs w1 = w_fs w).
    { apply C32_lookup in Eg as (? & ? & _ & Ew & _). rewrite Ew. exact Hw0. }
    cbn [push_ev w_fs] in Hup. rewrite Hw0, Hfe in Hup.
    assert (Hu : up_to_date e (w_fs w) (staged_fetcher c base) n (vi_data (vd_repos v0) !! c_notif_uri c) d).
    { destruct Hup as [(n1 & Hof & Hu)|(d0 & src & _ & _ & Hl & (u & m & k & hdr & b & -> & _))].
      - by rewrite (staged_offers (w_fs w) n n1 Hf Hp Hof) in Hu.
      - cbn [staged_fetcher fe_notif] in Hl. by rewrite staged_located in Hl. }
    (* validation *)
    destruct (validate v (c_offline c) e w1) as [[[vd' rep]|x|] w2] eqn:Eva; [|by specialize (H3 _ _ eq_refl)|].
    2: { exfalso. clear -E Er Eva. unfold pre_validate in E. unfold mbind at 1, M_bind at 1 in E. rewrite Er in E.
         cbn [st_validator set_validator] in E. unfold mbind, M_bind in E. by rewrite Eva in E. }
    destruct (H4 _ _ _ eq_refl) as (-> & H5 & _).
    unfold validate, mbind, M_bind, clock in Eva.
    exists (vi_data (vd_repos v0) !! c_notif_uri c), d, v, vd', rep, (e_clock e (w_n w1)), (push_ev (EvClock (e_clock e (w_n w1))) w1), w2.
    split; [done|]. split; [done|]. split; [done|]. split; [|split; [done|]].
    - pose proof Eva as H. apply (validate_at_run e _ _ v _ _ _ (fun _ => True) Hx) in H.
      + destruct H as (_ & _ & _ & _ & _ & [_ Hst] & _). apply Hst; [|done]. by rewrite <- Ev.
      + intros _. split; [done|]. apply fetcher_any.
      + intros t _. by destruct (tl_source t).
    - intros Htr. destruct (H5 Hrej Htr) as (x & Hx' & _). done.
  Qed.
End checked.

(** ** C29 *)
Lemma apply_snap st sg c : yields (fun st2 => st_snap st2 = Some (sg_snap sg)) (apply_staged_changed st sg c).
Proof.
  unfold apply_staged_changed. apply yields_step. intros _. apply yields_step. intros _. apply yields_step. intros st1.
  cbv zeta. apply (yields_bind (fun st3 => st_snap st3 = Some (sg_snap sg))).
  - destruct (sg_reset sg); [unfold deltas_deprecate_all|unfold deltas_deprecate_before; destruct (split_before _ _)];
      apply yields_step; intros deps; by apply yields_ret.
  - intros st3 H3. unfold clean. apply yields_step. intros cb. apply yields_step. intros _. by apply yields_ret.
Qed.

Lemma load_inv c base name (Hc : cfg_ok c base name) e w st w1 : load_state c e w = (Ok st, w1) ->
  w_fs w1 = w_fs w /\ starts_from c base name (w_fs w) st.
Proof.
  intros E. assert (H : wpt e anyev (load_state c) w (fun r w' => forall st, r = Ok st -> w_fs w' = w_fs w /\ starts_from c base name (w_fs w) st)).
  { apply (w_load_state c base name Hc); [|done]. intros w' st' H1 H2 ? [= <-]. done. }
  destruct (wpt_run _ _ _ _ _ _ _ H E) as (_ & _ & _ & H'). by apply H'.
Qed.

(** With --reject and trust anchors: a completed run that changes anything has
    examined the version that it publishes, if the copy of the repository kept
    from earlier validations is an hour old or older, or there is none.  The
    objects examined are those of the published version, at least one CA uses the
    repository, and the manifest and CRL of each that does are in order and there
    are no issues with any of its objects. *)
Theorem C29_examined c base name e f w :
  setting c base name e f -> order_ok (e_ext e) -> c_reject c = true -> c_tal_files c <> [] ->
  (* what is written to the staging directory is read back as it was *)
  (forall n0 n, takes c e f n0 n -> x_parse_notif (e_ext e) (x_write_notif (e_ext e) n) = Some n) ->
  (* deltas end at the serial of the notification *)
  (forall n0 n, takes c e f n0 n ->
     (n_deltas n <> [] -> exists di, di ∈ n_deltas n /\ di_serial di = n_serial n) /\
     forall di, di ∈ n_deltas n -> (di_serial di <= n_serial n)%N) ->
  (* the copy kept from earlier runs *)
  (forall st v d, starts_from c base name f st -> st_validator st = Some v ->
     vi_data (vd_repos v) !! c_notif_uri c = Some d ->
     (forall k, (rd_last_fetch d <= e_clock e k - 3600)%Z) /\
     forall n0 n, takes c e f n0 n -> n_session n = rd_session d -> (rd_serial d <= n_serial n)%N) ->
  run c e f = (Ok tt, w) -> w_fs w <> f ->
  exists n n' g old d vd vd' rep when w1 w2,
    (* what is published *)
    w_fs w !! notif_path c name = Some (File (x_write_notif (e_ext e) n') None) /\
    (n_session n' = n_session n /\ n_serial n' = n_serial n /\
     n_snap_uri n' = n_snap_uri n /\ n_snap_hash n' = n_snap_hash n) /\
    (* what was staged, at this point of the run *)
    g ∈ instants c e f /\ g !! staging_path c name = Some (File (x_write_notif (e_ext e) n) None) /\
    (* the validation made then *)
    w_fs w1 = g /\ validate_at vd (c_offline c) when e w1 = (Ok (vd', rep), w2) /\
    (* used the staged version *)
    vi_data (vd_repos vd') !! c_notif_uri c = Some d /\
    rd_session d = n_session n' /\ rd_serial d = n_serial n' /\
    up_to_date e g (staged_fetcher c base) n old d /\
    (old = None \/ exists st v, starts_from c base name f st /\ st_validator st = Some v /\
                                vi_data (vd_repos v) !! c_notif_uri c = old) /\
    (* and found nothing wrong with it *)
    (exists ca, ca ∈ rp_certs rep /\ ci_rrdp (ca_info_ ca) = Some (c_notif_uri c)) /\
    forall ca, ca ∈ rp_certs rep -> ci_rrdp (ca_info_ ca) = Some (c_notif_uri c) ->
      ca_issues ca = [] /\ exists rc m cr cu, details rc (ca_info_ ca) /\
        acceptable (e_ext e) rc (ca_info_ ca) (rd_objects d) when m cr cu /\
        ca_listed (e_ext e) rc (ca_info_ ca) (rd_objects d) when m cr cu ca.
Proof.
  intros Hset Hx Hrej Ht Hpw0 Hends0 Hcopy0 Hrun Hch.
  assert (Hpw : forall n0 n, from_source c e f n0 n -> x_parse_notif (e_ext e) (x_write_notif (e_ext e) n) = Some n)
    by (intros n0 n H%source_takes; by eapply Hpw0).
  assert (Hends : forall n0 n, from_source c e f n0 n ->
     (n_deltas n <> [] -> exists di, di ∈ n_deltas n /\ di_serial di = n_serial n) /\
     forall di, di ∈ n_deltas n -> (di_serial di <= n_serial n)%N) by (intros n0 n H%source_takes; by eapply Hends0).
  assert (Hcopy : forall st v d, starts_from c base name f st -> st_validator st = Some v ->
     vi_data (vd_repos v) !! c_notif_uri c = Some d ->
     (forall k, (rd_last_fetch d <= e_clock e k - 3600)%Z) /\
     forall n0 n, from_source c e f n0 n -> n_session n = rd_session d -> (rd_serial d <= n_serial n)%N).
  { intros st v d H1 H2 H3. destruct (Hcopy0 st v d H1 H2 H3) as [H4 H5]. split; [done|].
    intros n0 n H%source_takes. by eapply H5. }
  clear Hpw0 Hends0 Hcopy0.
  pose proof (setting_sane _ _ _ _ _ Hset) as Hs. pose proof (sn_cfg _ _ _ _ _ Hs) as Hc.
  (* the steps of the run *)
  pose proof Hrun as E. unfold run in E. rewrite process_front in E. unfold mbind at 1, M_bind at 1 in E.
  destruct (front c e (resume f)) as [[o|x|] w6] eqn:Ef; [|done..].
  destruct (wpt_run _ _ _ _ _ _ _ (w_front c base name e f Hs) Ef) as (_ & _ & _ & (_ & Hnone & Hsome)).
  destruct o as [st2|].
  2: { destruct (Hnone eq_refl) as [H _]. cbn in E. unfold mret, M_ret in E. injection E as <-. done. }
  destruct (Hsome _ eq_refl) as (stA & n0A & nA & sgA & f1 & v & st' & f2 & cb & f3 & Han). clear Hnone Hsome.
  assert (Hn' : exists n', notif_of base st2 n') by (destruct (new_deltas c base name e f _ _ _ _ _ _ _ _ _ _ _ (an_rsync _ _ _ _ _ _ _ _ _ _ _ _ _ _ _ _ _ Han)) as [_ Es]; eexists; eexists; split; [exact Es|reflexivity]).
  destruct Hn' as (n' & Hn').
  destruct (wpt_run _ _ _ _ _ _ _ (w_back c base name e f Hs _ _ _ _ _ _ _ _ _ _ _ n' w6 Han Hn') E) as (_ & _ & _ & Hback).
  destruct (Hback eq_refl) as (f5 & Hsave & Hsaving & _). clear Hback.
  (* the first half *)
  pose proof Ef as Ef'. unfold front, prepare in Ef'. unfold mbind, M_bind in Ef'.
  destruct (load_state c e (resume f)) as [[st|x|] w1] eqn:El; [|done..].
  destruct (load_inv c base name Hc e _ _ _ El) as [Ew1 Hst]. cbn [resume w_fs] in Ew1, Hst.
  destruct (update_staged st c e w1) as [[[sg|]|x|] w2] eqn:Eu; [|done..].
  assert (Hgs : good_state c base name st) by (by eapply start_good).
  destruct (wpt_run _ _ _ _ _ _ _ (w_staged_notif c base name Hc e st w1
     ltac:(by rewrite (gs_map _ _ _ _ Hgs)) ltac:(by rewrite (gs_source _ _ _ _ Hgs))
     ltac:(rewrite Ew1; intros n0; apply (sn_notif _ _ _ _ _ Hs))) Eu) as (_ & _ & _ & Hsn).
  destruct (Hsn _ eq_refl) as (n0 & n & Hfs & Hso & Hfile). clear Hsn. rewrite Ew1 in Hfs.
  destruct (pre_validate st c e w2) as [[st1|x|] w3] eqn:Ep; [|done..].
  destruct (passes c base name Hc e st w2 st1 w3 n Hx Hrej Ht) as (old & d & vd & vd' & rep & when & wa & wb & Hold & Hwa & Hva & Hd & Hup & Htr);
    [by eapply setting_usual| |exact Hfile|by eapply Hpw|exact Ep|].
  { intros v1 d1 Ev1 Ed1. destruct (Hcopy st v1 d1 Hst Ev1 Ed1) as [H1 _]. split; [|exact H1].
    destruct Hst as [[_ (b & _ & Hb)]|[_ ->]]; [|done]. by eapply stored_not_fetched. }
  destruct (pre_validate_scripts c e w3) as [[[]|x|] w4] eqn:Es; [|done..].
  (* the state that is published has this snapshot *)
  assert (Hsnap : st_snap st2 = Some (sg_snap sg)).
  { unfold mret, M_ret in Ef'. unfold publish1, mbind, M_bind in Ef'.
    destruct (apply_staged_changed st1 sg c e w4) as [[st2'|x|] w5] eqn:Ea; [|done..].
    destruct (when_ _ _ e w5) as [[[]|x|] w5']; [|done..]. unfold mret, M_ret in Ef'. injection Ef' as <- _.
    by eapply apply_snap. }
  destruct Hn' as (s & Es2 & En'). rewrite Hsnap in Es2. injection Es2 as <-.
  destruct Hso as (S1 & S2 & S3 & S4 & _).
  assert (Hrep : forall ca, ca ∈ rp_certs rep -> exists rc, explained (e_ext e) when (vd_repos vd') rc ca).
  { intros ca Hca. by eapply C34_entries. }
  assert (Hver : rd_session d = n_session n /\ rd_serial d = n_serial n).
  { destruct (Hends n0 n Hfs) as [He1 He2].
    assert (Hle : forall d0, old = Some d0 -> n_session n = rd_session d0 -> (rd_serial d0 <= n_serial n)%N).
    { intros d0 -> Hse. destruct Hold as [|(v1 & Hv1 & Hv2)]; [done|]. eapply (Hcopy st v1 d0); done. }
    inversion Hup as [d0 d' Hse Hser (K1 & K2 & _)|d0 d' Hse Hnd Hse' Hmax Hex _|old' d' Hse Hser _]; subst.
    - split; congruence.
    - split; [done|]. destruct (He1 Hnd) as (di & Hdi & Edi). specialize (Hmax di Hdi). specialize (Hle d0 eq_refl (eq_sym Hse)).
      destruct Hex as [Hex|(di' & Hdi' & Hex)]; [lia|]. specialize (He2 _ Hdi'). lia.
    - done. }
  exists n, n', (w_fs w2), old, d, vd, vd', rep, when, wa, wb. rewrite En'. cbn [n_session n_serial n_snap_uri n_snap_hash].
  split; [|split; [|split; [|split; [|split; [|split; [|split; [|split; [|split; [|split; [|split; [|split]]]]]]]]]]].
  - rewrite <- En'. rewrite (save_N c base name Hc _ _ _ Hsaving). apply Hsave.
  - by rewrite S1, S2, S3, <- S4.
  - (* an instant of the run *)
    unfold instants. rewrite Hrun. cbn [snd].
    assert (E2 : publish_staged st sg c e w2 = (Ok tt, w)).
    { unfold run, process, mbind, M_bind in Hrun. rewrite El, Eu in Hrun. exact Hrun. }
    apply (tracks_extends (st ← load_state c; o ← update_staged st c; mret (st, o))
      (fun p => match p with (st, Some sg) => publish_staged st sg c | _ => mret tt end) e f (st, Some sg) w2 w (Ok tt)).
    + tracks_tac.
    + unfold publish_staged. tracks_tac.
    + unfold mbind, M_bind. by rewrite El, Eu.
    + exact E2.
  - exact Hfile.
  - exact Hwa.
  - exact Hva.
  - exact Hd.
  - rewrite S1. apply Hver.
  - rewrite S2. apply Hver.
  - exact Hup.
  - destruct Hold as [->|(v1 & H1 & H2)]; [by left|]. right. by exists st, v1.
  - destruct (decide (Exists (fun ca => ci_rrdp (ca_info_ ca) = Some (c_notif_uri c)) (rp_certs rep))) as [Hex|Hex].
    + apply Exists_exists in Hex as (ca & ? & ?). by exists ca.
    + destruct Htr. left. intros ca Hca Hu. apply Hex. apply Exists_exists. by exists ca.
  - intros ca Hca Hu. assert (Hi : ca_issues ca = []).
    { destruct (ca_issues ca) as [|i l] eqn:Ei; [done|]. destruct Htr. right. exists ca. by rewrite Ei. }
    split; [exact Hi|]. destruct (Hrep ca Hca) as (rc & info & Hinfo & He).
    assert (Ei : info = ca_info_ ca).
    { destruct (ci_rrdp info); [|by subst ca]. destruct He as [->|(d1 & _ & _ & -> & _)]; done. }
    subst info. rewrite Hu in He. destruct He as [He|(d1 & Hd1 & _ & (_ & R1 & R2))]; [by rewrite He in Hi|].
    rewrite Hd in Hd1. injection Hd1 as <-.
    destruct (check_mft (e_ext e) rc (ca_info_ ca) (rd_objects d) when) as [[u p]|[cr en]] eqn:Em.
    + destruct R2 as (u' & p' & Eca); [|by rewrite Eca in Hi].
      intros (m & cr & cu & Ha).
      assert (check_mft (e_ext e) rc (ca_info_ ca) (rd_objects d) when = inr (cr, delete cu (mft_entries (ca_info_ ca) m)))
        by (apply check_mft_spec; by exists m, cu). congruence.
    + apply check_mft_spec in Em as (m & cu & Ha & _). cbn in Ha. exists rc, m, cr, cu. split; [done|]. split; [done|]. by apply R1.
Qed.

(** ** Non-vacuity *)
(** A copy that is not fresh any more, and a source that has a newer version. *)
Example C53_applies :
  (forall d, vi_data (mkVisited ∅ {[notif_uri := old_data]}) !! notif_uri = Some d ->
     rd_fetched d = false /\ forall k, (rd_last_fetch d <= e_clock (demo_env PropsValidator.docs3 9000) k - 3600)%Z) /\
  match get_latest (mkVisited ∅ {[notif_uri := old_data]}) notif_uri false 9000 (demo_env PropsValidator.docs3 9000) start with
  | (Ok (_, inl d), _) => rd_serial d <> rd_serial old_data
  | _ => False
  end.
Proof. split; [|by vm_compute]. intros d. cbn [vi_data]. rewrite lookup_singleton. intros [= <-]. split; [done|]. by intros k. Qed.

(** The mirror of the counterexample to the stronger claim: its second run an
    hour later than the first, with a version that is in order. *)
Definition fresh_env : env := run_env (content_docs 2 (ca_files "ta/" [] [] [])) 4600.
Definition fresh_notif : notification := mkNotif uuid_A 2 (base +:+ "s2") (demo_hash (snap_text (ca_files "ta/" [] [] []))) [].
Lemma fresh_offers f n : offers tal_config fresh_env f n -> n = fresh_notif.
Proof.
  intros H. apply serve_offers in H as (b & H1 & H2); [|reflexivity..].
  assert (E : match Demo.assoc (content_docs 2 (ca_files "ta/" [] [] [])) notif_uri with
              | Some b => bool_decide (x_parse_notif safe_ext b = Some fresh_notif) | None => false end = true) by vme.
  rewrite H1 in E. apply bool_decide_eq_true in E. rewrite E in H2. by injection H2 as <-.
Qed.
Definition fresh_sorted : bool :=
  match sort_and_verify safe_ext (c_max_deltas tal_config) fresh_notif with
  | Some (n, true) => bool_decide (n = fresh_notif) | _ => false end &&
  bool_decide (x_parse_notif safe_ext (x_write_notif safe_ext fresh_notif) = Some fresh_notif).
Lemma fresh_sorted_ok f n0 n : takes tal_config fresh_env f n0 n ->
  n = fresh_notif /\ x_parse_notif safe_ext (x_write_notif safe_ext fresh_notif) = Some fresh_notif.
Proof.
  intros [->%fresh_offers H]. apply in_use_sav in H; [|vme]. assert (E : fresh_sorted = true) by vme. unfold fresh_sorted in E.
  change (e_ext fresh_env) with safe_ext in H. rewrite H in E.
  apply andb_true_iff in E as [E1 E2]. apply bool_decide_eq_true in E1, E2. split; [exact E1|exact E2].
Qed.
Lemma fresh_setting : setting tal_config base name fresh_env tal_run1.
Proof.
  split.
  - apply tal_setting.
  - eapply (mi_run _ _ _ _ tal_start tal_config tal_env); [|repeat split|apply tal_setting|intros; exact I|apply after_instant].
    apply tal_setting.
  - split; [|apply safe_clean]. intros n ->%fresh_offers. apply good_check_ok. vme.
Qed.
(** the copy that the first run kept *)
Definition kept_b (f : fs) : bool :=
  match DemoRun.state_of tal_config f with
  | Some st => match st_validator st with
               | Some v => match vi_data (vd_repos v) !! c_notif_uri tal_config with
                           | Some d => (rd_last_fetch d <=? 1000)%Z && (rd_serial d =? 1)%N
                           | None => false end
               | None => false end
  | None => false end.
Lemma kept_ok f : kept_b f = true -> exists st v d, starts_from tal_config base name f st /\ st_validator st = Some v /\
  vi_data (vd_repos v) !! c_notif_uri tal_config = Some d /\ (rd_last_fetch d <= 1000)%Z /\ rd_serial d = 1%N.
Proof.
  unfold kept_b. destruct (DemoRun.state_of tal_config f) as [st|] eqn:E1; [|done]. destruct (st_validator st) as [v|] eqn:E2; [|done].
  destruct (vi_data (vd_repos v) !! c_notif_uri tal_config) as [d|] eqn:E3; [|done]. intros [H1 H2]%andb_true_iff.
  apply Z.leb_le in H1. apply N.eqb_eq in H2. exists st, v, d. split; [by apply state_of_starts|done].
Qed.
Definition done_b (c : config) (e : env) (f : fs) : bool :=
  let r := run c e f in match r.1 with Ok _ => negb (at_b (w_fs r.2) (notif_path c name) (f !! notif_path c name)) | _ => false end.
Lemma done_b_ok c e f : done_b c e f = true -> exists w, run c e f = (Ok tt, w) /\ w_fs w <> f.
Proof.
  unfold done_b. cbv zeta. destruct (run c e f) as [[[]| |] w]; cbn [fst snd]; [|done|done]. intros H1. exists w. split; [done|].
  intros E. rewrite E in H1. apply negb_true_iff in H1. unfold at_b in H1. by apply bool_decide_eq_false in H1.
Qed.
Example C29_applies :
  setting tal_config base name fresh_env tal_run1 /\ order_ok (e_ext fresh_env) /\ c_reject tal_config = true /\ c_tal_files tal_config <> [] /\
  (forall n0 n, takes tal_config fresh_env tal_run1 n0 n -> x_parse_notif (e_ext fresh_env) (x_write_notif (e_ext fresh_env) n) = Some n) /\
  (forall n0 n, takes tal_config fresh_env tal_run1 n0 n ->
     (n_deltas n <> [] -> exists di, di ∈ n_deltas n /\ di_serial di = n_serial n) /\
     forall di, di ∈ n_deltas n -> (di_serial di <= n_serial n)%N) /\
  (forall st v d, starts_from tal_config base name tal_run1 st -> st_validator st = Some v ->
     vi_data (vd_repos v) !! c_notif_uri tal_config = Some d ->
     (forall k, (rd_last_fetch d <= e_clock fresh_env k - 3600)%Z) /\
     forall n0 n, takes tal_config fresh_env tal_run1 n0 n -> n_session n = rd_session d -> (rd_serial d <= n_serial n)%N) /\
  (exists st v d, starts_from tal_config base name tal_run1 st /\ st_validator st = Some v /\
     vi_data (vd_repos v) !! c_notif_uri tal_config = Some d) /\
  exists w, run tal_config fresh_env tal_run1 = (Ok tt, w) /\ w_fs w <> tal_run1.
Proof.
  assert (Hk : kept_b tal_run1 = true) by vme.
  apply kept_ok in Hk as (st & v & d & K1 & K2 & K3 & K4 & K5).
  split; [apply fresh_setting|]. split; [exact (demo_order_ok [] 0)|]. split; [reflexivity|]. split; [vm_compute; discriminate|].
  split. { intros n0 n [-> H]%fresh_sorted_ok. exact H. }
  split. { intros n0 n [-> _]%fresh_sorted_ok. split; [intros []; reflexivity|]. intros di []%elem_of_nil. }
  split.
  { intros st' v' d' H1 H2 H3. rewrite (starts_unique _ _ _ _ _ _ H1 K1) in H2. rewrite K2 in H2. injection H2 as <-.
    rewrite K3 in H3. injection H3 as <-. split.
    - intros k. change (e_clock fresh_env k) with 4600%Z. clear - K4. lia.
    - intros n0 n [-> _]%fresh_sorted_ok _. rewrite K5. clear. cbn. lia. }
  split. { exists st, v, d. split; [exact K1|]. split; [exact K2|exact K3]. }
  apply done_b_ok. vme.
Qed.
Print Assumptions C53_refresh.
Print Assumptions C29_examined.
