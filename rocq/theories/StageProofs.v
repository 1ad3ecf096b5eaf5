(** * Staging: what [update_staged] leaves behind *)
From Verif Require Export Spec.

(** the notification the run works with: what the source has, limited to the
    configured number of deltas, sorted, without gaps *)
Definition from_source (c : config) (e : env) (f : fs) (n0 n : notification) : Prop :=
  offers c e f n0 /\ sort_and_verify (e_ext e) (c_max_deltas c) n0 = Some (n, true).

Definition run_clock (e : env) (t : Z) : Prop := exists k, t = e_clock e k.

Definition delta_of (base : string) (e : env) (di : delta_info) (ds : delta_state) : Prop :=
  ds_serial ds = di_serial di /\ ds_hash ds = di_hash di /\ di_uri di = base +:+ ds_rel ds /\
  run_clock e (ds_since ds).
Definition snap_of (base : string) (e : env) (n : notification) (s : snap_state) : Prop :=
  ss_session s = n_session n /\ ss_serial s = n_serial n /\ ss_hash s = n_snap_hash n /\
  n_snap_uri n = base +:+ ss_rel s /\ run_clock e (ss_since s).

Record staged_ok (c : config) (e : env) (f : fs) (base : string) (st : rrdp_state) (sg : staged_changes)
    (n0 n : notification) : Prop := {
  so_source : from_source c e f n0 n;
  so_new : compare_version st n = VUpdate (sg_reset sg);
  so_snap : snap_of base e n (sg_snap sg);
  so_deltas : Forall2 (delta_of base e)
    (filter (fun d => delta_is_new st (sg_reset sg) (di_serial d) = true) (n_deltas n)) (sg_deltas sg);
  so_cutoff : sg_cutoff sg = cutoff_of n }.

Definition staged_entries (sg : staged_changes) : list (string * hash) :=
  (ss_rel (sg_snap sg), ss_hash (sg_snap sg)) :: ((fun d => (ds_rel d, ds_hash d)) <$> sg_deltas sg).

(** the file is in the staging directory, with the right content *)
Definition in_place (x : ext) (c : config) (g : fs) (en : string * hash) : Prop :=
  exists b m, g !! staging_path c en.1 = Some (File b m) /\ x_hash x b = en.2.

Section stage.
  Context (e : env) (c : config) (I : fs -> Prop).
  Definition stage_paths (q : path) : Prop := under (staging_dir c) q \/ below q (staging_dir c).
  Context (Hmk : mk_ok I stage_paths)
          (Hwr : forall p b, under (staging_dir c) p -> wr_ok I p b).

  Lemma stage_below target q : under (staging_dir c) target -> below q target -> stage_paths q.
  Proof. intros H1 H2. destruct (below_split _ _ _ H1 H2); [right|left]; done. Qed.

  Lemma w_retrieve_file f u h target w (Q : res unit -> world -> Prop) :
    I (w_fs w) -> under (staging_dir c) target ->
    (forall x w', I (w_fs w') -> Q (Err x) w') ->
    (forall w', I (w_fs w') -> mods (eq target) (fun q => below q target) (w_fs w) (w_fs w') ->
       (no_bad_304 e -> (forall t, w_fs w !! target <> Some (Link t)) ->
        exists b m, w_fs w' !! target = Some (File b m) /\ x_hash (e_ext e) b = h) -> Q (Ok tt) w') ->
    wpt e (on_fs I) (retrieve_file f u h target) w Q.
  Proof using Hmk Hwr.
    intros HI Hu HE HQ. unfold retrieve_file. wp1. wp1. wp1. wp1.
    assert (Hget : forall w1, w_fs w1 = w_fs w ->
      wpt e (on_fs I) (src ← resolve_source f u; _ ← fetch src (Some h) None (Some target); mret tt) w1 Q).
    { intros w1 E1. wp1. apply w_resolve_source; [|intros; apply HE; by rewrite E1].
      intros src Hs. wp1. unfold fetch. wp1. apply w_fetch_raw.
      - by destruct src.
      - intros w2 b t E2 _. wp1. wp1. wp1.
        destruct (hash_matches (e_ext e) h b) eqn:Hh; wp1; [|apply HE; by rewrite E2, E1].
        wp1.
        set (I' := fun g => I g /\ mods (eq target) (fun q => below q target) (w_fs w) g).
        eapply wpt_conseq; [eapply (w_write_buf e I' (fun q => stage_paths q /\ below q target) target b w2
             (fun r w' => I' (w_fs w') /\ (r = Ok tt -> w_fs w' !! target = Some (File b None)) /\ r <> Panic))| |].
        + split; [by rewrite E2, E1|]. rewrite E2, E1. apply mods_refl.
        + intros g q [H1 H2] [H3 H4] Hq Hn Hpd. split; [by apply (Hmk _ q)|]. apply mods_mkdir; auto.
        + intros q Hq Hne. split; [by eapply stage_below|done].
        + intros g b' [H1 H2] Hb Hp Hst Hpd. split; [by apply (Hwr target b)|]. by apply mods_insert.
        + by intros x w' H.
        + by intros w' H1 H2.
        + intros [] ; cbn; auto. by intros [].
        + intros [[]|x|] w' ((H1 & H2) & H3 & H4); [|by apply HE|done].
          wp1. wp1. apply HQ; auto. intros _ _. exists b, None. split; [by apply H3|].
          by apply String.eqb_eq in Hh.
      - intros w2 E2 H304. wp1. wp1. wp1. wp1. wp1. wp1. apply HQ; rewrite ?E2, ?E1; auto using mods_refl.
        intros Hno. exfalso. destruct H304 as (u' & m' & k & hdr & b & -> & E). by apply (Hno _ _ _ _ _ E).
      - intros w2 x E2. apply HE. by rewrite E2, E1. }
    wp1.
    - destruct (hash_matches (e_ext e) h b) eqn:Hh; [|by apply Hget].
      wp1. apply HQ; [done|apply mods_refl|]. intros _ Hnl. rename H into Hr.
      unfold op_read, fs_stat in Hr. destruct (fs_get (w_fs w) target) as [[b' m'| |t]|] eqn:Eg; try done.
      + injection Hr as ->. exists b, m'. split; [by destruct target|]. by apply String.eqb_eq in Hh.
      + exfalso. eapply Hnl. by destruct target.
    - by apply Hget.
  Qed.

  Context (base : string).
  Definition all_one (L : list (string * hash)) : Prop :=
    forall r h h', (r, h) ∈ L -> (r, h') ∈ L -> h = h'.

  Lemma in_place_step L en w w' :
    Forall (fun en => clean_rel en.1) L -> clean_rel en.1 -> all_one (L ++ [en]) ->
    no_links (staging_dir c) (w_fs w) ->
    mods (eq (staging_path c en.1)) (fun q => below q (staging_path c en.1)) (w_fs w) (w_fs w') ->
    in_place (e_ext e) c (w_fs w') en ->
    Forall (in_place (e_ext e) c (w_fs w)) L ->
    Forall (in_place (e_ext e) c (w_fs w')) (L ++ [en]) /\ no_links (staging_dir c) (w_fs w').
  Proof.
    intros Hcl Hen Hone Hnl Hm Hp HL. split.
    - apply Forall_app. split; [|by constructor]. rewrite Forall_forall in *.
      intros [r h] Hin. destruct (HL _ Hin) as (b & m & E & Hh). cbn in *.
      destruct (decide (staging_path c r = staging_path c en.1)) as [Es|Es].
      + assert (r = en.1) as ->.
        { rewrite !staging_path_clean in Es; [|done|exact (Hcl _ Hin)]. apply app_inv_head in Es.
          by eapply split_on_inj. }
        assert (h = en.2) as ->; [|by destruct en].
        eapply (Hone en.1); [apply elem_of_app; by left|].
        apply elem_of_app. right. apply elem_of_list_singleton. by destruct en.
      + exists b, m. split; [|done]. eapply mods_file; [exact Hm|by intros Ex; apply Es|done|exact E].
    - intros p t Hu E. destruct Hp as (b & m & Eb & _).
      destruct (decide (p = staging_path c en.1)) as [->|Hne]; [congruence|].
      apply (Hnl p t Hu). eapply mods_file_rev; [exact Hm|congruence|done|exact E].
  Qed.

  Lemma w_deltas_stage st reset f l : forall L w (Q : res (list delta_state) -> world -> Prop),
    I (w_fs w) -> mp_base (st_map st) = base ->
    (forall d rel, d ∈ l -> di_uri d = base +:+ rel -> clean_rel rel) ->
    (forall x w', I (w_fs w') -> Q (Err x) w') ->
    (forall w' ds, I (w_fs w') ->
       Forall2 (delta_of base e) (filter (fun d => delta_is_new st reset (di_serial d) = true) l) ds ->
       (no_bad_304 e -> no_links (staging_dir c) (w_fs w) ->
        Forall (fun en => clean_rel en.1) L ->
        all_one (L ++ ((fun d => (ds_rel d, ds_hash d)) <$> ds)) ->
        Forall (in_place (e_ext e) c (w_fs w)) L ->
        Forall (in_place (e_ext e) c (w_fs w')) (L ++ ((fun d => (ds_rel d, ds_hash d)) <$> ds)) /\
        no_links (staging_dir c) (w_fs w')) ->
       Q (Ok ds) w') ->
    wpt e (on_fs I) (deltas_stage st reset f c l) w Q.
  Proof using Hmk Hwr.
    induction l as [|d l IH]; intros L w Q HI Hb Hcl HE HQ; cbn [deltas_stage].
    { wp1. apply HQ; [done|constructor|]. intros. cbn. by rewrite app_nil_r. }
    destruct (delta_is_new st reset (di_serial d)) eqn:Hnew.
    - wp1. unfold mp_relative at 1. wp1; [|by apply HE]. rename a into rel.
      rewrite Hb in H. apply strip_prefix_spec in H.
      assert (Hrel : clean_rel rel) by (eapply Hcl; [|exact H]; constructor).
      wp1. apply w_retrieve_file; [done|by apply staging_path_under|done|].
      intros w1 HI1 Hm1 Hp1. wp1. unfold mp_relative. wp1; [|by apply HE].
      rewrite Hb in H0. apply strip_prefix_spec in H0.
      assert (a = rel) as -> by (rewrite H in H0; by apply sapp_inv_head in H0).
      wp1. wp1; [done|]. wp1. eapply (IH (L ++ [(rel, di_hash d)])); [done|done| |done|].
      { intros d' rel' Hd'. apply Hcl. by constructor. }
      intros w2 ds HI2 Hds Hp2. wp1. apply HQ; [done| |].
      + cbn. rewrite decide_True by done. constructor; [|done]. repeat split; try done. by exists (w_n w1).
      + cbn. rewrite <- !app_assoc in Hp2. cbn in Hp2. intros Hno Hnl HLc Hone HL.
        assert (Hst : Forall (in_place (e_ext e) c (w_fs w1)) (L ++ [(rel, di_hash d)]) /\
                      no_links (staging_dir c) (w_fs w1)).
        { eapply in_place_step; try done.
          - intros r h h' H1 H2. eapply Hone; rewrite cons_middle, app_assoc; apply elem_of_app; left; eauto.
          - apply Hp1; [done|]. intros t. by apply Hnl, staging_path_under. }
        destruct Hst as [Hst1 Hst2].
        apply Hp2; auto.
        apply Forall_app. split; [done|]. by constructor.
    - eapply (IH L); eauto.
      + intros d' rel' Hd'. apply Hcl. by constructor.
      + intros w2 ds HI2 Hds Hp2. apply HQ; auto. cbn. rewrite decide_False by congruence. done.
  Qed.

  Lemma all_one_app L L' : all_one (L ++ L') -> all_one L.
  Proof. intros H r h h' H1 H2. eapply H; apply elem_of_app; eauto. Qed.

  (** why a run may end without doing anything: the source says that nothing
      changed, or has the recorded version *)
  Definition no_news (f : fs) (st : rrdp_state) : Prop :=
    (exists src, located (e_ext e) (config_fetcher c) (c_notif_uri c) = Some src /\
       says_304 e src (ns_etag (st_source st))) \/
    (exists n0 n, from_source c e f n0 n /\ compare_version st n = VSame).

  Lemma w_update_staged name st w (Q : res (option staged_changes) -> world -> Prop) :
    I (w_fs w) -> mp_base (st_map st) = base -> ns_name (st_source st) = name -> file_name name ->
    (forall n0 u h rel, offers c e (w_fs w) n0 -> (u, h) ∈ refs n0 -> u = base +:+ rel -> clean_rel rel) ->
    (forall n0 n, sort_and_verify (e_ext e) (c_max_deltas c) n0 = Some (n, true) ->
       forall u h, (u, h) ∈ refs n -> (u, h) ∈ refs n0) ->
    (forall x w', I (w_fs w') -> Q (Err x) w') ->
    (forall w', I (w_fs w') -> w_fs w' = w_fs w -> Q Panic w') ->
    (forall w', I (w_fs w') -> w_fs w' = w_fs w -> no_news (w_fs w) st -> Q (Ok None) w') ->
    (forall w' sg n0 n, I (w_fs w') -> staged_ok c e (w_fs w) base st sg n0 n ->
       (no_bad_304 e -> no_links (staging_dir c) (w_fs w) -> all_one (staged_entries sg) ->
        Forall (in_place (e_ext e) c (w_fs w')) (staged_entries sg) /\
        no_links (staging_dir c) (w_fs w')) ->
       Q (Ok (Some sg)) w') ->
    wpt e (on_fs I) (update_staged st c) w Q.
  Proof using Hmk Hwr.
    intros HI Hb Hn Hfn Hgood Hsub HE HP HN HQ. unfold update_staged. cbv zeta. wp1.
    unfold notif_source_fetch. wp1. apply w_read_notification.
    { by intros [| ] _. }
    2: { intros w1 src E1 Hloc H304. wp1. wp1. apply HN; [by rewrite E1|by rewrite E1|]. left. by exists src. }
    2: { intros w1 x E1. apply HE. by rewrite E1. }
    intros w1 src b n0 t E1 Hloc Hs Hpn. wp1. wp1. wp1.
    assert (Hoff : offers c e (w_fs w) n0) by (exists src, b; done).
    destruct (sort_and_verify (e_ext e) (c_max_deltas c) n0) as [[n fine]|] eqn:Hsv.
    2: { wp1. apply HP; by rewrite E1. }
    destruct fine; cbn [negb]; [|wp1; apply HE; by rewrite E1].
    assert (Hcl : forall u h rel, (u, h) ∈ refs n -> u = base +:+ rel -> clean_rel rel).
    { intros u h rel Hin. eapply Hgood; [exact Hoff|]. by eapply Hsub. }
    destruct (compare_version st n) as [reset| |] eqn:Hcv.
    2: { wp1. apply HN; [by rewrite E1|by rewrite E1|]. right. exists n0, n. by repeat split. }
    2: { wp1. apply HE; by rewrite ?E1. }
    wp1.
    assert (Hnp : staging_path c (ns_name (st_source st)) = staging_dir c ++ [name]).
    { rewrite Hn. unfold staging_path. by apply path_join_name. }
    assert (Hnu : under (staging_dir c) (staging_path c (ns_name (st_source st)))).
    { rewrite Hnp. apply under_app. }
    set (np := staging_path c (ns_name (st_source st))) in *.
    set (I' := fun g => I g /\ mods (eq np) (fun q => below q np) (w_fs w) g).
    eapply wpt_conseq; [eapply (w_write_buf e I' (fun q => stage_paths q /\ below q np) np
       (x_write_notif (e_ext e) n) w1
       (fun r w' => I' (w_fs w') /\ (r = Ok tt -> w_fs w' !! np = Some (File (x_write_notif (e_ext e) n) None)) /\ r <> Panic))| |].
    + split; [by rewrite E1|]. rewrite E1. apply mods_refl.
    + intros g q [H1 H2] [H3 H4] Hq Hnn Hpd. split; [by apply (Hmk _ q)|]. apply mods_mkdir; auto.
    + intros q Hq Hne. split; [by eapply stage_below|done].
    + intros g b' [H1 H2] Hbb Hp Hst Hpd. split; [by eapply (Hwr np)|]. by apply mods_insert.
    + by intros x w' H.
    + by intros w' H1 H2.
    + intros []; cbn; auto. by intros [].
    + intros [[]|x|] w2 ((HI2 & Hm2) & Hf2 & Hnp2); [|by apply HE|done].
      specialize (Hf2 eq_refl).
      assert (Hnl2 : no_links (staging_dir c) (w_fs w) -> no_links (staging_dir c) (w_fs w2)).
      { intros Hnl p t' Hu E. destruct (decide (p = np)) as [->|Hne]; [congruence|].
        apply (Hnl p t' Hu). eapply mods_file_rev; [exact Hm2|congruence|done|exact E]. }
      wp1. unfold snapshot_stage. wp1. unfold mp_relative at 1. wp1; [|by apply HE]. rename a into rel.
      rewrite Hb in H. apply strip_prefix_spec in H.
      assert (Hrel : clean_rel rel) by (eapply Hcl; [|exact H]; constructor).
      wp1. apply w_retrieve_file; [done|by apply staging_path_under|done|].
      intros w3 HI3 Hm3 Hp3. wp1. unfold mp_relative. wp1; [|by apply HE].
      rewrite Hb in H0. apply strip_prefix_spec in H0.
      assert (a = rel) as -> by (rewrite H in H0; by apply sapp_inv_head in H0).
      wp1. wp1; [done|]. wp1. wp1.
      eapply (w_deltas_stage _ _ _ _ [(rel, n_snap_hash n)]); [done|done| |done|].
      { intros d rel' Hd Eu. eapply (Hcl _ (di_hash d)); [|exact Eu]. unfold refs. right.
        apply elem_of_list_fmap. by exists d. }
      intros w4 ds HI4 Hds Hp4. wp1. apply (HQ _ _ n0 n); [done| |].
      * split; cbn; try done. repeat split; try done. by exists (w_n w3).
      * unfold staged_entries. cbn. cbn in Hp4. intros Hno Hnl Hone.
        apply Hp4; auto.
        -- intros p t' Hu E. 
           destruct (decide (p = staging_path c rel)) as [->|Hne].
           { destruct Hp3 as (b' & m' & Eb & _); [done| |].
             - intros t2. by apply Hnl2, staging_path_under.
             - cbn in E. congruence. }
           apply (Hnl2 Hnl p t' Hu). eapply mods_file_rev; [exact Hm3|congruence|done|exact E].
        -- constructor; [|done]. cbn. apply Hp3; [done|]. intros t2. by apply Hnl2, staging_path_under.
  Qed.
End stage.
