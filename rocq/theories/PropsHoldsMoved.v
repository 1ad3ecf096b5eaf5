(** * What holds of C48: a run with another RRDP directory than the recorded one *)
From Verif Require Import PropsRun PropsHistory RunDone RunFate DemoRun Refuted PropsHoldsRequests PropsHoldsDelay.
From Verif Require Import FsWf.

(** the same settings, but with this RRDP directory *)
Definition with_rrdp_dir (c : config) (dir : path) : config := {|
  c_verbose := c_verbose c; c_quiet := c_quiet c; c_state_dir := c_state_dir c;
  c_rrdp_dir := dir; c_notify_delay := c_notify_delay c; c_max_deltas := c_max_deltas c;
  c_rsync_dir := c_rsync_dir c; c_force_moves := c_force_moves c; c_rsync_disable := c_rsync_disable c;
  c_include_host := c_include_host c; c_cleanup_after := c_cleanup_after c; c_insecure := c_insecure c;
  c_notif_uri := c_notif_uri c; c_source_base := c_source_base c; c_fetch_map := c_fetch_map c;
  c_tal_files := c_tal_files c; c_scripts := c_scripts c; c_reject := c_reject c; c_offline := c_offline c |}.

Section moved.
  Context (c : config) (dir : path) (base name : string) (e : env) (f : fs).
  Let o : config := with_rrdp_dir c dir.
  Context (Hs : sane o base name e f) (Hc : cfg_ok c base name) (Hap : apart (c_rrdp_dir c) dir).
  Context (Hex : fs_exists f (rrdp_state_path c) = true).
  Let Ho : cfg_ok o base name := sn_cfg _ _ _ _ _ Hs.
  Notation No := (notif_path o name).
  Notation To := (notif_tmp o name).
  Notation R := (c_rrdp_dir c).

  (** up to publishing, the RRDP directory does not matter *)
  Lemma deltas_moved st reset fe l : forall w, deltas_stage st reset fe c l e w = deltas_stage st reset fe o l e w.
  Proof using.
    induction l as [|d l IH]; intros w; [done|]. cbn [deltas_stage]. destruct (delta_is_new st reset (di_serial d)); [|apply IH].
    unfold mbind, M_bind. change (staging_path o) with (staging_path c).
    destruct (mp_relative (st_map st) (di_uri d) e w) as [[rel|x|] w1]; [|done..].
    destruct (retrieve_file fe (di_uri d) (di_hash d) (staging_path c rel) e w1) as [[[]|x|] w2]; [|done..].
    destruct (mp_relative (st_map st) (di_uri d) e w2) as [[rel'|x|] w3]; [|done..].
    destruct (time_now e w3) as [[now|x|] w4]; [|done..]. by rewrite IH.
  Qed.
  Lemma staged_moved st w : update_staged st c e w = update_staged st o e w.
  Proof using.
    unfold update_staged. cbv zeta. change (config_fetcher o) with (config_fetcher c). unfold mbind, M_bind.
    destruct (notif_source_fetch _ _ e w) as [[[[n0 t]|]|x|] w1]; [|done..]. destruct (getext e w1) as [[y|x|] w2]; [|done..].
    change (c_max_deltas o) with (c_max_deltas c). destruct (sort_and_verify _ _ _) as [[n []]|]; [|done..]. cbn [negb].
    destruct (compare_version st n) as [reset| |]; [|done..].
    change (staging_path o) with (staging_path c). destruct (write_buf _ _ e w2) as [[[]|x|] w3]; [|done..].
    change (snapshot_stage st n (config_fetcher c) o) with (snapshot_stage st n (config_fetcher c) c).
    destruct (snapshot_stage _ _ _ _ e w3) as [[sn|x|] w4]; [|done..]. by rewrite deltas_moved.
  Qed.
  Lemma prepare_moved : prepare c e (resume f) = prepare o e (resume f).
  Proof using Hex.
    assert (E : load_state c e (resume f) = load_state o e (resume f)).
    { unfold load_state, mbind, M_bind, f_exists. change (rrdp_state_path o) with (rrdp_state_path c).
      cbn [resume w_fs]. by rewrite Hex. }
    unfold prepare, mbind, M_bind. rewrite E. destruct (load_state o e (resume f)) as [[st|x|] w1]; [|done..].
    rewrite staged_moved. reflexivity.
  Qed.

  (** in the recorded directory only the notification is new *)
  Definition only_notif (g : fs) : Prop :=
    forall p b m, under dir p -> p <> No -> p <> To -> g !! p = Some (File b m) -> f !! p = Some (File b m).
  Lemma only_mods (S D : path -> Prop) g g' : (forall p, S p -> under dir p -> p = No \/ p = To) ->
    mods S D g g' -> only_notif g -> only_notif g'.
  Proof using.
    intros HS Hm Hg p b m Hp H1 H2 E. apply Hg; [done..|]. destruct (Hm p) as [Ep|[Hp'|(_ & _ & [E'|E'])]].
    - by rewrite <- Ep.
    - by destruct (HS p Hp' Hp).
    - congruence.
    - congruence.
  Qed.
  Lemma only_sub g g' : g' ⊆ g -> only_notif g -> only_notif g'.
  Proof using. intros Hsub Hg p b m Hp H1 H2 E. apply Hg; [done..|]. by eapply lookup_weaken. Qed.

  Lemma only_stage g : stage_tree o f g -> only_notif g.
  Proof using Ho.
    intros [[_ H] _] p b m Hp _ _ E. destruct (H p) as [Hu|[E'|(_ & _ & E')]].
    - destruct (apart_disjoint _ _ p (ck_s_r _ _ _ Ho)); done.
    - by rewrite <- E'.
    - congruence.
  Qed.
  Lemma only_move sg g g' : (forall en, en ∈ staged_entries sg -> good_rel name en.1) ->
    inside (move_area c sg) g g' -> only_notif g -> only_notif g'.
  Proof using Ho Hap.
    intros Hen [_ H]. eapply only_mods; [|exact H]. intros p [Hp|(rel & h & Hin & Hp)] Hd.
    - destruct (apart_disjoint _ _ p (ck_s_r _ _ _ Ho)); done.
    - destruct (apart_disjoint _ _ p Hap); [|done]. eapply under_trans; [|exact Hp]. apply under_app.
  Qed.
  Lemma only_rsync g g' : inside (rsync_area c) g g' -> only_notif g -> only_notif g'.
  Proof using Ho.
    intros [_ H]. eapply only_mods; [|exact H]. intros p [Hp|Hp] Hd.
    - destruct (apart_disjoint _ _ p (ck_r_y _ _ _ Ho)); done.
    - subst p. destruct (apart_disjoint _ _ (rsync_state_path c) (ck_yp_r _ _ _ Ho)); [apply under_refl|done].
  Qed.
  Lemma only_notify doc g g' : notifying o name doc g g' -> only_notif g -> only_notif g'.
  Proof using. intros [_ H _]. eapply only_mods; [|exact H]. intros p [Hp|Hp] _; auto. Qed.
  Lemma only_save txt g g' : saving c txt g g' -> only_notif g -> only_notif g'.
  Proof using Ho.
    intros [_ H _]. eapply only_mods; [|exact H]. intros p <- Hd.
    destruct (apart_disjoint _ _ (rrdp_state_path c) (ck_sp_r _ _ _ Ho)); [apply under_refl|done].
  Qed.

  (** nothing else touches the configured directory *)
  Definition same_r (g g' : fs) : Prop := forall p, under R p -> g' !! p = g !! p.
  Lemma under_apart p d : apart R d -> under R p -> apart p d.
  Proof using. intros H [k ->]. by apply apart_app. Qed.
  Lemma same_stage g : stage_tree o f g -> same_r f g.
  Proof using Hc.
    intros H p Hp. pose proof (under_apart p (staging_dir c) (apart_sym _ _ (ck_s_r _ _ _ Hc)) Hp) as Ha.
    destruct (apart_out _ _ Ha) as [H1 H2]. apply (stage_same o f g p H); [exact H1|]. apply H2, under_refl.
  Qed.
  Lemma same_clean st cb g g' : good_state o base name st -> cleaning st cb g g' -> same_r g g'.
  Proof using Hap.
    intros Hg H p Hp. apply (clean_same st cb g g' p); [|done]. intros d Hd.
    destruct (gs_deprecated _ _ _ _ Hg _ Hd) as (rel & _ & ->). eapply apart_sub; [by apply (under_apart p dir)|]. apply under_app.
  Qed.
  Lemma same_rsync g g' : inside (rsync_area c) g g' -> same_r g g'.
  Proof using Hc.
    intros H p Hp. apply (rsync_same c g g' p); [|  |done].
    - apply under_apart; [apply (ck_r_y _ _ _ Hc)|done].
    - apply under_apart; [apply apart_sym, (ck_yp_r _ _ _ Hc)|done].
  Qed.
  Lemma same_notify doc g g' : notifying o name doc g g' -> same_r g g'.
  Proof using Hap.
    intros H p Hp. apply (notify_same o name doc g g' p); [| |done]; (eapply apart_sub; [by apply (under_apart p dir)|]); apply under_app.
  Qed.
  Lemma same_save txt g g' : saving c txt g g' -> same_r g g'.
  Proof using Hc.
    intros H p Hp. apply (save_same c txt g g' p); [|done]. apply under_apart; [apply apart_sym, (ck_sp_r _ _ _ Hc)|done].
  Qed.
  Lemma same_trans g g' g'' : same_r g g' -> same_r g' g'' -> same_r g g''.
  Proof using. intros H1 H2 p Hp. rewrite H2 by done. by apply H1. Qed.
  Lemma same_move sg g g' : (forall en, en ∈ staged_entries sg -> good_rel name en.1) ->
    inside (move_area c sg) g g' -> g' !! notif_path c name = g !! notif_path c name.
  Proof using Hc.
    intros Hen H. apply (move_same c sg g g'); [| |done].
    - apply under_apart; [apply apart_sym, (ck_s_r _ _ _ Hc)|apply under_app].
    - intros en Hin. apply apart_sym. by destruct (good_rel_apart c name _ (Hen _ Hin)).
  Qed.

  Definition calm (g : fs) : Prop := g !! notif_path c name = f !! notif_path c name /\ only_notif g.
  Lemma calm_same g g' : same_r g g' -> only_notif g' -> calm g -> calm g'.
  Proof using. intros H1 H2 [H3 _]. split; [|done]. rewrite H1 by apply under_app. done. Qed.

  Lemma w_moved : wpt e (on_fs calm) (process c) (resume f) (fun r w' => r = Ok tt ->
      w_fs w' = f \/ exists st n0 n sg n' f1 f2,
        at_move o base name e f st n0 n sg f1 /\ (n_session n' = n_session n /\ n_serial n' = n_serial n /\
           n_snap_uri n' = n_snap_uri n /\ n_snap_hash n' = n_snap_hash n) /\
        (honest c e f sg -> Forall (published (e_ext e) c f2) (staged_entries sg)) /\ same_r f2 (w_fs w') /\
        w_fs w' !! No = Some (File (x_write_notif (e_ext e) n') None)).
  Proof using Hs Hc Hap Hex.
    eapply wpt_ext; [symmetry; apply process_front|]. unfold front.
    eapply wpt_ext; [symmetry; apply bind_assoc_run|]. wp1.
    eapply wpt_ext; [symmetry; apply prepare_moved|].
    assert (Cst : forall g, stage_tree o f g -> calm g).
    { intros g H. split; [apply (same_stage _ H), under_app|by apply only_stage]. }
    eapply wpt_conseq; [exact (w_prepare o base name e f Hs)|intros []; cbn; auto|].
    intros [[[st1 sg]|]|x|] w4 (HS4 & HN & HM); cbn [publish1]; [|wp1; wp1; cbn [back]; wp1; left; by apply HN|done..].
    destruct (HM _ _ eq_refl) as (st & v & n0 & n & -> & Hmv & Hck). clear HM HN.
    assert (Hent : forall en, en ∈ staged_entries sg -> good_rel name en.1) by (intros; by eapply staged_good).
    assert (C4 : calm (w_fs w4)) by auto.
    pose (f1 := w_fs w4). assert (E4 : w_fs w4 = f1) by done. rewrite E4 in Hmv.
    wp1. wp1. unfold apply_staged_changed. eapply wpt_ext; [apply bind_assoc_run|]. fold (moves c sg). wp1.
    assert (Cmv : forall g, inside (move_area c sg) f1 g -> calm g).
    { intros g H. split.
      - rewrite (same_move sg f1 g Hent H). apply C4.
      - eapply only_move; [exact Hent|exact H|apply C4]. }
    eapply wpt_conseq; [eapply (wpt_and_impl _ _ _ (honest c e f sg) (moves c sg) w4
        (fun _ w' => inside (move_area c sg) f1 (w_fs w'))
        (fun r w' => moving e c sg f1 (w_fs w') /\
           (r = Ok tt -> Forall (published (e_ext e) c (w_fs w')) (staged_entries sg))))| |].
    { eapply (k_moves c base name Hc e sg f1 Hent). rewrite E4. split; [apply HS4|apply mods_refl]. }
    { intros Hh. eapply (w_moves c base name Hc e sg f1 Hent); [apply HS4|by apply Hmv|apply Hh|done| |].
      - intros x w' H. done.
      - intros w' H1 H2. done. }
    { intros []; cbn; auto. intros [H1 H2]. by apply Cmv. }
    intros r w5 [HA5 HF5]. destruct r as [[]|x|]; [|done..].
    assert (C5 : calm (w_fs w5)) by (by apply Cmv).
    apply (w_apply_memory e (on_fs calm) ltac:(done) (set_validator st v) sg (fun st' => clean st' c)).
    intros w6 st' E6 Hmg.
    assert (Hg' : good_state o base name st').
    { eapply (good_merged o base name e f (set_validator st v) sg n0 n); [| | |exact Hmg].
      - apply good_set_validator. eapply start_good; [exact Hs|apply Hmv].
      - apply (sn_notif _ _ _ _ _ Hs). apply Hmv.
      - destruct (am_staged _ _ _ _ _ _ _ _ _ _ Hmv). by split. }
    assert (Hwf5 : wf (w_fs w5)) by apply HA5.
    set (cb := wrap64 (e_clock e (w_n w6) - c_cleanup_after c)).
    assert (Hdne : forall d, d ∈ st_deprecated st' -> dp_path d <> []).
    { intros d Hd. destruct (gs_deprecated _ _ _ _ Hg' _ Hd) as (rel & _ & ->). intros Ex.
      unfold public_path in Ex. apply app_eq_nil in Ex as [Ex _]. by apply (rrdp_ne o _ _ Ho). }
    assert (Ccl : forall g, cleaning st' cb (w_fs w5) g -> calm g).
    { intros g H. eapply (calm_same (w_fs w5)); [by eapply same_clean| |done]. eapply only_sub; [apply H|apply C5]. }
    eapply wpt_conseq; [eapply (w_cleaning e c st' w6 (fun r w' => cleaning st' cb (w_fs w5) (w_fs w') /\ r <> Panic /\
         forall st2, r = Ok st2 -> cleaned cb st' st2))| |].
    { by rewrite E6. } { done. }
    { rewrite E6. intros x w' H. split; [done|]. split; done. }
    { rewrite E6. intros w' st2 H1 H2 H3. split; [done|]. split; [done|]. by intros st2' [= <-]. }
    { rewrite E6. fold cb. intros []; cbn; auto. }
    intros [st2|x|] w7 (HC7 & HP7 & HO7); [|done..].
    specialize (HO7 _ eq_refl). assert (C7 : calm (w_fs w7)) by auto.
    assert (Hg2 : good_state o base name st2) by (by eapply good_cleaned).
    assert (S7 : same_r (w_fs w5) (w_fs w7)) by (exact (same_clean st' cb _ _ Hg' HC7)).
    wp1.
    assert (Cry : forall g, inside (rsync_area c) (w_fs w7) g -> calm g).
    { intros g H. eapply (calm_same (w_fs w7)); [by apply same_rsync| |done]. eapply only_rsync; [exact H|apply C7]. }
    assert (Hk7 : wpt e (on_fs (inside (rsync_area c) (w_fs w7))) (when_ (rsync_enabled c) (update_from_rrdp_state st2 c)) w7
         (fun _ w' => inside (rsync_area c) (w_fs w7) (w_fs w'))).
    { apply (wpt_keeps e (inside (rsync_area c) (w_fs w7))); [|split; [apply HC7|apply mods_refl]|done].
        apply keeps_when. apply (k_update_from_rrdp c e (rsync_area c) (under (c_rsync_dir c)) (w_fs w7)).
        - intros p q H1 H2. left. by eapply under_trans.
        - intros [H|H]; [apply prefix_nil_inv in H; by apply (rsync_ne c _ _ Hc)|].
          rewrite rsync_state_eq in H. by destruct (c_state_dir c).
        - done.
        - by right.
        - apply (sn_snap _ _ _ _ _ Hs). }
    eapply wpt_conseq; [exact Hk7|intros []; cbn; auto|]. intros [[]|x|] w8 HI8; [|done..].
    assert (C8 : calm (w_fs w8)) by auto. pose proof (same_rsync _ _ HI8) as S8.
    wp1. unfold back. wp1.
    assert (Cno : forall n' g, notifying o name (x_write_notif (e_ext e) n') (w_fs w8) g -> calm g).
    { intros n' g H. eapply (calm_same (w_fs w8)); [by eapply same_notify| |done]. eapply only_notify; [exact H|apply C8]. }
    eapply wpt_conseq; [eapply (w_notify o base name Ho e st2 w8
      (fun r w' => r <> Panic /\ (r = Ok tt -> exists n', notif_of base st2 n' /\
         notifying o name (x_write_notif (e_ext e) n') (w_fs w8) (w_fs w') /\
         w_fs w' !! No = Some (File (x_write_notif (e_ext e) n') None))))| |].
    { done. } { apply HI8. } { done. }
    { intros w' n2 H1 H2 H3. split; [done|]. intros _. by exists n2. }
    { intros []; cbn; auto. intros [->|(n2 & H1 & H2)]; [done|]. by eapply Cno. }
    intros [[]|x|] w9 (HP9 & HO9); [|done..].
    destruct (HO9 eq_refl) as (n' & Hn1 & Hn2 & Hn3). clear HO9 HP9.
    assert (C9 : calm (w_fs w9)) by (by eapply Cno). pose proof (same_notify _ _ _ Hn2) as S9.
    eapply wpt_conseq; [eapply (w_saving c e st2 w9 (fun r w' => saving c (state_text st2) (w_fs w9) (w_fs w')))| |].
    { apply Hn2. } { done. } { done. }
    { intros []; cbn; auto. intros H. eapply (calm_same (w_fs w9)); [by eapply same_save| |done]. eapply only_save; [exact H|apply C9]. }
    intros r w10 HS10 ->. right. exists st, n0, n, sg, n', f1, (w_fs w5).
    split; [done|]. split; [|split; [intros Hh; by apply HF5|split]].
    - destruct Hn1 as (s & Es & ->). rewrite HO7 in Es. cbn in Es. rewrite (mg_snap _ _ _ _ Hmg) in Es. injection Es as <-.
      destruct (so_snap _ _ _ _ _ _ _ _ (am_staged _ _ _ _ _ _ _ _ _ _ Hmv)) as (S1 & S2 & S3 & S4 & _). cbn. by rewrite S1, S2, S3, S4.
    - eapply same_trans; [exact S7|]. eapply same_trans; [exact S8|]. eapply same_trans; [exact S9|]. by eapply same_save.
    - rewrite <- Hn3. apply (save_same c (state_text st2) (w_fs w9) (w_fs w10) No); [|exact HS10].
      apply apart_sym. eapply apart_sub; [apply (ck_sp_r _ _ _ Ho)|]. apply under_app.
  Qed.
End moved.

(** The mirror was made with the RRDP directory [dir] and the command line now
    names another one, in another place.  Then the run never touches the
    notification in the directory that the command line names, and puts nothing
    but the notification into [dir].  If it succeeds and changes anything, then
    the new notification is in [dir], and the snapshot that it lists is not put
    there, but in the directory of the command line. *)
Theorem C48_old_directory c dir base name e f r w :
  let old := with_rrdp_dir c dir in
  setting old base name e f -> cfg_ok c base name -> apart (c_rrdp_dir c) dir ->
  fs_exists f (rrdp_state_path c) = true ->
  run c e f = (r, w) ->
  (forall g, g ∈ instants c e f ->
     g !! notif_path c name = f !! notif_path c name /\
     forall p b m, under dir p -> p <> notif_path old name -> p <> notif_tmp old name ->
       g !! p = Some (File b m) -> f !! p = Some (File b m)) /\
  (r = Ok tt -> w_fs w <> f -> exists n0 n n' rel,
     takes c e f n0 n /\
     w_fs w !! notif_path old name = Some (File (x_write_notif (e_ext e) n') None) /\
     n_session n' = n_session n /\ n_serial n' = n_serial n /\
     n_snap_uri n' = n_snap_uri n /\ n_snap_hash n' = n_snap_hash n /\ n_snap_uri n = base +:+ rel /\
     (honest_run c e f -> exists b m, w_fs w !! public_path c rel = Some (File b m) /\ x_hash (e_ext e) b = n_snap_hash n)).
Proof.
  intros old Hset Hc Hap Hex Hrun. pose proof (setting_sane _ _ _ _ _ Hset) as Hs.
  destruct (w_moved c dir base name e f Hs Hc Hap Hex) as (l & Ht & Hl & HQ).
  unfold instants, run in *. rewrite Hrun in *. cbn [fst snd] in *. split.
  - intros g [->|Hg]%elem_of_cons; [by split; intros|]. rewrite Ht in Hg. cbn [resume w_trace app] in Hg.
    apply trees_in in Hg. rewrite Forall_forall in Hl. apply (Hl _ Hg).
  - intros -> Hne. destruct (HQ eq_refl) as [?|(st & n0 & n & sg & n' & f1 & f2 & Hmv & (N1 & N2 & N3 & N4) & Hpub & Hsame & HN)]; [done|].
    destruct (am_staged _ _ _ _ _ _ _ _ _ _ Hmv) as [Hfs _ (S1 & S2 & S3 & S4 & _) _ _].
    exists n0, n, n', (ss_rel (sg_snap sg)). split; [exact (source_takes _ _ _ _ _ Hfs)|]. split; [exact HN|]. repeat (split; [done|]).
    intros Hh. assert (Hh' : honest c e f sg).
    { apply (run_honest old base name e f Hs) with (1 := Hh) (2 := Hmv). }
    specialize (Hpub Hh'). rewrite Forall_forall in Hpub.
    destruct (Hpub (ss_rel (sg_snap sg), ss_hash (sg_snap sg))) as (b & m & E & Eh); [by left|]. cbn in E, Eh.
    exists b, m. rewrite Hsame by apply under_app. split; [done|]. by rewrite Eh.
Qed.

(** Non-vacuity: the run of the counterexample. *)
Example C48_applies :
  setting (with_rrdp_dir other_config (c_rrdp_dir demo_config)) base name (env3 1) (tree3 1) /\
  cfg_ok other_config base name /\ apart (c_rrdp_dir other_config) (c_rrdp_dir demo_config) /\
  fs_exists (tree3 1) (rrdp_state_path other_config) = true /\ honest_run other_config (env3 1) (tree3 1) /\
  exists w, run other_config (env3 1) (tree3 1) = (Ok tt, w) /\
    w_fs w !! notif_path demo_config name <> tree3 1 !! notif_path demo_config name.
Proof.
  split; [split|].
  - split; try (vm_compute; done); try (by repeat constructor); (split; intros [k Hk]; vm_compute in Hk; done).
  - eapply mirror_places; [|apply mirror3; lia]. repeat split.
  - split; [|apply safe_clean]. intros n Hn. apply (env3_offers 1 _ n ltac:(lia)) in Hn. rewrite Hn. apply src3_good.
  - split; [split; try (vm_compute; done); try (by repeat constructor); (split; intros [k Hk]; vm_compute in Hk; done)|].
    split; [split; intros [k Hk]; vm_compute in Hk; done|]. split; [vme|]. split.
    { pose proof (serve_honest 1 ltac:(lia)) as (H1 & H2 & H3). split; [exact H1|]. split; [exact H2|]. exact H3. }
    assert (H : match run other_config (env3 1) (tree3 1) with
                | (Ok _, w) => negb (at_b (w_fs w) (notif_path demo_config name) (tree3 1 !! notif_path demo_config name))
                | _ => false end = true) by vme.
    destruct (run other_config (env3 1) (tree3 1)) as [[[]|x|] w]; [|discriminate H..]. exists w. split; [reflexivity|].
    apply negb_true_iff in H. unfold at_b in H. apply bool_decide_eq_false in H. exact H.
Qed.
Print Assumptions C48_old_directory.
