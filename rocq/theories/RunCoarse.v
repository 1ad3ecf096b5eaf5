(** * Which paths a whole run touches *)
From Coq Require Import ZifyN ZifyNat ZifyBool.
From Verif Require Export RunFrame.

(** ** Lists of deltas *)
Lemma limit_deltas_sub limit l (d : delta_info) : d ∈ limit_deltas limit l -> d ∈ l.
Proof.
  unfold limit_deltas. destruct limit as [k|]; [|done]. destruct (Nat.ltb k (length l)); [|done]. intros H.
  rewrite <- (take_drop (length l - k) l). apply elem_of_app. by right.
Qed.
Lemma sav_deltas_sub x limit n0 n b d :
  sort_and_verify x limit n0 = Some (n, b) -> d ∈ n_deltas n -> d ∈ n_deltas n0.
Proof.
  unfold sort_and_verify. destruct (n_deltas n0) as [|d0 l0] eqn:E.
  - intros [= <- _]. by rewrite E.
  - cbv zeta. destruct (limit_deltas limit (sort_by_key di_serial (d0 :: l0))) as [|d1 l1] eqn:E1; [done|].
    intros [= <- _] Hd. cbn [n_deltas] in Hd. rewrite <- E1 in Hd. apply limit_deltas_sub in Hd.
    by rewrite sort_by_key_perm in Hd.
Qed.
Lemma sav_same x limit n0 n b : sort_and_verify x limit n0 = Some (n, b) ->
  n_session n = n_session n0 /\ n_serial n = n_serial n0 /\ n_snap_uri n = n_snap_uri n0 /\
  n_snap_hash n = n_snap_hash n0.
Proof.
  unfold sort_and_verify. destruct (n_deltas n0) as [|d0 l0]; [by intros [= <- _]|]. cbv zeta.
  destruct (limit_deltas _ _); [done|]. by intros [= <- _].
Qed.
Lemma sav_refs x limit n0 n b u h :
  sort_and_verify x limit n0 = Some (n, b) -> (u, h) ∈ refs n -> (u, h) ∈ refs n0.
Proof.
  intros H. destruct (sav_same _ _ _ _ _ H) as (_ & _ & E1 & E2). unfold refs. rewrite E1, E2.
  rewrite !elem_of_cons, !elem_of_list_fmap. intros [?|(d & ? & Hd)]; [by left|]. right.
  exists d. split; [done|]. by eapply sav_deltas_sub.
Qed.

Lemma Forall2_elem_of_r {B C} (R : B -> C -> Prop) l k y :
  Forall2 R l k -> y ∈ k -> exists x, R x y /\ x ∈ l.
Proof.
  induction 1 as [|a b l k Hab _ IH]; [by intros ?%elem_of_nil|].
  intros [->|Hy]%elem_of_cons; [exists a; split; [done|constructor]|].
  destruct (IH Hy) as (x & ? & ?). exists x. split; [done|]. by constructor.
Qed.
Lemma Forall2_elem_of_l {B C} (R : B -> C -> Prop) l k x :
  Forall2 R l k -> x ∈ l -> exists y, R x y /\ y ∈ k.
Proof.
  induction 1 as [|a b l k Hab _ IH]; [by intros ?%elem_of_nil|].
  intros [->|Hy]%elem_of_cons; [exists b; split; [done|constructor]|].
  destruct (IH Hy) as (y & ? & ?). exists y. split; [done|]. by constructor.
Qed.

(** the parts of a state keep their relative paths *)
Lemma split_before_app k l : (split_before k l).1 ++ (split_before k l).2 = l.
Proof.
  induction l as [|d l IH]; [done|]. cbn. destruct (ds_serial d <? k)%N; [done|].
  destruct (split_before k l) as [a b]. cbn in *. by rewrite IH.
Qed.
Lemma kept_gone st sg d : d ∈ st_deltas st <-> d ∈ kept st sg \/ d ∈ gone st sg.
Proof.
  unfold kept, gone. destruct (sg_reset sg); [rewrite elem_of_nil; tauto|].
  rewrite <- elem_of_app, split_before_app. done.
Qed.

Section good.
  Context (c : config) (base name : string) (Hc : cfg_ok c base name).

  Lemma public_mp st rel : good_state c base name st -> clean_rel rel -> mp_path (st_map st) rel = public_path c rel.
  Proof using. intros Hg H. rewrite (gs_map _ _ _ _ Hg). unfold mp_path. cbn. by apply path_join_clean. Qed.

  Lemma entry_good e f st sg n0 n rel h :
    good_notif base name n0 -> staged_ok c e f base st sg n0 n -> (rel, h) ∈ staged_entries sg ->
    good_rel name rel /\ (base +:+ rel, h) ∈ refs n.
  Proof using.
    intros Hg Hs Hin. destruct Hs as [[_ Hsv] _ (S1 & S2 & S3 & S4 & S5) Hds _].
    assert (Hr : (base +:+ rel, h) ∈ refs n).
    { unfold staged_entries in Hin. apply elem_of_cons in Hin as [[= -> ->]|Hin].
      - unfold refs. rewrite S3, S4. constructor.
      - apply elem_of_list_fmap in Hin as (d & [= -> ->] & Hd). unfold refs. right.
        destruct (Forall2_elem_of_r _ _ _ _ Hds Hd) as (di & (D1 & D2 & D3 & D4) & Hdi).
        apply elem_of_list_filter in Hdi as [_ Hdi].
        apply elem_of_list_fmap. exists di. by rewrite D2, D3. }
    split; [|done]. eapply Hg; [by eapply sav_refs|done].
  Qed.

  Lemma good_dropped st sg p : good_state c base name st -> p ∈ dropped st sg ->
    exists rel, good_rel name rel /\ p = public_path c rel.
  Proof using.
    intros Hg Hp. unfold dropped in Hp. apply elem_of_app in Hp as [Hp|Hp].
    - unfold snapshot_path in Hp. destruct (st_snap st) as [s|] eqn:E; cbn in Hp; [|by apply elem_of_nil in Hp].
      apply elem_of_list_singleton in Hp as ->. exists (ss_rel s).
      pose proof (gs_snap _ _ _ _ Hg _ E) as Hr. split; [done|]. apply public_mp; [done|apply Hr].
    - apply elem_of_list_fmap in Hp as (d & -> & Hd). exists (ds_rel d).
      assert (Hd' : d ∈ st_deltas st) by (apply (kept_gone st sg); by right).
      pose proof (gs_deltas _ _ _ _ Hg _ Hd') as Hr. split; [done|]. apply public_mp; [done|apply Hr].
  Qed.

  Lemma good_merged e f st sg n0 n st' :
    good_state c base name st -> good_notif base name n0 -> staged_ok c e f base st sg n0 n ->
    merged e st sg st' -> good_state c base name st'.
  Proof using.
    intros Hg Hn Hs Hm. destruct Hm as [M1 M2 M3 M4 M5 (deps & M6 & M7 & M8)]. split.
    - rewrite M1. apply Hg.
    - rewrite M2. apply Hg.
    - rewrite M4. intros s [= <-]. eapply (entry_good _ _ _ _ _ _ _ (ss_hash (sg_snap sg))); [exact Hn|exact Hs|].
      constructor.
    - rewrite M5. intros d Hd. rewrite elem_of_reverse, sort_by_key_perm in Hd. apply elem_of_app in Hd as [Hd|Hd].
      + apply (gs_deltas _ _ _ _ Hg). apply (kept_gone st sg). by left.
      + eapply (entry_good _ _ _ _ _ _ _ (ds_hash d)); [exact Hn|exact Hs|]. right.
        apply elem_of_list_fmap. by exists d.
    - rewrite M6. intros d Hd. apply elem_of_app in Hd as [Hd|Hd]; [by apply (gs_deprecated _ _ _ _ Hg)|].
      eapply good_dropped; [exact Hg|]. rewrite <- M7. apply elem_of_list_fmap. by exists d.
    - rewrite M5. apply StronglySorted_reverse. eapply StronglySorted_weaken; [|apply sort_by_key_sorted]. done.
  Qed.
  Lemma good_cleaned cb st st' : good_state c base name st -> cleaned cb st st' -> good_state c base name st'.
  Proof using.
    intros Hg ->. destruct Hg as [G1 G2 G3 G4 G5 G6]. split; try done. cbn.
    intros d Hd. apply elem_of_list_filter in Hd as [_ Hd]. by apply G5.
  Qed.
End good.

(** ** The frame *)
Definition owned (c : config) (p : path) : Prop :=
  under (staging_dir c) p \/ under (c_rrdp_dir c) p \/ under (c_rsync_dir c) p \/
  p = rrdp_state_path c \/ p = rsync_state_path c.
Definition trees_of (c : config) (p : path) : Prop :=
  under (staging_dir c) p \/ under (c_rrdp_dir c) p \/ under (c_rsync_dir c) p.

(** snapshot files whose objects have proper names *)
Definition clean_snapshots (x : ext) : Prop :=
  forall b u o, (u, o) ∈ (x_snapshot x b).1 -> clean_uri u.

Lemma rsync_tmp_eq c : path_with_extension (rsync_current c) "tmp" = c_rsync_dir c ++ ["current.tmp"].
Proof.
  rewrite rsync_current_eq. unfold path_with_extension.
  destruct (c_rsync_dir c ++ ["current"]) eqn:E; [by destruct (c_rsync_dir c)|]. rewrite <- E.
  rewrite removelast_snoc. by rewrite last_last.
Qed.
Lemma object_path_under h out u : clean_uri u -> under out (object_path h out u).
Proof.
  intros Hu. destruct h; [rewrite object_path_host by done|rewrite object_path_nohost by apply Hu]; apply under_app.
Qed.

(** the rsync step stays in the rsync directory and its state file *)
Section rsync.
  Context (c : config) (e : env) (A T : path -> Prop) (f0 : fs).
  Context (Aup : forall p q, T p -> under p q -> A q) (Aroot : ~ A []).
  Context (HY : forall p, under (c_rsync_dir c) p -> T p) (Hyp : A (rsync_state_path c)).
  Notation I := (inside A f0).

  Lemma T_up_A p : T p -> A p.
  Proof using Aup. intros H. eapply Aup; [exact H|apply under_refl]. Qed.
  Lemma rev_T r : T (rev_path c r).
  Proof using HY. rewrite rev_path_eq. apply HY, under_app. Qed.
  Lemma k_publish h r u o : clean_uri u -> keeps e I (publish h (rev_path c r) u o).
  Proof using Aup Aroot HY.
    intros Hu. unfold publish. apply keeps_bind; [apply keeps_of_option|]. intros b.
    assert (Ho : A (object_path h (rev_path c r) u)).
    { eapply Aup; [apply (rev_T r)|]. by apply object_path_under. }
    apply keeps_bind; [by apply k_write_buf|]. intros _. unfold fix_since.
    apply keeps_bind; [apply keeps_getext|]. intros x. destruct (object_time _ _ _); [|apply keeps_ret].
    apply keeps_bind; [|intros; apply keeps_ret]. apply keeps_catch. by apply k_set_mtime.
  Qed.

  Lemma k_for_snapshot h r p : clean_snapshots (e_ext e) -> keeps e I (for_snapshot_path h (rev_path c r) p).
  Proof using Aup Aroot HY.
    intros Hx w HI. unfold for_snapshot_path. wp1. wp1; [|done]. wp1. wp1.
    pose proof (fun u o => Hx b u o) as Hb. destruct (x_snapshot (e_ext e) b) as [els fine]. cbn in Hb.
    apply (wpt_keeps _ _ (for_each els (fun '(u, data) => publish h (rev_path c r) u data) ;;
             (if fine : bool then mret tt else fail ESnapshotXml))); [|done|auto].
    apply keeps_bind.
    - apply keeps_for_each. intros [u o] Hin. apply k_publish. by eapply Hb.
    - intros _. destruct fine; [apply keeps_ret|apply keeps_fail].
  Qed.

  Lemma k_update_from_rrdp st : clean_snapshots (e_ext e) -> keeps e I (update_from_rrdp_state st c).
  Proof using Aup Aroot HY Hyp.
    intros Hx. unfold update_from_rrdp_state. destruct (st_snap st) as [snap|]; [|apply keeps_ret]. cbv zeta.
    apply keeps_bind; [apply q_rsync_recover|]. intros rs.
    set (r := mkRev (ss_session snap) (ss_serial snap)).
    apply keeps_bind.
    { unfold create_out_path_if_missing. apply keeps_bind; [apply keeps_exists|]. intros b.
      apply keeps_unless, k_create_dir_all, T_up_A, rev_T. }
    intros _. apply keeps_bind; [by apply k_for_snapshot|]. intros _.
    assert (Hcur : T (rsync_current c)) by (rewrite rsync_current_eq; apply HY, under_app).
    assert (Htmp : T (path_with_extension (rsync_current c) "tmp")) by (rewrite rsync_tmp_eq; apply HY, under_app).
    apply keeps_bind.
    { destruct (use_symlinks c).
      - unfold symlink_current. apply keeps_bind; [apply keeps_exists|]. intros b.
        apply keeps_bind; [apply keeps_when, k_remove_file, T_up_A, Htmp|]. intros _.
        apply keeps_bind; [apply k_symlink; [done|apply T_up_A, Htmp]|]. intros _.
        by apply (k_rename e A f0 T).
      - unfold rename_new_revision. apply keeps_bind; [|intros _; apply (k_rename e A f0 T); auto using rev_T].
        destruct (rs_current rs); [|apply keeps_ret].
        apply keeps_bind; [apply keeps_exists|]. intros b. apply keeps_when, (k_rename e A f0 T); auto using rev_T. }
    intros _. apply keeps_bind; [apply q_update_current|]. intros rs1.
    apply keeps_bind.
    { unfold clean_old. apply keeps_bind; [apply q_seconds_ago|]. intros cb.
      apply keeps_bind; [|intros; apply keeps_ret]. apply keeps_for_each. intros o _.
      apply keeps_bind; [apply keeps_exists|]. intros b. apply keeps_when.
      apply (k_remove_dir_all e A f0 T); auto using rev_T. }
    intros rs2. unfold rsync_persist. by apply k_write_buf.
  Qed.
End rsync.

Section frame.
  Context (c : config) (base name : string) (Hc : cfg_ok c base name) (e : env) (f0 : fs).
  Notation A := (owned c).
  Notation T := (trees_of c).
  Notation I := (inside A f0).

  Lemma T_up p q : T p -> under p q -> A q.
  Proof using. intros [H|[H|H]] Hu; [left|right;left|right;right;left]; by eapply under_trans. Qed.
  Lemma A_root : ~ A [].
  Proof using Hc.
    intros [H|[H|[H|[H|H]]]].
    - apply (staging_ne c). by apply prefix_nil_inv in H.
    - apply (rrdp_ne c _ _ Hc). by apply prefix_nil_inv in H.
    - apply (rsync_ne c _ _ Hc). by apply prefix_nil_inv in H.
    - rewrite rrdp_state_eq in H. by destruct (c_state_dir c).
    - rewrite rsync_state_eq in H. by destruct (c_state_dir c).
  Qed.

  Lemma T_S p : under (staging_dir c) p -> T p.
  Proof using. by left. Qed.
  Lemma T_R p : under (c_rrdp_dir c) p -> T p.
  Proof using. by right; left. Qed.
  Lemma T_Y p : under (c_rsync_dir c) p -> T p.
  Proof using. by right; right. Qed.
  Lemma T_A' p : T p -> A p.
  Proof using. intros [?|[?|?]]; unfold owned; auto. Qed.

  Lemma k_move rel : clean_rel rel -> keeps e I (move_file (staging_dir c) (c_rrdp_dir c) rel).
  Proof using Hc.
    intros H. apply (k_move_file e A f0 T T_up A_root).
    - rewrite path_join_clean by done. apply T_S, under_app.
    - rewrite path_join_clean by done. apply T_R, under_app.
  Qed.

  Lemma k_clean st : good_state c base name st -> keeps e I (clean st c).
  Proof using Hc.
    intros Hg. unfold clean. apply keeps_bind; [apply q_seconds_ago|]. intros cb.
    apply keeps_bind; [|intros; apply keeps_ret]. apply keeps_for_each. intros d Hd.
    apply elem_of_list_filter in Hd as [_ Hd]. destruct (gs_deprecated _ _ _ _ Hg _ Hd) as (rel & Hr & ->).
    apply k_remove_path. apply T_A', T_R, public_under.
  Qed.

  Lemma k_write_notification st delay : good_state c base name st -> keeps e I (write_notification st delay).
  Proof using Hc.
    intros Hg. unfold write_notification. apply keeps_bind; [apply keeps_when, keeps_sleep|]. intros _.
    rewrite (gs_map _ _ _ _ Hg), (gs_source _ _ _ _ Hg). unfold mp_path, tmp_name. cbn [mp_dir ns_name].
    rewrite (path_join_name _ name) by apply (ck_name _ _ _ Hc).
    rewrite (path_join_name _ (name +:+ ".tmp")) by (by eapply ends_with_tmp_noslash).
    apply keeps_bind; [apply q_make_notification|]. intros n. apply keeps_bind; [apply keeps_getext|]. intros x.
    apply keeps_bind; [|intros _].
    - apply k_write_buf; [apply A_root|]. apply T_A', T_R, under_app.
    - apply (k_rename e A f0 T T_up A_root); apply T_R, under_app.
  Qed.

  Lemma k_persist st : keeps e I (persist st (rrdp_state_path c)).
  Proof using Hc. apply k_write_buf; [apply A_root|]. unfold owned. tauto. Qed.

  Lemma k_rsync st : clean_snapshots (e_ext e) -> keeps e I (update_from_rrdp_state st c).
  Proof using Hc.
    intros Hx. apply (k_update_from_rrdp c e A T f0 T_up A_root T_Y); [|done]. unfold owned. tauto.
  Qed.

  (** publishing *)
  Lemma w_publish f st sg n0 n w (Q : res unit -> world -> Prop) :
    I (w_fs w) -> good_state c base name st -> good_notif base name n0 -> staged_ok c e f base st sg n0 n ->
    clean_snapshots (e_ext e) ->
    (forall r w', I (w_fs w') -> Q r w') ->
    wpt e (on_fs I)
      (st2 ← apply_staged_changed st sg c;
       when_ (rsync_enabled c) (update_from_rrdp_state st2 c) ;;
       write_notification st2 (c_notify_delay c) ;;
       persist st2 (rrdp_state_path c)) w Q.
  Proof using Hc.
    intros HI Hg Hn Hs Hx HQ. wp1. unfold apply_staged_changed.
    assert (Hent : forall rel h, (rel, h) ∈ staged_entries sg -> clean_rel rel).
    { intros rel h Hin. destruct (entry_good _ _ _ _ _ _ _ _ _ _ _ Hn Hs Hin) as [H _]. apply H. }
    wp1. eapply wpt_keeps; [apply k_move; eapply (Hent _ (ss_hash (sg_snap sg))); constructor|done|].
    intros [[]|x|] w1 HI1; [|by apply HQ|by apply HQ].
    wp1. eapply wpt_keeps; [apply keeps_for_each|done|].
    { intros d Hd. apply k_move. eapply (Hent _ (ds_hash d)). right. apply elem_of_list_fmap. by exists d. }
    intros [[]|x|] w2 HI2; [|by apply HQ|by apply HQ].
    apply (w_apply_memory e (on_fs I) ltac:(done) st sg (fun st' => clean st' c)).
    intros w3 st3 E3 Hm.
    assert (Hg3 : good_state c base name st3) by (by eapply good_merged).
    apply (w_clean e c I (fun q => A q \/ anc A q) (fun g H => proj1 H)).
    - by rewrite E3.
    - apply in_rmd.
    - intros d Hd _. destruct (gs_deprecated _ _ _ _ Hg3 _ Hd) as (rel & Hr & ->).
      assert (HA : A (public_path c rel)) by (apply T_A', T_R, public_under).
      split; [intros Ex; rewrite Ex in HA; by apply A_root in HA|].
      split; [by apply in_rmf|]. intros q Hq _. by eapply pre_A.
    - intros x w4 HI4. by apply HQ.
    - intros w4 st4 Hcl HI4 _.
      assert (Hg4 : good_state c base name st4) by (by eapply good_cleaned).
      eapply wpt_keeps; [|exact HI4|auto].
      apply keeps_bind; [by apply keeps_when, k_rsync|]. intros _.
      apply keeps_bind; [by apply k_write_notification|]. intros _. apply k_persist.
  Qed.
End frame.
