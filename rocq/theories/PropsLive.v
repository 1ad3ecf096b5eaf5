(** * C52: a run that nothing stands in the way of completes *)
From Coq Require Import ZifyN ZifyNat ZifyBool.
From Verif Require Import LiveRest PropsRsync DemoRun.
From Verif Require Import Live FsWf.

(** ** Specification *)
(** the source has something newer than what is recorded *)
Definition newer (st : rrdp_state) (n : notification) : Prop :=
  match st_snap st with
  | None => True
  | Some s => ss_session s <> n_session n \/ (ss_serial s < n_serial n)%N
  end.
(** a listed file: below the notification's directory, and to be had with the
    listed hash *)
Definition available (c : config) (base : string) (e : env) (f : fs) (u : https) (h : hash) : Prop :=
  exists rel b, u = base +:+ rel /\ clean_rel rel /\ x_https_ok (e_ext e) u = true /\
    delivers c e f u b /\ x_hash (e_ext e) b = h.
(** the published files that the recorded state knows of *)
Definition booked (c : config) (st : rrdp_state) (p : path) : Prop :=
  (exists d, d ∈ st_deprecated st /\ p = dp_path d) \/
  (exists rel h, (rel, h) ∈ state_files st /\ p = public_path c rel).
(** the files that the run writes or removes ... *)
Definition run_files (c : config) (base name : string) (st : rrdp_state) (n : notification)
    (els : list (rsync_uri * option string)) (p : path) : Prop :=
  (exists u h rel, (u, h) ∈ refs n /\ u = base +:+ rel /\ (p = staging_path c rel \/ p = public_path c rel)) \/
  p ∈ [staging_dir c ++ [name]; notif_path c name; notif_tmp c name; rrdp_state_path c] \/
  booked c st p \/
  (rsync_enabled c = true /\
   (p = rsync_state_path c \/ exists u o, (u, o) ∈ els /\ p = rev_dir c (revision_of n) ++ object_rel c u)).
(** ... and the directories of the rsync revisions it writes or removes *)
Definition run_revisions (c : config) (rs : rsync_state) (r r' : revision) : Prop :=
  r' = r \/ (exists o, o ∈ rs_old rs /\ or_rev o = r') \/ (c_force_moves c = false /\ rs_current rs = Some r').
Definition run_dirs (c : config) (rs : rsync_state) (r : revision) (p : path) : Prop :=
  rsync_enabled c = true /\ exists r', run_revisions c rs r r' /\ p `prefix_of` rev_dir c r'.
(** nothing else is in these places: no path serves as a file and as a
    directory, where the run needs a file there is nothing or a file, and
    where it needs a directory there is nothing or a directory *)
Record clear_way (F D : path -> Prop) (f : fs) : Prop := {
  cw_apart : forall t, F t -> ~ dirs F D t;
  cw_files : forall t, F t -> file_or_none f t;
  cw_dirs : forall d, dirs F D d -> d <> [] -> dir_or_none f d }.
(** the rsync tree can be made: the record is readable, the snapshot too and
    all its objects have clean names, the snapshot file is not among those that
    were published before, and the place of the current revision can be taken *)
Record rsync_ready (c : config) (base : string) (e : env) (f : fs) (st : rrdp_state) (n : notification)
    (rs : rsync_state) (els : list (rsync_uri * option string)) : Prop := {
  rr_record : recorded_rsync c f rs;
  rr_snapshot : forall b, x_hash (e_ext e) b = n_snap_hash n -> x_snapshot (e_ext e) b = (els, true);
  rr_objects : forall u o, (u, o) ∈ els -> clean_uri u /\ is_Some o;
  rr_fresh : forall rel, n_snap_uri n = base +:+ rel -> ~ booked c st (public_path c rel);
  rr_switch : switch_ready c rs (revision_of n) f;
  rr_unlisted : c_force_moves c = true -> forall cur, rs_current rs = Some cur -> forall o, o ∈ rs_old rs -> or_rev o <> cur }.

(** ** C52 *)
Lemma tot_ext {B} e (m m' : M B) w (Q : B -> world -> Prop) : m e w = m' e w -> tot e m w Q -> tot e m' w Q.
Proof. unfold tot. by intros ->. Qed.
Lemma NoDup_fmap_filter {A B} (g : A -> B) (P : A -> Prop) `{forall x, Decision (P x)} (l : list A) : NoDup (g <$> l) -> NoDup (g <$> filter P l).
Proof.
  induction l as [|x l IH]; [done|]. cbn [fmap list_fmap]. intros [Hx Hl]%NoDup_cons. rewrite filter_cons. destruct (decide (P x)); [|by apply IH].
  cbn. apply NoDup_cons. split; [|by apply IH]. intros (y & Ey & Hy)%elem_of_list_fmap. apply Hx, elem_of_list_fmap. exists y. split; [done|].
  by apply elem_of_list_filter in Hy as [_ ?].
Qed.

Lemma says_offers c e f b n : source_says c e f b -> x_parse_notif (e_ext e) b = Some n -> offers c e f n.
Proof.
  unfold source_says. destruct (located _ _ _) as [src|] eqn:Hl; [|done]. intros H Hp. exists src, b. split; [done|]. split; [|done].
  destruct src as [p|u m]; [done|]. destruct (H 0 None) as (hdr & E & _). by exists 0, None, hdr.
Qed.

Section completes.
  Context (c : config) (base name : string) (e : env) (f : fs) (Hset : setting c base name e f) (He : no_faults e).
  Context (st : rrdp_state) (doc : string) (n0 n : notification) (rs : rsync_state) (els : list (rsync_uri * option string)).
  Context (Hscr : scripts_fine c e).
  Context (Hst : starts_from c base name f st).
  Context (Hsay : source_says c e f doc) (Hpn : x_parse_notif (e_ext e) doc = Some n0)
          (Hsv : sort_and_verify (e_ext e) (c_max_deltas c) n0 = Some (n, true)) (Hnew : newer st n).
  Context (Hall : forall u h, (u, h) ∈ refs n -> available c base e f u h) (Hnd : NoDup (refs n).*1).
  Context (Hbk : forall d, d ∈ st_deltas st -> x_https_ok (e_ext e) (base +:+ ds_rel d) = true).
  Notation T := (run_files c base name st n els).
  Notation D := (run_dirs c rs (revision_of n)).
  Context (Hcw : clear_way T D f).
  Context (Hrs : rsync_enabled c = true -> rsync_ready c base e f st n rs els).

  Let Hs : sane c base name e f := setting_sane _ _ _ _ _ Hset.
  Let Hc : cfg_ok c base name := sn_cfg _ _ _ _ _ Hs.
  Let Hg : good_state c base name st := start_good c base name e f Hs st Hst.

  (** every listed file *)
  Lemma live_ref u h rel : (u, h) ∈ refs n -> u = base +:+ rel -> clean_rel rel /\ x_https_ok (e_ext e) (base +:+ rel) = true /\
    T (staging_path c rel) /\ T (public_path c rel).
  Proof using Hall.
    intros Hin Hu. destruct (Hall _ _ Hin) as (rel' & b & Hu' & Hcl & Hok & _). rewrite Hu in Hu'. apply sapp_inv_head in Hu' as <-.
    rewrite Hu in Hok. split; [done|]. split; [done|]. split; left; exists u, h, rel; eauto.
  Qed.
  Lemma live_T_ne t : T t -> t <> [].
  Proof using Hset Hst Hall.
    assert (Hr : c_rrdp_dir c <> []) by (by apply (rrdp_ne c _ _ Hc)).
    assert (Hp : forall rel, public_path c rel <> []).
    { intros rel Ex. unfold public_path in Ex. by apply app_eq_nil in Ex as [Ex _]. }
    assert (Hx : forall (d : path) x, d ++ [x] <> []) by (intros d x Ex; by destruct d).
    intros [(u & h & rel & Hin & Hu & [-> | ->])|[Ht|[[(d & Hd & ->)|(rel & h & _ & ->)]|[_ [-> |(u & o & _ & ->)]]]]].
    - destruct (live_ref _ _ _ Hin Hu) as (Hcl & _).
      rewrite staging_path_clean by done. pose proof (split_on_nonempty slash rel). intros Ex. by apply app_eq_nil in Ex as [_ ?].
    - apply Hp.
    - apply elem_of_cons in Ht as [->|Ht]; [apply Hx|]. apply elem_of_cons in Ht as [->|Ht]; [apply Hx|].
      apply elem_of_cons in Ht as [->|Ht]; [apply Hx|]. apply elem_of_list_singleton in Ht as ->. apply state_path_ne.
    - destruct (gs_deprecated _ _ _ _ Hg _ Hd) as (rel & _ & ->). apply Hp.
    - apply Hp.
    - apply PropsRsync.rsync_state_path_ne.
    - intros Ex. apply app_eq_nil in Ex as [Ex _]. by apply Hx in Ex.
  Qed.
  Lemma live_D_up d d' : D d -> below d' d -> D d'.
  Proof using. intros (H1 & r' & H2 & H3) [Hb _]. split; [done|]. exists r'. split; [done|]. by etransitivity. Qed.
  Lemma live_room : room T D f.
  Proof using Hset Hcw. split; [apply (sn_tree _ _ _ _ _ Hs)|]. split; apply Hcw. Qed.

  (** the paths of the rsync step *)
  Lemma live_own_T p : under (c_rsync_dir c) p -> T p -> under (rev_dir c (revision_of n)) p.
  Proof using Hset Hst Hall.
    intros Hp HT. destruct (own_apart c base name e f Hs p (or_introl Hp)) as (H1 & H2 & H3 & H4 & H5).
    assert (Hself : forall q, apart p q -> p <> q) by (intros q [Ha _] ->; by apply Ha, under_refl).
    destruct HT as [(u & h & rel & Hin & Hu & [-> | ->])|[Ht|[[(d & Hd & ->)|(rel & h & _ & ->)]|[_ [-> |(u & o & _ & ->)]]]]].
    - exfalso. destruct (live_ref _ _ _ Hin Hu) as (Hcl & _). apply (proj2 H1). by apply staging_path_under.
    - by destruct (Hself _ (H2 rel)).
    - exfalso. repeat (apply elem_of_cons in Ht as [Ht|Ht]); subst.
      + apply (proj2 H1), under_app.
      + by apply (Hself _ H3).
      + by apply (Hself _ H4).
      + by apply (Hself _ H5).
      + by apply elem_of_nil in Ht.
    - destruct (gs_deprecated _ _ _ _ Hg _ Hd) as (rel & _ & E). by destruct (Hself _ (H2 rel)).
    - by destruct (Hself _ (H2 rel)).
    - exfalso. by apply (proj2 (ck_yp_y _ _ _ Hc)).
    - apply under_app.
  Qed.
  (** places of the rsync tree away from the revisions at hand *)
  Lemma live_clear p : under (c_rsync_dir c) p -> (forall r', run_revisions c rs (revision_of n) r' -> apart p (rev_dir c r')) ->
    ~ T p /\ ~ dirs T D p.
  Proof using Hset Hst Hall.
    intros Hp Ha. assert (Hr : apart p (rev_dir c (revision_of n))) by (apply Ha; by left). split.
    - intros HT. by apply (proj2 Hr), live_own_T.
    - intros [(t & Ht & Hb)|(_ & r' & Hr' & Hpre)].
      + apply below_under in Hb. apply (apart_disjoint _ _ t Hr); [done|]. apply live_own_T; [|done]. by eapply under_trans.
      + by apply (proj1 (Ha r' Hr')).
  Qed.
  Lemma live_current : let cu := rsync_current c in let tmp := link_tmp c in
    (~ T cu /\ ~ dirs T D cu) /\ (~ T tmp /\ ~ dirs T D tmp) /\ (forall k, below cu k -> ~ T k /\ ~ dirs T D k).
  Proof using Hset Hst Hall.
    cbv zeta.
    assert (H : forall k, under (rsync_current c) k -> ~ T k /\ ~ dirs T D k).
    { intros k Hk. apply live_clear.
      - eapply under_trans; [|exact Hk]. rewrite rsync_current_eq. apply under_app.
      - intros r' _. eapply apart_sub_l; [|exact Hk]. rewrite <- rev_dir_eq. apply apart_sym, rev_current_apart. }
    split; [apply H, under_refl|]. split; [|intros k Hk; by apply H, below_under].
    apply live_clear; [rewrite link_tmp_eq; apply under_app|]. intros r' _. rewrite <- rev_dir_eq. apply apart_sym, rev_tmp_apart.
  Qed.
  Lemma live_cur cur : c_force_moves c = true -> rs_current rs = Some cur -> cur <> revision_of n ->
    (forall o, o ∈ rs_old rs -> or_rev o <> cur) ->
    (~ T (rev_path c cur) /\ ~ dirs T D (rev_path c cur)) /\ forall k, below (rev_path c cur) k -> ~ T k /\ ~ dirs T D k.
  Proof using Hset Hst Hall.
    intros Hf Hcur Hne Ho.
    assert (H : forall k, under (rev_path c cur) k -> ~ T k /\ ~ dirs T D k).
    { intros k Hk. apply live_clear.
      - eapply under_trans; [|exact Hk]. rewrite rev_path_eq. apply under_app.
      - intros r' Hr'. eapply apart_sub_l; [|exact Hk]. rewrite <- rev_dir_eq. apply revs_apart. intros <-.
        destruct Hr' as [->|[(o & Hin & Eo)|[Hf' _]]]; [done|by apply (Ho o)|congruence]. }
    split; [apply H, under_refl|]. intros k Hk. by apply H, below_under.
  Qed.

  Lemma live_verdict : exists reset, compare_version st n = VUpdate reset.
  Proof using Hnew.
    unfold compare_version, newer in *. destruct (st_snap st) as [s|]; [|eauto].
    destruct (bool_decide (ss_session s = n_session n)) eqn:Eb; cbn [negb]; [|eauto].
    apply bool_decide_eq_true_1 in Eb. destruct Hnew as [|Hlt]; [done|]. apply N.compare_lt_iff in Hlt. rewrite Hlt. eauto.
  Qed.

  (** what update_staged leaves for the rest of the run *)
  Record staged_facts (sg : staged_changes) (w1 : world) : Prop := {
    sf_room : room T D (w_fs w1);
    sf_frame : frame T D (under (staging_dir c)) f (w_fs w1);
    sf_notif : w_fs w1 !! (staging_dir c ++ [name]) = Some (File (x_write_notif (e_ext e) n) None);
    sf_files : Forall (fun en => exists b m, w_fs w1 !! staging_path c en.1 = Some (File b m) /\ x_hash (e_ext e) b = en.2) (staged_entries sg);
    sf_uri : n_snap_uri n = base +:+ ss_rel (sg_snap sg);
    sf_hash : ss_hash (sg_snap sg) = n_snap_hash n;
    sf_session : ss_session (sg_snap sg) = n_session n;
    sf_serial : ss_serial (sg_snap sg) = n_serial n;
    sf_deltas : exists reset, Forall2 (fun di d => di_uri di = base +:+ ds_rel d /\ ds_hash d = di_hash di)
         (filter (fun d => delta_is_new st reset (di_serial d) = true) (n_deltas n)) (sg_deltas sg) }.
  Lemma live_staged : exists sg w1, staged_facts sg w1 /\
    forall r w2, publish_staged st sg c e w1 = (r, w2) -> run c e f = (r, w2).
  Proof using All.
    assert (Tne := live_T_ne). assert (Dup := live_D_up). assert (Tanti := cw_apart _ _ _ Hcw).
    destruct (load_state_ok c base name e f st Hc Hst (fun k => He k ORead)) as (w0 & E0 & F0 & _).
    destruct live_verdict as [reset Hv].
    assert (Htot : tot e (update_staged st c) w0 (fun o w1 => exists sg, o = Some sg /\ staged_facts sg w1)).
    { apply (tot_update_staged c base name Hc e He T D Tne Tanti Dup st f doc n0 n reset); try done.
      { apply live_room. }
      { right. left. constructor. }
      { apply Forall_forall. intros [u h] Hin. destruct (Hall _ _ Hin) as (rel & b & Hu & Hcl & _ & Hd & Hh).
        exists rel, b. split; [done|]. split; [done|]. split; [by apply (live_ref u h rel)|done]. }
      { intros u h rel Hin Hu. assert (Hgr : good_rel name rel).
        { assert (Hoff : offers c e f n0) by (by eapply says_offers).
          eapply (sn_notif _ _ _ _ _ Hs _ Hoff); [by eapply sav_refs|done]. }
        destruct Hgr as (Hcl & Hn & _). rewrite staging_path_clean by done. intros Ex. apply app_inv_head in Ex. apply Hn. by rewrite Ex. }
      intros w1 sg R1 F1 N1 S1 Hreset Hcut Hsu Hsh Hss Hsn Hds. exists sg. split; [done|]. split; try done. by exists reset. }
    destruct Htot as (o & w1 & E1 & sg & -> & Hf1). exists sg, w1. split; [done|].
    intros r w2 E2. unfold run, process, mbind, M_bind. by rewrite E0, E1.
  Qed.

  Theorem live_rest sg w1 : staged_facts sg w1 ->
    tot e (pre_validate st c) w1 (fun st' w' => w_fs w' = w_fs w1 /\ exists ov, st' = set_validator st ov) ->
    exists w, publish_staged st sg c e w1 = (Ok tt, w) /\
    exists ds, w_fs w !! notif_path c name = Some (File (x_write_notif (e_ext e)
      (mkNotif (n_session n) (n_serial n) (n_snap_uri n) (n_snap_hash n) ds)) None).
  Proof using All.
    assert (Tne := live_T_ne). assert (Dup := live_D_up). assert (Tanti := cw_apart _ _ _ Hcw).
    intros [R1 F1 _ S1 Hsu Hsh Hss Hsn [reset Hds]] (st1 & w1' & Epre & E1' & ov & ->).
    assert (Htot : tot e (publish_staged st sg c) w1 (fun _ w => exists ds, w_fs w !! notif_path c name = Some (File (x_write_notif (e_ext e)
      (mkNotif (n_session n) (n_serial n) (n_snap_uri n) (n_snap_hash n) ds)) None))).
    2: { destruct Htot as ([] & w & H1 & H2). by exists w. }
    unfold publish_staged. apply tot_bind. exists (set_validator st ov), w1'. split; [done|].
    cbv beta. apply tot_bind, tot_scripts; [done|]. intros w2 E2. rewrite E1' in E2. clear Epre E1'.
    apply tot_bind. unfold apply_staged_changed.
    (* the staged entries *)
    assert (Hent : forall en, en ∈ staged_entries sg -> exists u h, (u, h) ∈ refs n /\ u = base +:+ en.1).
    { intros en Hen. unfold staged_entries in Hen. apply elem_of_cons in Hen as [->|Hen].
      - cbn. eexists _, _. split; [apply elem_of_list_here|done].
      - apply elem_of_list_fmap in Hen as (d & -> & Hd). apply (elem_of_list_lookup_1 (sg_deltas sg)) in Hd as [i Hi].
        destruct (Forall2_lookup_r _ _ _ _ _ Hds Hi) as (di & Hdi & Hu & Hh). cbn. exists (di_uri di), (di_hash di). split; [|done].
        apply elem_of_list_further, elem_of_list_fmap. exists di. split; [done|].
        apply elem_of_list_lookup_2 in Hdi. by apply elem_of_list_filter in Hdi as [_ ?]. }
    assert (HentT : forall en, en ∈ staged_entries sg -> clean_rel en.1 /\ T (staging_path c en.1) /\ T (public_path c en.1)).
    { intros en Hen. destruct (Hent en Hen) as (u & h & Hin & Hu). destruct (live_ref _ _ _ Hin Hu) as (? & _ & ? & ?). done. }
    assert (Hndr : NoDup (staged_entries sg).*1).
    { unfold refs in Hnd. cbn in Hnd. rewrite <- list_fmap_compose in Hnd. apply NoDup_cons in Hnd as [Hnin Hnd'].
      assert (Hmap : di_uri <$> filter (fun d => delta_is_new st reset (di_serial d) = true) (n_deltas n) = (fun d => base +:+ ds_rel d) <$> sg_deltas sg).
      { clear -Hds. induction Hds as [|di d l l' [H1 H2] Hl IH]; [done|]. cbn. by rewrite H1, IH. }
      unfold staged_entries. cbn. rewrite <- list_fmap_compose. apply NoDup_cons. split.
      - intros (d & Ed & Hd)%elem_of_list_fmap. cbn in Ed. apply Hnin. rewrite Hsu, Ed.
        assert (base +:+ ds_rel d ∈ (fun d => base +:+ ds_rel d) <$> sg_deltas sg) as Hin by (apply elem_of_list_fmap; eauto).
        rewrite <- Hmap in Hin. apply elem_of_list_fmap in Hin as (di & Edi & Hdi). apply elem_of_list_filter in Hdi as [_ Hdi].
        apply elem_of_list_fmap. by exists di.
      - apply (NoDup_fmap_1 (fun r => base +:+ r)). rewrite <- list_fmap_compose. unfold compose. cbn. rewrite <- Hmap.
        by apply NoDup_fmap_filter. }
    eapply tot_conseq with (Q := fun st2 w5 => room T D (w_fs w5) /\ st_map st2 = mkMap base (c_rrdp_dir c) /\
      st_source st2 = mkNS (c_notif_uri c) name None /\ st_snap st2 = Some (sg_snap sg) /\
      (forall d, d ∈ st_deltas st2 -> x_https_ok (e_ext e) (base +:+ ds_rel d) = true) /\ (rsync_enabled c = true -> 
        (exists b m, w_fs w5 !! public_path c (ss_rel (sg_snap sg)) = Some (File b m) /\ x_hash (e_ext e) b = n_snap_hash n) /\
        (forall p, rsync_own c p -> w_fs w5 !! p = f !! p \/ (f !! p = None /\ w_fs w5 !! p = Some Dir /\ dirs T D p)))).
    { eapply tot_ext; [apply bind_assoc_run|]. fold (moves c sg). apply tot_bind.
      apply (tot_moves c base name Hc e He T D Tne Tanti Dup sg).
      { by rewrite E2. } { apply Forall_forall. exact HentT. } { done. } { by rewrite E2. }
      intros w3 R3 Hsn3 F3. rewrite E2 in F3, Hsn3.
      apply (tot_apply_memory e (set_validator st ov) sg (fun st' => clean st' c)). intros w4 st' E4 Hmg.
      assert (Hdep : forall d, d ∈ st_deprecated st' -> booked c st (dp_path d)).
      { destruct (mg_deprecated _ _ _ _ Hmg) as (deps & -> & Hdeps & _). intros d [Hd|Hd]%elem_of_app; [left; by exists d|].
        right. assert (Hin : dp_path d ∈ dropped (set_validator st ov) sg) by (rewrite <- Hdeps; apply elem_of_list_fmap; eauto).
        unfold dropped, snapshot_path in Hin. cbn [st_snap st_map set_validator] in Hin. apply elem_of_app in Hin as [Hin|Hin].
        - destruct (st_snap st) as [s|] eqn:Es; cbn in Hin; [|by apply elem_of_nil in Hin]. apply elem_of_list_singleton in Hin.
          exists (ss_rel s), (ss_hash s). split; [unfold state_files; rewrite Es; by left|]. rewrite Hin.
          apply (public_mp c base name); [done|]. by apply (gs_snap _ _ _ _ Hg).
        - apply elem_of_list_fmap in Hin as (x & Ex & Hx). assert (Hx' : x ∈ st_deltas st).
          { apply (kept_gone (set_validator st ov) sg). by right. }
          exists (ds_rel x), (ds_hash x). split.
          + unfold state_files. apply elem_of_app. right. apply elem_of_list_fmap. eauto.
          + rewrite Ex. apply (public_mp c base name); [done|]. by apply (gs_deltas _ _ _ _ Hg). }
      apply (tot_clean e He T D Tne); [by rewrite E4| |].
      { intros d Hd. right. right. left. by apply Hdep. }
      intros w5 cb R5 M5. rewrite E4 in M5. split; [done|]. cbn [st_map st_source st_snap st_deltas set_deltas].
      split; [rewrite (mg_map _ _ _ _ Hmg); apply (gs_map _ _ _ _ Hg)|].
      split; [rewrite (mg_source _ _ _ _ Hmg); apply (gs_source _ _ _ _ Hg)|].
      split; [apply (mg_snap _ _ _ _ Hmg)|]. split.
      { intros d. rewrite (mg_deltas _ _ _ _ Hmg), elem_of_reverse, sort_by_key_perm, elem_of_app. intros [Hd|Hd].
        - apply Hbk. apply (kept_gone (set_validator st ov) sg). by left.
        - destruct (Hent (ds_rel d, ds_hash d)) as (u & h & Hin & Hu).
          { unfold staged_entries. apply elem_of_list_further, elem_of_list_fmap. eauto. }
          by destruct (live_ref _ _ _ Hin Hu) as (_ & ? & _). }
      intros Hen. destruct (Hrs Hen) as [Q1 Q2 Q3 Q4 Q5 Q6]. split.
      { apply Forall_cons in S1 as [(b & m & Eb & Hb) _]. cbn in Eb, Hb. specialize (Hsn3 b m Eb). exists b, m.
        split; [|by rewrite Hb]. destruct (M5 (public_path c (ss_rel (sg_snap sg)))) as [->|[(d & Hd & Ed)|(_ & [?|?] & _)]]; [done| |congruence..].
        exfalso. apply (Q4 _ Hsu). rewrite <- Ed. by apply Hdep. }
      intros p Hp. destruct (own_apart c base name e f Hs p Hp) as (A1 & A2 & _ & _ & _).
      assert (Hdp : forall d, d ∈ st_deprecated st' -> apart p (dp_path d)).
      { intros d Hd. destruct (Hdep d Hd) as [(d' & Hd' & ->)|(rel & h & _ & ->)]; [|apply A2].
        destruct (gs_deprecated _ _ _ _ Hg _ Hd') as (rel & _ & ->). apply A2. }
      assert (E5 : w_fs w5 !! p = w_fs w3 !! p).
      { destruct (M5 p) as [->|[(d & Hd & Ed)|((d & Hd & Ed) & _)]]; [done|exfalso..].
        - destruct (Hdp d Hd) as [Hx _]. apply Hx. rewrite Ed. apply under_refl.
        - destruct (Hdp d Hd) as [Hx _]. by apply Hx, below_under. }
      rewrite E5. assert (Fx : frame T D (fun p => ~ rsync_own c p) f (w_fs w3)).
      { eapply frame_trans; [eapply frame_weaken; [|exact F1]|eapply frame_weaken; [|exact F3]].
        - intros q Hq Ho. destruct (own_apart c base name e f Hs q Ho) as (B1 & _). by apply (proj2 B1).
        - intros q (en & Hen' & Eq) Ho. destruct (own_apart c base name e f Hs q Ho) as (B1 & B2 & _).
          destruct Eq as [->| ->].
          + apply (proj2 B1). apply staging_path_under. by apply HentT.
          + apply (proj1 (B2 en.1)), under_refl. }
      apply Fx. tauto. }
    intros st2 w5 (R5 & Hm5 & Hs5 & Hn5 & Hok5 & Hy5).
    destruct (live_ref _ _ _ (elem_of_list_here _ _) Hsu) as (Hcls & Hoks & HTs & HTp).
    apply tot_bind.
    assert (Hlast : forall w6, room T D (w_fs w6) -> tot e (write_notification st2 (c_notify_delay c);; persist st2 (rrdp_state_path c)) w6
      (fun _ w => exists ds, w_fs w !! notif_path c name = Some (File (x_write_notif (e_ext e)
        (mkNotif (n_session n) (n_serial n) (n_snap_uri n) (n_snap_hash n) ds)) None))).
    { intros w6 R6. apply tot_bind. apply (tot_notification e He T D Tne Tanti Dup c base name st2 (sg_snap sg)); try done.
      { right. left. apply elem_of_list_further, elem_of_list_here. }
      { right. left. do 2 apply elem_of_list_further. apply elem_of_list_here. }
      intros w7 ds R7 E7. unfold persist. apply (tot_write_buf e He T D Tne Tanti Dup); [done| |].
      { right. left. do 3 apply elem_of_list_further. apply elem_of_list_here. }
      intros w8 R8 E8 F8. exists ds. rewrite <- Hss, <- Hsn, Hsu, <- Hsh. eapply frame_file; [exact F8| |exact E7].
      intros Ex. apply (proj2 (ck_sp_r _ _ _ Hc)). rewrite Ex. apply under_app. }
    destruct (rsync_enabled c) eqn:Hen; cbn [when_]; [|by apply tot_ret, Hlast].
    destruct (Hy5 eq_refl) as ((b & m & Eb & Hb) & Hown). destruct (Hrs eq_refl) as [Q1 Q2 Q3 Q4 Q5 Q6].
    assert (Hrev : rev_of (sg_snap sg) = revision_of n) by (unfold rev_of, revision_of; by rewrite Hss, Hsn).
    assert (Hdir : forall r', rev_path c r' = rev_dir c r') by (intros; by rewrite rev_dir_eq).
    assert (Hmp : mp_path (st_map st2) (ss_rel (sg_snap sg)) = public_path c (ss_rel (sg_snap sg))).
    { rewrite Hm5. unfold mp_path. cbn. by apply path_join_clean. }
    assert (HDr : forall r', run_revisions c rs (revision_of n) r' -> D (rev_path c r')).
    { intros r' Hr'. split; [done|]. exists r'. by rewrite Hdir. }
    assert (HTy : T (rsync_state_path c)) by (right; right; right; split; [done|by left]).
    assert (Hyne : rsync_state_path c <> []) by apply PropsRsync.rsync_state_path_ne.
    assert (Hclr : forall p, rsync_own c p -> ~ dirs T D p -> w_fs w5 !! p = f !! p).
    { intros p Hp Hd. destruct (Hown p Hp) as [?|(_ & _ & ?)]; done. }
    destruct live_current as ((C1 & C2) & (C3 & C4) & C5).
    assert (Hout : rsync_own c (rsync_current c)) by (left; rewrite rsync_current_eq; apply under_app).
    assert (Hotm : rsync_own c (link_tmp c)) by (left; rewrite link_tmp_eq; apply under_app).
    assert (Horv : forall r', rsync_own c (rev_path c r')) by (intros; left; rewrite rev_path_eq; apply under_app).
    apply (tot_rsync e He T D Tne Tanti Dup c st2 (sg_snap sg) rs b m els); rewrite ?Hmp, ?Hrev; try done.
    { apply live_T_ne. done. }
    { by apply Q2. }
    { apply Forall_forall. intros [u o] Hin. destruct (Q3 _ _ Hin) as [Hcl Hso]. split; [|done]. cbn.
      right. right. right. split; [done|]. right. exists u, o. split; [done|]. by rewrite object_path_rel, Hdir. }
    { apply HDr. by left. }
    { assert (Ey : w_fs w5 !! rsync_state_path c = f !! rsync_state_path c).
      { apply Hclr; [by right|]. by apply Tanti. }
      unfold rsync_starts, fs_exists, op_read, fs_stat. rewrite fs_get_nonroot by done. rewrite Ey.
      destruct Q1 as [[-> ->]|(b' & m' & -> & Hp)]; [by right|left]. split; [done|]. eauto. }
    { intros o Ho. apply HDr. right. left. eauto. }
    { unfold switch_ready in *. destruct (use_symlinks c) eqn:Eu.
      - rewrite (Hclr _ Hout C2). destruct Q5 as [H1 H2]. split; [done|]. destruct H2 as [H2|(r' & H2 & H3)].
        + left. unfold file_or_none in *. by rewrite (Hclr _ Hotm C4).
        + right. exists r'. rewrite (Hclr _ Hotm C4). split; [done|].
          destruct (Hown _ (Horv r')) as [->|(? & ? & _)]; [done|congruence].
      - unfold use_symlinks in Eu. apply negb_false_iff in Eu. unfold dir_or_none, vacant in *. rewrite (Hclr _ Hout C2).
        destruct (rs_current rs) as [cur|] eqn:Ec.
        + destruct Q5 as (W1 & W2 & W3 & W4). destruct (live_cur cur) as ((L1 & L2) & L3); try done; [by apply Q6|].
          rewrite (Hclr _ (Horv cur) L2). split; [done|]. split; [done|]. split; [|done]. intros Ed k Hk.
          rewrite Hclr; [by apply W3| |by apply L3]. left. eapply under_trans; [|by apply below_under]. rewrite rev_path_eq. apply under_app.
        + destruct Q5 as [W1 W2]. split; [done|]. intros k Hk. rewrite Hclr; [by apply W2| |by apply C5].
          left. eapply under_trans; [|by apply below_under]. rewrite rsync_current_eq. apply under_app. }
    { intros Eu. split; [exact C5|]. intros cur Ec. unfold switch_ready in Q5. rewrite Eu, Ec in Q5. destruct Q5 as (? & ? & ? & ?).
      unfold use_symlinks in Eu. apply negb_false_iff in Eu.
      destruct (live_cur cur) as ((L1 & L2) & L3); try done. by apply Q6. }
    { intros Eu cur Ec. apply HDr. right. right. split; [|done]. unfold use_symlinks in Eu. by apply negb_true_iff. }
  Qed.
End completes.

(** No directory or file operation fails, no trust anchors are configured, the
    validation scripts accept, the source has a newer version and every file it
    lists, the places of the run are not occupied by others, and the rsync tree
    (if enabled) can be made: then the run succeeds and the notification file
    served is that of the new version. *)
Theorem C52_completes c base name e f st doc n0 n rs els :
  setting c base name e f -> no_faults e -> c_tal_files c = [] -> scripts_fine c e ->
  starts_from c base name f st ->
  source_says c e f doc -> x_parse_notif (e_ext e) doc = Some n0 ->
  usable_notif (e_ext e) (c_max_deltas c) n0 n -> newer st n ->
  (forall u h, (u, h) ∈ refs n -> available c base e f u h) -> NoDup (refs n).*1 ->
  (forall d, d ∈ st_deltas st -> x_https_ok (e_ext e) (base +:+ ds_rel d) = true) ->
  clear_way (run_files c base name st n els) (run_dirs c rs (revision_of n)) f ->
  (rsync_enabled c = true -> rsync_ready c base e f st n rs els) ->
  exists w, run c e f = (Ok tt, w) /\
    exists ds, w_fs w !! notif_path c name = Some (File (x_write_notif (e_ext e)
      (mkNotif (n_session n) (n_serial n) (n_snap_uri n) (n_snap_hash n) ds)) None).
Proof.
  intros Hset He Htal Hscr Hst Hsay Hpn Hsv%usable_sav Hnew Hall Hnd Hbk Hcw Hrs.
  destruct (live_staged c base name e f Hset He st doc n0 n rs els) as (sg & w1 & Hf1 & Hrun); [done..|].
  destruct (live_rest c base name e f Hset He st doc n0 n rs els) with (sg := sg) (w1 := w1) as (w & E & Hds); [done..| |by exists w; auto].
  exists (set_validator st None), w1. split; [|eauto]. unfold pre_validate, reconfigure_validator, mbind, M_bind. by rewrite Htal.
Qed.

(** *** A case: the second run of the demonstration mirror, with a hash without
    collisions *)
Definition live_ext : ext := {|
  x_hash := (fun b => "h:" +:+ b); x_https_ok := x_https_ok demo_ext; x_parse_notif := x_parse_notif demo_ext;
  x_write_notif := x_write_notif demo_ext; x_sav_last := false; x_snapshot := safe_snapshot;
  x_delta := x_delta demo_ext; x_cert := x_cert demo_ext; x_crl := x_crl demo_ext; x_sigobj := x_sigobj demo_ext;
  x_mft := x_mft demo_ext; x_roa := x_roa demo_ext; x_aspa := x_aspa demo_ext; x_ta_valid := x_ta_valid demo_ext;
  x_mft_valid := x_mft_valid demo_ext; x_crl_signed := x_crl_signed demo_ext; x_ca_valid := x_ca_valid demo_ext;
  x_router_valid := x_router_valid demo_ext; x_roa_valid := x_roa_valid demo_ext;
  x_aspa_valid := x_aspa_valid demo_ext; x_order := x_order demo_ext; x_tal := x_tal demo_ext |}.
Definition live_n : notification :=
  mkNotif uuid_A 5 (base +:+ snap_rel uuid_A 5) ("h:" +:+ snap_doc uuid_A 5)
    ((fun k => mkDI k (base +:+ delta_rel uuid_A k) ("h:" +:+ delta_doc uuid_A k)) <$> [4; 5]%N).
Definition live_doc : string := json_text (j_notif live_n).
Definition live_docs : list (string * string) :=
  (notif_uri, live_doc) :: (base +:+ snap_rel uuid_A 5, snap_doc uuid_A 5) ::
  ((fun k => (base +:+ delta_rel uuid_A k, delta_doc uuid_A k)) <$> [4; 5]%N).
Definition live_env : env := mkEnv live_ext (serve live_docs) (fun _ => 1000%Z) (fun _ _ => None) (fun _ _ => SOk) 50.
Definition live_els : list (rsync_uri * option string) := (safe_snapshot (snap_doc uuid_A 5)).1.
Definition live_rels : list string := [snap_rel uuid_A 5; delta_rel uuid_A 4; delta_rel uuid_A 5].

Fixpoint ups (p : path) : list path := match p with [] => [[]] | x :: p' => [] :: (cons x <$> ups p') end.
Lemma ups_ok p : forall q, q `prefix_of` p -> q ∈ ups p.
Proof.
  induction p as [|x p IH]; intros q Hq; [apply prefix_nil_inv in Hq as ->; constructor|]. destruct q as [|y q]; [constructor|]. cbn.
  right. apply elem_of_list_fmap. exists q. split; [by rewrite (prefix_cons_inv_1 _ _ _ _ Hq)|]. by apply IH, (prefix_cons_inv_2 _ _ _ _ Hq).
Qed.
Definition rsync_state_of (c : config) (f : fs) : option rsync_state :=
  match f !! rsync_state_path c with Some (File b _) => rsync_state_parse b | _ => None end.
Lemma rsync_state_recorded c f rs : rsync_state_of c f = Some rs -> recorded_rsync c f rs.
Proof. unfold rsync_state_of. right. destruct (f !! _) as [[b m| |]|]; try done. by exists b, m. Qed.
Section check.
  Context (c : config) (st : rrdp_state) (rs : rsync_state) (f : fs).
  Let files : list path :=
    (staging_path c <$> live_rels) ++ (public_path c <$> live_rels) ++
    [staging_dir c ++ [DemoRun.name]; notif_path c DemoRun.name; notif_tmp c DemoRun.name; rrdp_state_path c] ++
    (dp_path <$> st_deprecated st) ++ ((fun x => public_path c x.1) <$> state_files st) ++
    rsync_state_path c :: ((fun el => rev_dir c (revision_of live_n) ++ object_rel c el.1) <$> live_els).
  Let dirlist : list path :=
    (t ← files; filter (fun q => q <> t) (ups t)) ++
    (r ← revision_of live_n :: (or_rev <$> rs_old rs) ++ option_list (rs_current rs); ups (rev_dir c r)).
  Definition live_check : bool :=
    match st_snap st with Some s => bool_decide (ss_session s <> n_session live_n \/ (ss_serial s < n_serial live_n)%N) | None => true end &&
    forallb (fun d => x_https_ok demo_ext (base +:+ ds_rel d)) (st_deltas st) &&
    forallb (fun t => negb (bool_decide (t ∈ dirlist)) && match f !! t with None | Some (File _ _) => true | _ => false end) files &&
    forallb (fun d => bool_decide (d = []) || match f !! d with None | Some Dir => true | _ => false end) dirlist &&
    bool_decide (public_path c (snap_rel uuid_A 5) ∉ (dp_path <$> st_deprecated st) ++ ((fun x => public_path c x.1) <$> state_files st)) &&
    bool_decide (f !! rsync_current c <> Some Dir) && bool_decide (f !! link_tmp c = None).
  Lemma live_files_in t : run_files c base DemoRun.name st live_n live_els t -> t ∈ files.
  Proof using.
    unfold files. rewrite !elem_of_app.
    intros [(u & h & rel & Hin & -> & Ht)|[Ht|[[(d & Hd & ->)|(rel & h & Hin & ->)]|[_ [-> |(u & o & Hin & ->)]]]]].
    - assert (Hr : rel ∈ live_rels).
      { assert (Hu : base +:+ rel ∈ (refs live_n).*1) by (apply elem_of_list_fmap; by exists (base +:+ rel, h)).
        change (refs live_n).*1 with ((fun r => base +:+ r) <$> live_rels) in Hu.
        apply elem_of_list_fmap in Hu as (r & Hr & ?). by apply sapp_inv_head in Hr as ->. }
      destruct Ht as [->| ->]; [left|right; left]; by apply elem_of_list_fmap_1.
    - do 2 right. by left.
    - do 3 right. left. by apply elem_of_list_fmap_1.
    - do 4 right. left. apply elem_of_list_fmap. by exists (rel, h).
    - do 5 right. constructor.
    - do 5 right. apply elem_of_list_further. apply elem_of_list_fmap. by exists (u, o).
  Qed.
  Lemma live_dirs_in d : dirs (run_files c base DemoRun.name st live_n live_els) (run_dirs c rs (revision_of live_n)) d -> d ∈ dirlist.
  Proof using.
    unfold dirlist. rewrite elem_of_app, !elem_of_list_bind. intros [(t & Ht & [Hb1 Hb2])|(_ & r & Hr & Hp)].
    - left. exists t. split; [|by apply live_files_in]. apply elem_of_list_filter. split; [done|by apply ups_ok].
    - right. exists r. split; [by apply ups_ok|]. rewrite elem_of_cons, elem_of_app. destruct Hr as [->|[(o & Ho & <-)|[_ ->]]]; [by left| |].
      + right. left. by apply elem_of_list_fmap_1.
      + do 2 right. cbn. constructor.
  Qed.
  Lemma live_check_ok : c_force_moves c = false -> live_check = true -> recorded_rsync c f rs ->
    newer st live_n /\ (forall d, d ∈ st_deltas st -> x_https_ok live_ext (base +:+ ds_rel d) = true) /\
    clear_way (run_files c base DemoRun.name st live_n live_els) (run_dirs c rs (revision_of live_n)) f /\
    rsync_ready c base live_env f st live_n rs live_els.
  Proof using.
    intros Hf H Hy. unfold live_check in H. rewrite !andb_true_iff in H. destruct H as ((((((H1 & H2) & H3) & H4) & H5) & H6) & H7).
    rewrite forallb_forall in H2, H3, H4. apply bool_decide_eq_true in H5, H6, H7. split; [|split; [|split]].
    - unfold newer. destruct (st_snap st); [|done]. by apply bool_decide_eq_true in H1.
    - intros d Hd. apply H2. by apply elem_of_list_In.
    - split.
      + intros t Ht Hd. apply live_files_in, elem_of_list_In, H3 in Ht. apply andb_true_iff in Ht as [Ht _].
        apply negb_true_iff, bool_decide_eq_false in Ht. by apply Ht, live_dirs_in.
      + intros t Ht. apply live_files_in, elem_of_list_In, H3 in Ht. apply andb_true_iff in Ht as [_ Ht].
        unfold file_or_none. destruct (f !! t) as [[]|]; eauto; done.
      + intros d Hd Hne. apply live_dirs_in, elem_of_list_In, H4 in Hd. apply orb_true_iff in Hd as [Hd%bool_decide_eq_true|Hd]; [done|].
        unfold dir_or_none. destruct (f !! d) as [[]|]; eauto; done.
    - split.
      + done.
      + intros b Hb. change (n_snap_hash live_n) with ("h:" +:+ snap_doc uuid_A 5) in Hb. cbn [e_ext live_env x_hash live_ext] in Hb.
        apply sapp_inv_head in Hb as ->. by vm_compute.
      + assert (Hel : forallb (fun el => bool_decide (clean_uri el.1) && bool_decide (is_Some el.2)) live_els = true) by (by vm_compute).
        rewrite forallb_forall in Hel. intros u o Hin%elem_of_list_In%Hel. apply andb_true_iff in Hin as [X%bool_decide_eq_true Y%bool_decide_eq_true]. done.
      + intros rel Hr Hb. change (n_snap_uri live_n) with (base +:+ snap_rel uuid_A 5) in Hr. apply sapp_inv_head in Hr as <-. apply H5.
        apply elem_of_app. destruct Hb as [(d & Hd & ->)|(r & h & Hin & ->)].
        * left. by apply elem_of_list_fmap_1.
        * right. apply elem_of_list_fmap. by exists (r, h).
      + unfold switch_ready, use_symlinks. rewrite Hf. cbn. split; [done|]. left. by left.
      + congruence.
  Qed.
End check.

Definition live_facts (f : fs) : bool :=
  match state_of demo_config f, rsync_state_of demo_config f with
  | Some st, Some rs => live_check demo_config st rs f
  | _, _ => false
  end.
Lemma live_facts_ok : live_facts t3_1 = true.
Proof. vm_cast_no_check (eq_refl true). Qed.
Definition fixed_env (docs : list (string * string)) (t : Z) : env :=
  mkEnv live_ext (serve docs) (fun _ => t) (fun _ _ => None) (fun _ _ => SOk) 50.
Lemma fixed_offers docs t f n : offers demo_config (fixed_env docs t) f n ->
  exists b, Demo.assoc docs notif_uri = Some b /\ x_parse_notif live_ext b = Some n.
Proof.
  intros (src & b & Hl & Hs & Hp). unfold located, config_fetcher in Hl. cbn in Hl. injection Hl as <-.
  cbn in Hs. destruct Hs as (k & etag & hdr & Hs). cbn in Hs. unfold serve in Hs.
  exists b. split; [|done]. destruct (Demo.assoc docs notif_uri) as [b'|]; [|done]. by injection Hs as _ ->.
Qed.
Lemma live_parsed : x_parse_notif live_ext live_doc = Some live_n /\ Demo.assoc live_docs notif_uri = Some live_doc.
Proof. by vm_compute. Qed.
Lemma live_setting : setting demo_config base DemoRun.name live_env t3_1.
Proof.
  split; [apply demo_cfg_ok|apply (mirror3 1); lia|]. split.
  - intros n (b & H1 & H2)%(fixed_offers live_docs 1000). destruct live_parsed as [E1 E2]. rewrite E2 in H1. injection H1 as <-.
    rewrite E1 in H2. injection H2 as <-. apply good_check_ok. by vm_compute.
  - apply safe_clean.
Qed.
Lemma live_sorted : usable_notif live_ext (c_max_deltas demo_config) live_n live_n.
Proof.
  apply sav_usable; [vm_cast_no_check (eq_refl true)|vm_cast_no_check (eq_refl (Some (live_n, true)))].
Qed.
Opaque live_doc live_docs.
Example C52_applies : exists st n0 n rs els, let c := demo_config in let e := live_env in let f := tree3 1 in
  setting c base DemoRun.name e f /\ no_faults e /\ scripts_fine c e /\ starts_from c base DemoRun.name f st /\
  source_says c e f live_doc /\ x_parse_notif (e_ext e) live_doc = Some n0 /\
  usable_notif (e_ext e) (c_max_deltas c) n0 n /\ newer st n /\
  (forall u h, (u, h) ∈ refs n -> available c base e f u h) /\ NoDup (refs n).*1 /\ length (refs n) = 3 /\
  (forall d, d ∈ st_deltas st -> x_https_ok (e_ext e) (base +:+ ds_rel d) = true) /\
  clear_way (run_files c base DemoRun.name st n els) (run_dirs c rs (revision_of n)) f /\
  rsync_enabled c = true /\ rsync_ready c base e f st n rs els.
Proof.
  pose proof live_facts_ok as H. unfold live_facts in H.
  destruct (state_of demo_config t3_1) as [st|] eqn:Est; [|done]. destruct (rsync_state_of demo_config t3_1) as [rs|] eqn:Ers; [|done].
  assert (Hy : recorded_rsync demo_config t3_1 rs).
  { by apply rsync_state_recorded. }
  destruct (live_check_ok demo_config st rs t3_1 eq_refl H Hy) as (H1 & H2 & H3 & H4).
  exists st, live_n, live_n, rs, live_els. cbv zeta. rewrite <- (tree_at_eq 1) by lia. change (tree_at 1) with t3_1.
  split; [apply live_setting|]. split; [intros k op; reflexivity|]. split; [intros k p Hp; apply elem_of_nil in Hp; contradiction|].
  split; [apply state_of_starts, Est|]. clear Est Ers H Hy.
  split; [intros k etag; cbn; unfold serve; rewrite (proj2 live_parsed); by eexists|]. split; [apply live_parsed|]. split; [exact live_sorted|]. split; [exact H1|]. split.
  { clear H1 H2 H3 H4. intros u h Hin. assert (Hx : exists rel b, u = base +:+ rel /\ rel ∈ live_rels /\ Demo.assoc live_docs u = Some b /\ "h:" +:+ b = h).
    { change (refs live_n) with [(base +:+ snap_rel uuid_A 5, "h:" +:+ snap_doc uuid_A 5);
        (base +:+ delta_rel uuid_A 4, "h:" +:+ delta_doc uuid_A 4); (base +:+ delta_rel uuid_A 5, "h:" +:+ delta_doc uuid_A 5)] in Hin.
      rewrite !elem_of_cons in Hin. destruct Hin as [E|[E|[E|E%elem_of_nil]]]; [injection E as -> ->..|done];
        (eexists _, _; split; [reflexivity|]; split; [unfold live_rels; rewrite !elem_of_cons; tauto|split; [vm_compute; reflexivity|vm_compute; reflexivity]]). }
    destruct Hx as (rel & b & -> & Hr & Ha & Hh). exists rel, b. split; [done|].
    assert (Hc : forallb (fun r => bool_decide (clean_rel r) && x_https_ok live_ext (base +:+ r)) live_rels = true) by (by vm_compute).
    rewrite forallb_forall in Hc. apply elem_of_list_In, Hc, andb_true_iff in Hr as [Hr1%bool_decide_eq_true Hr2].
    split; [done|]. split; [done|]. split; [|done]. unfold delivers. cbn.
    intros k etag. unfold serve. rewrite Ha. by eexists. }
  split; [apply (bool_decide_unpack _); vm_compute; exact I|]. split; [vm_compute; reflexivity|]. split; [exact H2|]. split; [exact H3|]. split; [reflexivity|exact H4].
Qed.
Print Assumptions C52_completes.
