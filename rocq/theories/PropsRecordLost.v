(** * C82: rsync trees that are not recorded stay for good *)
From Coq Require Import ZifyN ZifyNat ZifyBool.
From Verif Require Import RsyncRun DemoRun Refuted PropsLive PropsRsync PropsHoldsRsync PropsRecord PropsBlocked PropsStateLost PropsHistory.
From Verif Require Import FsWf HistoryProofs.

(** ** Specification *)
(** the notification is of another version than [r] *)
Definition not_of (r : revision) (n : notification) : Prop := revision_of n <> r.

(** ** Proofs *)
Section run.
  Context (c : config) (base name : string) (e : env) (f : fs) (Hs : sane c base name e f) (Hpl : plain_record c f).
  Context (r : revision) (Hun : unseen c f r) (Hnot : forall n, offers c e f n -> not_of r n).

  Lemma unseen_retired rs olds o : recorded_rsync c f rs -> retired e rs olds -> o ∈ olds -> or_rev o <> r.
  Proof using Hun.
    intros Hrec Hret Hin. destruct (Hun rs Hrec) as [H1 H2]. unfold retired in Hret.
    destruct (rs_current rs) as [cur|]; [|subst olds; by apply H2].
    destruct Hret as (now & _ & ->). apply elem_of_app in Hin as [Hin|Hin]; [by apply H2|].
    apply elem_of_list_singleton in Hin as ->. cbn. congruence.
  Qed.
  Lemma unseen_instant g : g ∈ instants c e f -> plain_record c g /\ unseen c g r.
  Proof using Hs Hpl Hun Hnot.
    intros Hg. destruct (record_instant c base name e f Hs Hpl g Hg) as [E|(n & rs' & b & Ho & Hn & E & Hp & _)].
    - split; [intros t; rewrite E; apply Hpl|]. intros rs Hrec. apply Hun. unfold recorded_rsync in *. by rewrite <- E.
    - split; [intros t; rewrite E; done|]. intros rs [[E1 _]|(b1 & m1 & E1 & E2)]; [congruence|].
      rewrite E in E1. injection E1 as <- <-.
      destruct (str_pre_split _ _ Hp) as [->|(r' & Hr' & Hne)].
      + rewrite rsync_state_roundtrip in E2. injection E2 as <-. destruct Hn as (rs0 & olds & cb & Hrec & Hret & Hct & ->).
        cbn. split; [intros [= E3]; by apply (Hnot n Ho)|]. intros o [_ Hin]%elem_of_list_filter. by eapply unseen_retired.
      + by rewrite (rsync_state_prefix _ _ _ Hr' Hne) in E2.
  Qed.
  Lemma unrecorded_instant g p : g ∈ instants c e f -> under (rev_dir c r) p -> g !! p = f !! p.
  Proof using Hs Hpl Hun Hnot.
    intros Hg Hp. assert (Hpo : rsync_own c p) by (left; eapply under_trans; [|exact Hp]; apply under_app).
    destruct (rsync_instant c base name e f Hs g Hg)
      as [H|(st & n0 & n & sg & f1 & v & st' & f2 & cb & st2 & f3 & g' & Ha & Hr & Hm & Hgg)]; [auto|].
    rewrite (Hgg _ Hpo). rewrite <- (own_before c base name e f Hs _ _ _ _ _ _ _ _ _ _ _ _ Hpo Ha).
    rewrite <- rev_dir_eq in Hp.
    assert (Hne : forall snap, st_snap st2 = Some snap -> rev_of snap <> r).
    { intros snap Hsn. destruct (step_rev c base name e f _ _ _ _ _ _ _ _ _ _ _ _ Ha Hsn) as (Ho & Hrv & _).
      rewrite Hrv. by apply Hnot. }
    assert (Hother : forall r', r' <> r -> ~ under (rev_path c r') p).
    { intros r' Hr' Hu. by apply (apart_disjoint _ _ p (revs_apart c _ _ Hr')). }
    assert (Hcu : ~ under (rsync_current c) p).
    { intros Hu. by apply (apart_disjoint _ _ p (rev_current_apart c r)). }
    assert (Htm : p <> link_tmp c).
    { intros ->. apply (apart_disjoint _ _ (link_tmp c) (rev_tmp_apart c r)); [done|apply under_refl]. }
    assert (Hin : forall snap h, st_snap st2 = Some snap -> inside (under (rev_path c (rev_of snap))) f3 h -> h !! p = f3 !! p).
    { intros snap h Hsn Hh. pose proof (revs_apart c _ _ (Hne _ Hsn)) as Ha'.
      assert (Hap : apart p (rev_path c (rev_of snap))) by (eapply apart_sub_l; [apply apart_sym, Ha'|exact Hp]).
      destruct (apart_out _ _ Hap) as [K1 K2]. apply (inside_same _ _ _ _ Hh); [done|]. intros (q & Hq & Hb). by apply (K2 q). }
    assert (Hlk : forall rv h h', link_turned c rv h h' -> h' !! p = h !! p).
    { intros rv h h' [_ ->]. rewrite lookup_insert_ne, lookup_delete_ne; [done|congruence|].
      intros <-. apply Hcu, under_refl. }
    assert (Hma : forall rs h h', recorded_rsync c f rs -> moved_aside c rs h h' -> h' !! p = h !! p).
    { intros rs h h' Hrec H. unfold moved_aside in H. destruct (Hun rs Hrec) as [H1 _].
      destruct (rs_current rs) as [cur|]; [|by subst]. destruct (fs_exists h (rsync_current c)); [|by subst].
      eapply op_rename_other; [exact H|done|]. apply Hother. congruence. }
    assert (Htu : forall snap rs h h', st_snap st2 = Some snap -> rsync_starts c f3 rs -> turning c (rev_of snap) rs h h' -> h' !! p = h !! p).
    { intros snap rs h h' Hsn Hst H.
      pose proof (run_recorded c base name e f Hs _ _ _ _ _ _ _ _ _ _ _ _ Ha Hpl Hst) as Hrec.
      unfold turning in H. destruct (use_symlinks c).
      - destruct H as [H|H]; [by apply H|by eapply Hlk].
      - destruct H as [->|[H|(fa & H1 & H2)]]; [done|by eapply Hma|]. rewrite <- (Hma _ _ _ Hrec H1).
        eapply op_rename_other; [exact H2|by apply Hother, Hne|done]. }
    assert (Hlo : forall rs rv rs1 cy h h', rsync_starts c f3 rs -> next_rsync e rs rv rs1 ->
      lost (rev_paths c rs1 cy) h h' -> h' !! p = h !! p).
    { intros rs rv rs1 cy h h' Hst Hn Hl. destruct (Hl p) as [|(_ & o & [Ho1 Ho2] & Hu)]; [done|]. exfalso.
      destruct (next_retired _ _ _ _ Hn) as [_ Hret].
      pose proof (run_recorded c base name e f Hs _ _ _ _ _ _ _ _ _ _ _ _ Ha Hpl Hst) as Hrec.
      apply (Hother (or_rev o)); [by eapply unseen_retired|done]. }
    destruct Hm as [->|snap H1 H2 _|snap rs g1 b els g2 H1 H2|snap rs g1 b els g2 g3 rs1 cy H1 H2 H3 H4 H5|snap rs g1 b els g2 g3 rs1 cy g4 H1 H2 H3 H4 H5 H6].
    - done.
    - by eapply Hin.
    - rewrite (Htu _ _ _ _ (rp_snap _ _ _ _ _ _ _ _ _ _ H1) (rp_start _ _ _ _ _ _ _ _ _ _ H1) H2). by eapply Hin; apply H1.
    - rewrite (Hlo _ _ _ _ _ _ (rp_start _ _ _ _ _ _ _ _ _ _ H1) H3 H5),
        (Htu _ _ _ _ (rp_snap _ _ _ _ _ _ _ _ _ _ H1) (rp_start _ _ _ _ _ _ _ _ _ _ H1) (turned_turning c _ _ _ _ H2)). by eapply Hin; apply H1.
    - assert (Hpu : under (c_rsync_dir c) p) by (eapply under_trans; [apply rev_under|exact Hp]).
      rewrite (saving_dir c base name e f Hs _ _ _ _ H6 Hpu).
      rewrite (Hlo _ _ _ _ _ _ (rp_start _ _ _ _ _ _ _ _ _ _ H1) H3 H5),
        (Htu _ _ _ _ (rp_snap _ _ _ _ _ _ _ _ _ _ H1) (rp_start _ _ _ _ _ _ _ _ _ _ H1) (turned_turning c _ _ _ _ H2)). by eapply Hin; apply H1.
  Qed.
End run.

Lemma unrecorded_runs c base name r f g p :
  cfg_ok c base name -> own_tree c base name f -> plain_record c f -> unseen c f r ->
  runs_from (not_of r) c base name f g -> under (rev_dir c r) p -> g !! p = f !! p.
Proof.
  intros Hc Hm Hpl Hun Hr Hp.
  enough (own_tree c base name g /\ plain_record c g /\ unseen c g r /\ g !! p = f !! p) by tauto.
  induction Hr as [|g c2 e h Hr (IH1 & IH2 & IH3 & IH4) Hsp [Hw1 Hw2] HP Hh|g h Hr (IH1 & IH2 & IH3 & IH4) Hwf Ho]; [done| |].
  - assert (Hs : sane c2 base name e g) by (split; [by eapply places_cfg|by eapply own_to|done|done]).
    assert (Ey := places_yp _ _ Hsp).
    assert (Hrec : forall k rs, recorded_rsync c2 k rs <-> recorded_rsync c k rs) by (intros; unfold recorded_rsync; by rewrite Ey).
    assert (Hpl2 : plain_record c2 g) by (unfold plain_record; by rewrite Ey).
    assert (Hun2 : unseen c2 g r) by (intros rs H; by apply IH3, Hrec).
    destruct (unseen_instant c2 base name e g Hs Hpl2 r Hun2 HP h Hh) as [K1 K2].
    split; [apply (own_back c c2 base name Hsp), (phase_own c2 base name e g Hs); by apply instant_phase|].
    split; [unfold plain_record in *; by rewrite Ey in K1|].
    split; [intros rs H; by apply K2, Hrec|]. rewrite <- IH4.
    apply (unrecorded_instant c2 base name e g Hs Hpl2 r Hun2 HP h p Hh). unfold rev_dir in *.
    by destruct Hsp as (_ & _ & _ & ->).
  - assert (Ey : h !! rsync_state_path c = g !! rsync_state_path c) by (apply Ho; unfold owned; auto 6).
    split; [eapply own_else; [exact IH1|done|]; apply Ho, owned_sp|]. split; [intros t; rewrite Ey; apply IH2|].
    split; [intros rs H; apply IH3; unfold recorded_rsync in *; by rewrite <- Ey|].
    rewrite <- IH4. apply Ho. right. right. left. eapply under_trans; [apply under_app|exact Hp].
Qed.
(** a tree without its rsync record *)
Lemma wf_unfile f p : p <> [] -> wf f -> f !! p <> Some Dir -> wf (delete p f).
Proof.
  intros Hp Hwf Hnd. apply wf_delete; [done|]. intros q nd Hq Eq. destruct (decide (q = [])) as [->|Hne]; [done|].
  apply Hwf, parent_is_dir_spec in Hq as [_ Hd]. rewrite Eq in Hd. rewrite fs_get_nonroot in Hd by done. done.
Qed.
Lemma own_unrecord c base name f : cfg_ok c base name -> own_tree c base name f -> f !! rsync_state_path c <> Some Dir ->
  own_tree c base name (delete (rsync_state_path c) f).
Proof.
  intros Hc Hown Hnd. eapply own_else; [exact Hown| |].
  - apply wf_unfile; [by apply rsync_state_path_ne|apply Hown|done].
  - apply lookup_delete_ne, not_eq_sym. apply apart_neq, apart_sp_yp.
Qed.
Lemma blocked_sane c base name e f g : sane c base name e f -> c_rsync_disable c = false -> blocked c f -> g ∈ instants c e f ->
  blocked c g /\ forall p, p = notif_path c name \/ p = rrdp_state_path c \/ p = rsync_state_path c \/ under (current_path c) p -> g !! p = f !! p.
Proof.
  intros Hs Hen Hb Hg. pose proof (blocked_plain _ _ Hb) as Hpl. pose proof (sn_cfg _ _ _ _ _ Hs) as Hc.
  destruct (blocked_own c base name e f Hs Hpl Hb g Hg) as [Ho Hst].
  pose proof (blocked_front c base name e f Hs Hpl Hb g Hen Hg) as Hf. split.
  - destruct Hb as (Hcur & rs & Hrec & Hw). split; [rewrite Ho; [done|right; apply under_refl]|].
    exists rs. split; [eapply recorded_same; [|exact Hrec]; apply Ho; by left|].
    destruct (rs_current rs) as [cur|]; destruct Hw as (q & Hq & Hx); exists q; (split; [done|]); [by apply Hst|].
    rewrite Ho; [done|right; apply under_app].
  - intros p [->|[->|[->|Hp]]]; [by eapply front_N|by eapply front_sp|apply Ho; auto..].
Qed.
Lemma blocked_runs c base name f g : cfg_ok c base name -> own_tree c base name f -> blocked c f -> rsync_runs c base name f g ->
  forall p, p = notif_path c name \/ p = rrdp_state_path c \/ p = rsync_state_path c \/ under (current_path c) p -> g !! p = f !! p.
Proof.
  intros Hc Hown Hb Hrr.
  enough (own_tree c base name g /\ blocked c g /\
    forall p, p = notif_path c name \/ p = rrdp_state_path c \/ p = rsync_state_path c \/ under (current_path c) p -> g !! p = f !! p) by tauto.
  induction Hrr as [|g c' e h H (IHm & IHb & IH) Hpl Hen [Hw1 Hw2] Hg|g h H (IHm & IHb & IH) Hwf Hsame]; [done| |].
  - assert (Hs : sane c' base name e g) by (split; [by eapply places_cfg|by eapply own_to|done|done]).
    split; [apply (own_back c c' base name Hpl), (phase_own c' base name e g Hs); by apply instant_phase|].
    apply (blocked_places _ _ _ Hpl) in IHb. destruct (blocked_sane c' base name e g h Hs Hen IHb Hg) as [Hb' Hp'].
    split; [by apply (blocked_places _ _ _ Hpl)|]. intros p Hp. rewrite <- IH by done. apply Hp'.
    rewrite (places_N c c' name Hpl), (places_sp c c' Hpl), (places_yp _ _ Hpl). unfold current_path.
    destruct Hpl as (_ & _ & _ & ->). done.
  - assert (Ho : forall p, p = notif_path c name \/ p = rrdp_state_path c \/ p = rsync_state_path c \/ under (c_rsync_dir c) p -> h !! p = g !! p).
    { intros p Hp. apply Hsame. unfold owned. destruct Hp as [->|[->|[->|Hp]]]; [right; left; apply under_app|auto..]. }
    assert (Hcu : forall p, under (current_path c) p -> under (c_rsync_dir c) p).
    { intros p. apply under_trans. rewrite <- current_eq. apply current_under. }
    split; [eapply own_else; [exact IHm|done|]; apply Hsame, owned_sp|]. split.
    + destruct IHb as (Hcur & rs & Hrec & Hx). split; [rewrite Ho; [done|]; do 3 right; apply Hcu, under_refl|].
      exists rs. split; [eapply recorded_same; [|exact Hrec]; apply Ho; auto|].
      destruct (rs_current rs) as [cur|]; destruct Hx as (q & Hq & Hx); exists q; (split; [done|]);
        (rewrite Ho; [done|]; do 3 right); [eapply under_trans; [|apply under_app]; apply under_app|apply Hcu, under_app].
    + intros p Hp. rewrite <- IH by done. apply Ho. destruct Hp as [?|[?|[?|Hp]]]; auto 6.
Qed.

(** The directory of a revision that is not recorded, neither as the current one
    nor as an old one, is never changed and never removed, with links or with
    moves, as long as the source does not have that version (again). *)
Theorem C82_unrecorded c base name r f g p :
  cfg_ok c base name -> mirror any_notif c base name f -> plain_record c f -> unseen c f r ->
  runs_from (not_of r) c base name f g -> under (rev_dir c r) p -> g !! p = f !! p.
Proof. intros Hc Hm. apply unrecorded_runs; [done|]. by eapply mirror_own. Qed.

(** So when the rsync record is removed, this holds for all trees that are there. *)
Theorem C82_record_gone c base name r f g p :
  cfg_ok c base name -> mirror any_notif c base name f -> f !! rsync_state_path c <> Some Dir ->
  runs_from (not_of r) c base name (delete (rsync_state_path c) f) g -> under (rev_dir c r) p -> g !! p = f !! p.
Proof.
  intros Hc Hm Hnd Hr Hp.
  rewrite (unrecorded_runs c base name r _ g p Hc (own_unrecord c base name f Hc ltac:(by eapply mirror_own) Hnd)); [|..|exact Hr|exact Hp].
  - apply lookup_delete_ne. intros <-. apply (apart_disjoint _ _ (rsync_state_path c) (ck_yp_y _ _ _ Hc) (under_refl _)).
    eapply under_trans; [|exact Hp]. apply under_app.
  - intros t. by rewrite lookup_delete.
  - intros rs [[_ ->]|(b & m & E & _)]; [|by rewrite lookup_delete in E]. split; [done|]. intros o Ho. by apply elem_of_nil in Ho.
Qed.

(** With directory moves it is worse: if there is anything in 'current', no run
    with rsync publishes anything any more, for RRDP or for rsync. *)
Theorem C82_moves_stuck c base name f g q :
  cfg_ok c base name -> mirror any_notif c base name f -> f !! rsync_state_path c <> Some Dir ->
  f !! current_path c = Some Dir -> q <> [] -> is_Some (f !! (current_path c ++ q)) ->
  rsync_runs c base name (delete (rsync_state_path c) f) g ->
  forall p, p = notif_path c name \/ p = rrdp_state_path c \/ under (current_path c) p -> g !! p = f !! p.
Proof.
  intros Hc Hm Hnd Ec Hq Hx Hr p Hp.
  assert (Hk : forall k, under (current_path c) k -> delete (rsync_state_path c) f !! k = f !! k).
  { intros k Hu. apply lookup_delete_ne. intros <-. apply (apart_disjoint _ _ (rsync_state_path c) (ck_yp_y _ _ _ Hc) (under_refl _)).
    eapply under_trans; [|exact Hu]. rewrite <- current_eq. apply current_under. }
  assert (Hb : blocked c (delete (rsync_state_path c) f)).
  { split; [rewrite Hk; [done|apply under_refl]|]. exists (mkRs None []). split; [left; by rewrite lookup_delete|].
    exists q. split; [done|]. rewrite Hk; [done|apply under_app]. }
  rewrite (blocked_runs c base name _ g Hc (own_unrecord c base name f Hc ltac:(by eapply mirror_own) Hnd) Hb Hr) by tauto.
  destruct Hp as [->|[->|Hp]]; [| |by apply Hk].
  - apply lookup_delete_ne. intros E. apply (apart_disjoint _ _ (rsync_state_path c) (ck_yp_r _ _ _ Hc) (under_refl _)).
    rewrite E. apply under_app.
  - apply lookup_delete_ne, not_eq_sym. apply apart_neq, apart_sp_yp.
Qed.

(** ** Examples *)
(** serial 5 is served, and serial 3 kept; then the record is removed *)
Definition no_record : fs := delete (rsync_state_path demo_config) (tree3 2).
Definition no_record2 : fs := after (run demo_config (later 2 100000) no_record).
Definition with_record2 : fs := after (run demo_config (later 2 100000) (tree3 2)).
(** the same for directory moves *)
Definition moves_none : fs := delete (rsync_state_path moves_config) moved1.
Definition is_dir_b (nd : option node) : bool := match nd with Some Dir => true | _ => false end.
Definition link_b (nd : option node) (t : string) : bool := bool_decide (nd = Some (Link t)).
Definition unrecorded_b (f g k : fs) (m : fs) (r : res unit * world) (r0 : res unit * world) : bool :=
  is_file (f !! rsync_state_path demo_config) && is_dir_b (f !! rev_dir demo_config rev3) &&
  link_b (f !! current_path demo_config) (dir_name rev5) &&
  is_dir_b (g !! rev_dir demo_config rev3) && negb (link_b (g !! current_path demo_config) (dir_name rev5)) &&
  none_b k (rev_dir demo_config rev3) && negb (link_b (k !! current_path demo_config) (dir_name rev5)) &&
  is_file (m !! rsync_state_path moves_config) && is_dir_b (m !! current_path moves_config) &&
  is_dir_b (m !! (current_path moves_config ++ ["ca"])) && negb (ok_b r) && ok_b r0.
Lemma unrecorded_checked : unrecorded_b (tree3 2) no_record2 with_record2 moved1
  (run moves_config live_env moves_none) (run moves_config live_env moved1) = true.
Proof. vme. Qed.
Lemma unrecorded_facts f g k m r r0 : unrecorded_b f g k m r r0 = true ->
  (exists b t, f !! rsync_state_path demo_config = Some (File b t)) /\ f !! rev_dir demo_config rev3 = Some Dir /\
  f !! current_path demo_config = Some (Link (dir_name rev5)) /\
  (exists b t, m !! rsync_state_path moves_config = Some (File b t)) /\ m !! current_path moves_config = Some Dir /\
  m !! (current_path moves_config ++ ["ca"]) = Some Dir /\
  (exists w, r0 = (Ok tt, w)) /\ (forall w, r <> (Ok tt, w)) /\
  g !! rev_dir demo_config rev3 = Some Dir /\ g !! current_path demo_config <> Some (Link (dir_name rev5)) /\
  k !! rev_dir demo_config rev3 = None /\ k !! current_path demo_config <> Some (Link (dir_name rev5)).
Proof.
  unfold unrecorded_b. intros [[[[[[[[[[[H1 H2]%andb_true_iff H3]%andb_true_iff H4]%andb_true_iff H5]%andb_true_iff H6]%andb_true_iff H7]%andb_true_iff
    H8]%andb_true_iff H9]%andb_true_iff H10]%andb_true_iff H11]%andb_true_iff H12]%andb_true_iff.
  assert (Hf : forall nd, is_file nd = true -> exists b t, nd = Some (File b t)).
  { intros [[b t| |]|] Hx; try discriminate Hx. by exists b, t. }
  assert (Hd : forall nd, is_dir_b nd = true -> nd = Some Dir) by (intros [[| |]|] Hx; done).
  unfold link_b in *. apply bool_decide_eq_true in H3. apply negb_true_iff, bool_decide_eq_false in H5, H7.
  split; [by apply Hf|]. split; [by apply Hd|]. split; [done|]. split; [by apply Hf|]. split; [by apply Hd|]. split; [by apply Hd|].
  split; [destruct r0 as [[[]|x|] w]; [by exists w|discriminate H12..]|].
  split; [intros w ->; discriminate H11|]. split; [by apply Hd|]. split; [done|]. split; [|done].
  unfold none_b in H6. by destruct (k !! rev_dir demo_config rev3).
Qed.
Lemma later_not_of i t r f n : i <= 2 -> revision_of (src3 i) <> r -> offers demo_config (later i t) f n -> not_of r n.
Proof. intros Hi Hr ->%docs3_offers; done. Qed.
Lemma no_record_runs : runs_from (not_of rev3) demo_config base name no_record no_record2.
Proof.
  eapply (rf_run _ _ _ _ _ no_record demo_config (later 2 100000)); [apply rf_start|apply same_places_refl|apply later_good; lia| |apply after_instant].
  intros n. apply later_not_of; [lia|]. intros E. vm_compute in E. discriminate E.
Qed.
Lemma moves_none_runs : rsync_runs moves_config base name moves_none (after (run moves_config live_env moves_none)).
Proof.
  eapply (rr_run _ _ _ _ moves_none moves_config live_env); [apply rr_start|apply same_places_refl|reflexivity|apply moves_live_good|apply after_instant].
Qed.

Opaque run.
(** With links: the record is removed, and a day later the source has a new
    version.  It is served, and the tree of serial 3 is still there; with the record
    it is gone.  With moves: the run that would have published serial 5 fails. *)
Example C82_applies :
  cfg_ok demo_config base name /\ mirror any_notif demo_config base name (tree3 2) /\
  runs_from (not_of rev3) demo_config base name no_record no_record2 /\
  cfg_ok moves_config base name /\ mirror any_notif moves_config base name moved1 /\
  rsync_runs moves_config base name moves_none (after (run moves_config live_env moves_none)) /\
  (exists b t, tree3 2 !! rsync_state_path demo_config = Some (File b t)) /\ tree3 2 !! rev_dir demo_config rev3 = Some Dir /\
  tree3 2 !! current_path demo_config = Some (Link (dir_name rev5)) /\
  (exists b t, moved1 !! rsync_state_path moves_config = Some (File b t)) /\ moved1 !! current_path moves_config = Some Dir /\
  moved1 !! (current_path moves_config ++ ["ca"]) = Some Dir /\
  (exists w, run moves_config live_env moved1 = (Ok tt, w)) /\
  (forall w, run moves_config live_env moves_none <> (Ok tt, w)) /\
  no_record2 !! rev_dir demo_config rev3 = Some Dir /\ no_record2 !! current_path demo_config <> Some (Link (dir_name rev5)) /\
  with_record2 !! rev_dir demo_config rev3 = None /\ with_record2 !! current_path demo_config <> Some (Link (dir_name rev5)).
Proof.
  split; [apply demo_cfg_ok|]. split; [exact (mirror3 2 (le_S _ _ (le_n 2)))|]. split; [exact no_record_runs|].
  split; [exact moves_cfg_ok|]. split; [exact moved1_mirror|]. split; [exact moves_none_runs|].
  exact (unrecorded_facts _ _ _ _ _ _ unrecorded_checked).
Qed.
(** A run is killed after it has turned the link to serial 5, before it has
    saved the record; the next one finds serial 7 at the source. *)
Definition turned_on : fs := after (run demo_config (later 2 100000) turned5).
Lemma turned5_mirror : mirror any_notif demo_config base name turned5.
Proof.
  exact (mi_run _ _ _ _ (tree3 1) demo_config (env3 1) turned5 (mirror3 1 (le_S _ _ (le_S _ _ (le_n 1)))) (same_places_refl _)
    (env3_good 1 (tree3 1) (le_S _ _ (le_n 1))) (fun _ _ => I) (killed_instant _ _ _ _)).
Qed.
Lemma rev3_not_5 : rev3 <> rev5.
Proof. intros E. vm_compute in E. discriminate E. Qed.
Lemma same_record c f g r r' : g !! rsync_state_path c = f !! rsync_state_path c -> plain_record c f -> r <> r' ->
  (forall rs, recorded_rsync c f rs -> rs = mkRs (Some r) []) -> plain_record c g /\ unseen c g r'.
Proof.
  intros E Hpl Hne H. split; [intros t; rewrite E; apply Hpl|]. intros rs Hrec.
  assert (Hr : recorded_rsync c f rs) by (unfold recorded_rsync in *; by rewrite <- E).
  rewrite (H _ Hr). split; [cbn; congruence|]. intros o Ho. by apply elem_of_nil in Ho.
Qed.
Lemma turned5_record : plain_record demo_config turned5 /\ unseen demo_config turned5 rev5.
Proof.
  destruct (reading_facts _ _ reading3) as (H1 & H2 & _). destruct (turned5_facts _ _ _ turned5_ok') as (_ & H4 & _).
  exact (same_record demo_config (tree3 1) turned5 rev3 rev5 H4 H1 rev3_not_5 H2).
Qed.
Lemma turned5_runs : runs_from (not_of rev5) demo_config base name turned5 turned_on.
Proof.
  eapply (rf_run _ _ _ _ _ turned5 demo_config (later 2 100000)); [apply rf_start|apply same_places_refl|apply later_good; lia| |apply after_instant].
  intros n. apply later_not_of; [lia|]. intros E. vm_compute in E. discriminate E.
Qed.
Lemma link_not nd t : negb (link_b nd t) = true -> nd <> Some (Link t).
Proof. unfold link_b. by intros H%negb_true_iff%bool_decide_eq_false. Qed.
Lemma turned_on_away : negb (link_b (turned_on !! current_path demo_config) (dir_name rev5)) = true.
Proof. vme. Qed.
Example C82_killed_applies :
  mirror any_notif demo_config base name turned5 /\ (plain_record demo_config turned5 /\ unseen demo_config turned5 rev5) /\
  runs_from (not_of rev5) demo_config base name turned5 turned_on /\
  turned_on !! current_path demo_config <> Some (Link (dir_name rev5)) /\
  exists b m, turned_on !! (rev_dir demo_config rev5 ++ ["ca"; "5.roa"]) = Some (File b m).
Proof.
  destruct (turned5_facts _ _ _ turned5_ok') as (_ & _ & _ & b & m & E). destruct turned5_record as [H1 H2].
  split; [exact turned5_mirror|]. split; [exact (conj H1 H2)|]. split; [exact turned5_runs|].
  split; [exact (link_not _ _ turned_on_away)|]. exists b, m.
  exact (eq_trans (C82_unrecorded demo_config base name rev5 turned5 turned_on _ demo_cfg_ok turned5_mirror H1 H2 turned5_runs (under_app _ _)) E).
Qed.
Transparent run.
Print Assumptions C82_unrecorded.
Print Assumptions C82_record_gone.
Print Assumptions C82_moves_stuck.
