(** * The rsync record, and what an rsync client can still fetch: C63, C64 *)
From Coq Require Import ZifyN ZifyNat ZifyBool.
From Verif Require Import RsyncRun DemoRun Refuted PropsClean PropsRsync PropsOrder PropsClient TurnOrder.
From Verif Require Import FsWf HistoryProofs PropsHistory.

(** ** C63: what a kill leaves of the rsync record *)
(** the record is there, but cannot be used *)
Definition spoilt (c : config) (g : fs) : Prop :=
  exists b m, g !! rsync_state_path c = Some (File b m) /\ rsync_state_parse b = None.

(** the record of a run that publishes [n] *)
Definition next_record (c : config) (e : env) (f : fs) (n : notification) (rs' : rsync_state) : Prop :=
  exists rs olds cb, recorded_rsync c f rs /\ retired e rs olds /\ clean_time c e cb /\
    rs' = mkRs (Some (revision_of n)) (filter (fun o => (cb < or_since o)%Z) olds).

Lemma next_retired e rs r rs1 : next_rsync e rs r rs1 -> rs_current rs1 = Some r /\ retired e rs (rs_old rs1).
Proof.
  unfold next_rsync, retired. destruct (rs_current rs).
  - intros (now & H & ->). split; [done|]. by exists now.
  - by intros ->.
Qed.

Section run.
  Context (c : config) (base name : string) (e : env) (f : fs) (Hs : sane c base name e f) (Hpl : plain_record c f).
  Let Hc : cfg_ok c base name := sn_cfg _ _ _ _ _ Hs.

  Lemma inside_rev_yp r g g' : inside (under (rev_path c r)) g g' -> g' !! rsync_state_path c = g !! rsync_state_path c.
  Proof.
    intros H. pose proof (ck_yp_y _ _ _ Hc) as Ha.
    assert (Hap : apart (rsync_state_path c) (rev_path c r)) by (eapply apart_sub; [exact Ha|apply rev_under]).
    destruct (apart_out _ _ Hap) as [K1 K2]. apply (inside_same _ _ _ _ H); [done|]. intros (q & Hq & Hb). by apply (K2 q).
  Qed.
  Lemma dir_not_yp p : under (c_rsync_dir c) p -> p <> rsync_state_path c /\ ~ under p (rsync_state_path c).
  Proof.
    intros Hp. pose proof (ck_yp_y _ _ _ Hc) as Ha. split.
    - intros ->. by apply (apart_disjoint _ _ (rsync_state_path c) Ha (under_refl _)).
    - intros Hu. apply (apart_disjoint _ _ (rsync_state_path c) Ha (under_refl _)). by eapply under_trans.
  Qed.
  Lemma turning_yp r rs g g' : turning c r rs g g' -> g' !! rsync_state_path c = g !! rsync_state_path c.
  Proof.
    assert (Hcu := dir_not_yp _ (current_under c)).
    assert (Hr : forall r, ~ under (rev_path c r) (rsync_state_path c)) by (intros r'; apply dir_not_yp, rev_under).
    assert (Hlt : link_tmp c <> rsync_state_path c) by (apply dir_not_yp; rewrite link_tmp_eq; apply under_app).
    assert (Hma : forall h h', moved_aside c rs h h' -> h' !! rsync_state_path c = h !! rsync_state_path c).
    { intros h h' H. unfold moved_aside in H. destruct (rs_current rs) as [cur|]; [|by subst].
      destruct (fs_exists h (rsync_current c)); [|by subst]. eapply op_rename_other; [exact H|apply Hcu|apply Hr]. }
    unfold turning. destruct (use_symlinks c).
    - intros [H|[_ ->]]; [apply H, not_eq_sym, Hlt|]. rewrite lookup_insert_ne by apply Hcu. by rewrite lookup_delete_ne.
    - intros [->|[H|(fa & H1 & H2)]]; [done|by apply Hma|]. rewrite <- (Hma _ _ H1).
      eapply op_rename_other; [exact H2|apply Hr|apply Hcu].
  Qed.
  Lemma lost_yp rs cb g g' : lost (rev_paths c rs cb) g g' -> g' !! rsync_state_path c = g !! rsync_state_path c.
  Proof.
    intros H. destruct (H (rsync_state_path c)) as [->|(_ & o & _ & Hu)]; [done|]. exfalso.
    by apply (dir_not_yp _ (rev_under c (or_rev o))).
  Qed.
  Lemma turned_turning r rs g g' : turned c r rs g g' -> turning c r rs g g'.
  Proof using. unfold turned, turning. destruct (use_symlinks c); auto. Qed.

  (** a new revision is that of an offered notification *)
  Lemma step_rev st n0 n sg f1 v st' f2 cb st2 f3 snap :
    at_rsync c base name e f st n0 n sg f1 v st' f2 cb st2 f3 -> st_snap st2 = Some snap ->
    offers c e f n0 /\ rev_of snap = revision_of n0 /\ n_session n = n_session n0 /\ n_serial n = n_serial n0 /\
    starts_from c base name f st /\ exists b, compare_version st n = VUpdate b.
  Proof.
    intros Ha P1. destruct (new_deltas c base name e f _ _ _ _ _ _ _ _ _ _ _ Ha) as [_ Hsn].
    rewrite P1 in Hsn. injection Hsn as ->.
    pose proof (ar_clean _ _ _ _ _ _ _ _ _ _ _ _ _ _ _ _ Ha) as Hcl.
    pose proof (ac_move _ _ _ _ _ _ _ _ _ _ _ _ _ Hcl) as Hmv.
    destruct (am_staged _ _ _ _ _ _ _ _ _ _ Hmv) as [[So1 So2] Hcv (S1 & S2 & S3 & S4 & _) _ _].
    destruct (sav_same _ _ _ _ _ So2) as (V1 & V2 & V3 & V4).
    split; [done|]. split; [unfold rev_of, revision_of; congruence|]. split; [done|]. split; [done|].
    split; [apply Hmv|by eexists].
  Qed.

  (** the record at any instant *)
  Lemma record_instant g : g ∈ instants c e f ->
    g !! rsync_state_path c = f !! rsync_state_path c \/
    exists n rs' b, offers c e f n /\ next_record c e f n rs' /\ g !! rsync_state_path c = Some (File b None) /\
      str_pre b (rsync_state_text rs') /\
      (c_force_moves c = false -> g !! current_path c = Some (Link (dir_name (revision_of n)))).
  Proof.
    intros Hg. assert (Hy : rsync_own c (rsync_state_path c)) by by right.
    destruct (rsync_instant c base name e f Hs g Hg)
      as [H|(st & n0 & n & sg & f1 & v & st' & f2 & cb & st2 & f3 & g' & Ha & Hr & Hm & Hgg)]; [left; auto|].
    rewrite (Hgg _ Hy). rewrite <- (own_before c base name e f Hs _ _ _ _ _ _ _ _ _ _ _ _ Hy Ha).
    destruct Hm as [->|snap H1 H2 _|snap rs g1 b els g2 H1 H2|snap rs g1 b els g2 g3 rs1 cy H1 H2 H3 H4 H5|snap rs g1 b els g2 g3 rs1 cy g4 H1 H2 H3 H4 H5 H6].
    - by left.
    - left. by eapply inside_rev_yp.
    - left. rewrite (turning_yp _ _ _ _ H2). eapply inside_rev_yp, H1.
    - left. rewrite (lost_yp _ _ _ _ H5), (turning_yp _ _ _ _ (turned_turning _ _ _ _ H2)). eapply inside_rev_yp, H1.
    - destruct (proj2 H6) as [E|(b' & E & Hp)].
      + left. rewrite E, (lost_yp _ _ _ _ H5), (turning_yp _ _ _ _ (turned_turning _ _ _ _ H2)). eapply inside_rev_yp, H1.
      + right. destruct (step_rev _ _ _ _ _ _ _ _ _ _ _ _ Ha (rp_snap _ _ _ _ _ _ _ _ _ _ H1)) as (Ho & Hrv & _).
        exists n0, (kept_revs rs1 cy), b'. split; [done|]. split; [|split; [done|split; [done|]]].
        * destruct (next_retired _ _ _ _ H3) as [Hcur Hret].
          exists rs, (rs_old rs1), cy. split; [|split; [done|split; [done|]]].
          -- eapply (run_recorded c base name e f Hs); [exact Ha|exact Hpl|apply H1].
          -- unfold kept_revs. by rewrite Hcur, Hrv.
        * intros Hsym%symlinks. rewrite Hgg by (left; apply under_app).
          rewrite (saving_dir c base name e f Hs _ _ _ _ H6) by (rewrite <- current_eq; apply current_under).
          rewrite <- current_eq. destruct (H5 (rsync_current c)) as [->|[_ Hx]];
            [|exfalso; eapply rev_paths_not_current; [done|apply under_refl]].
          unfold turned in H2. rewrite Hsym in H2. destruct H2 as [_ ->]. by rewrite lookup_insert, Hrv.
  Qed.

  (** with a record that cannot be used, the run does not get to the rsync step *)
  Lemma spoilt_front g : spoilt c f -> c_rsync_disable c = false -> g ∈ instants c e f ->
    front_phase c base name e f g /\ forall p, rsync_own c p -> g !! p = f !! p.
  Proof.
    intros (b0 & m0 & Hb & Hbad) Hen%enabled Hg.
    assert (Hno : forall st n0 n sg f1 v st' f2 cb st2 f3 rs,
      at_rsync c base name e f st n0 n sg f1 v st' f2 cb st2 f3 -> ~ rsync_starts c f3 rs).
    { intros st n0 n sg f1 v st' f2 cb st2 f3 rs Ha Hst.
      destruct (run_recorded c base name e f Hs _ _ _ _ _ _ _ _ _ _ _ _ Ha Hpl Hst) as [[E _]|(b & m & E & E')]; congruence. }
    split.
    - apply (instant_phase c base name e f Hs) in Hg.
      assert (Hnn : forall st n0 n sg f1 v st' f2 cb st2 f3 f4, ~ at_notify c base name e f st n0 n sg f1 v st' f2 cb st2 f3 f4).
      { intros st n0 n sg f1 v st' f2 cb st2 f3 f4 Hn.
        destruct (an_step _ _ _ _ _ _ _ _ _ _ _ _ _ _ _ _ _ Hn Hen) as (snap & rs & g1 & b & els & g2 & g3 & rs1 & cy & g4 & Hd).
        eapply Hno; [apply Hn|apply (rp_start _ _ _ _ _ _ _ _ _ _ (rd_pub _ _ _ _ _ _ _ _ _ _ _ _ _ _ _ Hd))]. }
      destruct Hg as [H|st n0 n sg f1 v st' f2 cb st2 f3 f4 n' H1 H2 H3|st n0 n sg f1 v st' f2 cb st2 f3 f4 n' f5 H1 H2]; [done| |].
      + by apply Hnn in H1.
      + exfalso. eapply Hnn, H1.
    - intros p Hp. destruct (rsync_instant c base name e f Hs g Hg)
        as [H|(st & n0 & n & sg & f1 & v & st' & f2 & cb & st2 & f3 & g' & Ha & Hr & Hm & Hgg)]; [auto|].
      rewrite (Hgg _ Hp). rewrite <- (own_before c base name e f Hs _ _ _ _ _ _ _ _ _ _ _ _ Hp Ha).
      destruct Hm as [->|snap H1 H2 [[rs H3] _]|snap rs g1 b els g2 H1 H2|snap rs g1 b els g2 g3 rs1 cy H1 H2 H3 H4 H5|snap rs g1 b els g2 g3 rs1 cy g4 H1 H2 H3 H4 H5 H6];
        [done|exfalso; eapply Hno; [exact Ha|exact H3]|exfalso; eapply Hno; [exact Ha|apply H1]..].
  Qed.
End run.

(** A run, killed at any instant, leaves the record as it was, or the complete
    new record, or part of that, which cannot be used.  In the last two cases
    rsync clients already get the new version. *)
Theorem C63_kill c base name e f g :
  setting c base name e f -> plain_record c f -> g ∈ instants c e f ->
  g !! rsync_state_path c = f !! rsync_state_path c \/
  exists n rs', offers c e f n /\ next_record c e f n rs' /\
    (recorded_rsync c g rs' \/ spoilt c g) /\
    (c_force_moves c = false -> g !! current_path c = Some (Link (dir_name (revision_of n)))).
Proof.
  intros Hs%setting_sane Hpl Hg. destruct (record_instant c base name e f Hs Hpl g Hg) as [E|(n & rs' & b & Ho & Hn & E & Hp & Hl)]; [by left|].
  right. exists n, rs'. split; [done|]. split; [done|]. split; [|done].
  destruct (str_pre_split _ _ Hp) as [->|(r & Hr & Hne)].
  - left. right. eexists _, _. split; [exact E|]. by rewrite rsync_state_roundtrip.
  - right. eexists _, _. split; [exact E|]. by eapply rsync_state_prefix.
Qed.

(** With a record that cannot be used, no run with rsync changes what clients
    get, with rsync or with RRDP, nor what is recorded.  It succeeds only when
    there is nothing to do. *)
Theorem C63_stuck c base name e f :
  setting c base name e f -> c_rsync_disable c = false -> spoilt c f ->
  (forall g p, g ∈ instants c e f ->
     p = notif_path c name \/ p = rrdp_state_path c \/ p = rsync_state_path c \/ under (c_rsync_dir c) p ->
     g !! p = f !! p) /\
  (forall w, run c e f = (Ok tt, w) -> w_fs w = f).
Proof.
  intros Hset Hen Hsp. pose proof (setting_sane _ _ _ _ _ Hset) as Hs.
  assert (Hpl : plain_record c f) by (destruct Hsp as (b & m & E & _); intros t; congruence).
  split.
  - intros g p Hg Hp. destruct (spoilt_front c base name e f Hs Hpl g Hsp Hen Hg) as [Hf Ho].
    destruct Hp as [->|[->|[->|Hp]]].
    + by eapply front_N; [apply Hset|exact Hs|].
    + by eapply front_sp; [apply Hset|exact Hs|].
    + apply Ho. by right.
    + apply Ho. by left.
  - intros w Hrun. destruct (C21_old_trees c base name e f w Hset Hen Hpl Hrun) as [?|(n & rs & _ & _ & _ & Hrec & _)]; [done|].
    destruct Hsp as (b & m & E & E'), Hrec as [[E1 _]|(b1 & m1 & E1 & E2)]; congruence.
Qed.

(** any number of such runs, each completed, failed or killed anywhere *)
Inductive rsync_runs (c : config) (base name : string) (f0 : fs) : fs -> Prop :=
| rr_start : rsync_runs c base name f0 f0
| rr_run f c' e g : rsync_runs c base name f0 f -> same_places c c' -> c_rsync_disable c' = false ->
    good_world c' base name e f -> g ∈ instants c' e f -> rsync_runs c base name f0 g
| rr_else f g : rsync_runs c base name f0 f -> wf g -> (forall p, owned c p -> g !! p = f !! p) -> rsync_runs c base name f0 g.

Lemma places_yp c c' : same_places c c' -> rsync_state_path c' = rsync_state_path c.
Proof. intros (_ & E2 & _ & _). rewrite !rsync_state_eq. by rewrite E2. Qed.
Theorem C63_stuck_for_good c base name f0 f p :
  cfg_ok c base name -> mirror any_notif c base name f0 -> spoilt c f0 -> rsync_runs c base name f0 f ->
  p = notif_path c name \/ p = rrdp_state_path c \/ p = rsync_state_path c \/ under (c_rsync_dir c) p ->
  f !! p = f0 !! p.
Proof.
  intros Hc Hm Hsp Hrr Hp.
  assert (H : mirror any_notif c base name f /\ forall p, p = notif_path c name \/ p = rrdp_state_path c \/ p = rsync_state_path c \/ under (c_rsync_dir c) p ->
     f !! p = f0 !! p); [|by apply H]. clear p Hp.
  induction Hrr as [|f c' e g H [IHm IH] Hpl Hen Hw Hg|f g H [IHm IH] Hwf Hsame].
  - done.
  - split; [by eapply (mi_run _ _ _ _ f c' e)|]. intros p Hp. rewrite <- IH by done.
    assert (Hset : setting c' base name e f) by (split; [by eapply places_cfg|by eapply mirror_places|done]).
    apply (proj1 (C63_stuck c' base name e f Hset Hen ltac:(
      destruct Hsp as (b & m & E & E'); exists b, m; split; [rewrite (places_yp _ _ Hpl), IH; auto|done]))); [done|].
    rewrite (places_N c c' name Hpl), (places_sp c c' Hpl), (places_yp _ _ Hpl).
    destruct Hpl as (_ & _ & _ & ->). done.
  - split; [by eapply mi_else|]. intros p Hp. rewrite <- IH by done. apply Hsame. unfold owned.
    destruct Hp as [->|[->|[->|Hp]]]; [right; left; apply under_app|auto..].
Qed.

(** This happens: a run that would have succeeded is killed while it writes the
    record, and no run with rsync replaces the notification after that. *)
Definition torn_record : fs := killed_when demo_config (env3 1) (tree3 1)
  (fun g => bool_decide (g !! rsync_state_path demo_config = Some (File "" None))).
Lemma torn_spoilt : bool_decide (torn_record !! rsync_state_path demo_config = Some (File "" None)) = true.
Proof. vme. Qed.
Lemma torn_mirror : mirror any_notif demo_config base name torn_record.
Proof.
  eapply (mi_run _ _ _ _ (tree3 1) demo_config (env3 1));
    [exact (mirror3 1 (le_S _ _ (le_S _ _ (le_n 1))))|apply same_places_refl|exact (env3_good 1 (tree3 1) (le_S _ _ (le_n 1)))|done|apply killed_instant].
Qed.
Lemma torn_is_spoilt : spoilt demo_config torn_record.
Proof. exists "", None. split; [exact (bool_decide_eq_true_1 _ torn_spoilt)|by vm_compute]. Qed.
Theorem C63_refuted : exists f e g,
  mirror any_notif demo_config base name f /\ no_faults e /\ (exists w, run demo_config e f = (Ok tt, w)) /\
  g ∈ instants demo_config e f /\ spoilt demo_config g /\
  forall f', rsync_runs demo_config base name g f' ->
    f' !! notif_path demo_config name = g !! notif_path demo_config name /\ spoilt demo_config f'.
Proof.
  exists (tree3 1), (env3 1), torn_record. split; [exact (mirror3 1 (le_S _ _ (le_S _ _ (le_n 1))))|]. split; [done|].
  split. { destruct (ran_ok demo_config (env3 1) (tree3 1) (fun _ => True)) as (w & E & _); [vme|done|exists w; exact E]. }
  split; [apply killed_instant|]. split; [exact torn_is_spoilt|]. intros f' Hr.
  pose proof (fun p => C63_stuck_for_good demo_config base name torn_record f' p demo_cfg_ok torn_mirror torn_is_spoilt Hr) as H.
  split; [apply H; auto|]. destruct torn_is_spoilt as (b & m & E & E'). exists b, m. split; [rewrite H; auto|exact E'].
Qed.

Definition reading_check (f h : fs) : bool :=
  match f !! rsync_state_path demo_config with
  | Some (File b _) => bool_decide (rsync_state_parse b = Some (mkRs (Some rev3) []))
  | _ => false
  end && bool_decide (f !! current_path demo_config = Some (Link (dir_name rev3))) &&
  bool_decide (h !! current_path demo_config <> f !! current_path demo_config) &&
  bool_decide (f !! rev_dir demo_config rev3 = Some Dir) &&
  match f !! (rev_dir demo_config rev3 ++ ["ca"]) with Some Dir => true | _ => false end.
Lemma reading_facts f h : reading_check f h = true ->
  plain_record demo_config f /\ (forall rs, recorded_rsync demo_config f rs -> rs = mkRs (Some rev3) []) /\
  f !! current_path demo_config = Some (Link (dir_name rev3)) /\
  h !! current_path demo_config <> f !! current_path demo_config /\
  f !! (rev_dir demo_config rev3 ++ ["ca"]) = Some Dir.
Proof.
  unfold reading_check. intros [[[[H1 H2]%andb_true_iff H3]%andb_true_iff H4]%andb_true_iff H5]%andb_true_iff.
  apply bool_decide_eq_true_1 in H2, H3.
  destruct (f !! rsync_state_path demo_config) as [[b m| |]|] eqn:E; try done. apply bool_decide_eq_true_1 in H1.
  split; [intros t E'; rewrite E in E'; done|]. split; [|split; [done|split; [done|]]].
  - intros rs [[E1 _]|(b1 & m1 & E1 & E2)]; rewrite E in E1; [done|]. injection E1 as <- <-. congruence.
  - by destruct (f !! (rev_dir demo_config rev3 ++ ["ca"])) as [[]|].
Qed.
Lemma reading13 : reading_check (tree_at 1) (tree_at 3) = true.
Proof. vme. Qed.
Lemma reading3 : reading_check (tree3 1) (tree3 3) = true.
Proof. exact (eq_trans (f_equal2 reading_check (eq_sym (tree_at_eq 1 (le_S _ _ (le_S _ _ (le_n 1))))) (eq_sym (tree_at_eq 3 (le_n 3)))) reading13). Qed.

Example C63_applies : setting demo_config base name (env3 1) (tree3 1) /\ plain_record demo_config (tree3 1) /\
  torn_record ∈ instants demo_config (env3 1) (tree3 1) /\
  setting demo_config base name (env3 1) torn_record /\ c_rsync_disable demo_config = false /\ spoilt demo_config torn_record.
Proof.
  split; [exact (setting3 1 (le_S _ _ (le_n 1)))|]. split; [exact (proj1 (reading_facts _ _ reading3))|]. split; [apply killed_instant|].
  split; [split; [exact demo_cfg_ok|exact torn_mirror|exact (env3_good 1 torn_record (le_S _ _ (le_n 1)))]|].
  split; [reflexivity|exact torn_is_spoilt].
Qed.

(** ** C64: what an rsync client that has started can still fetch *)
(** the next run does not publish the revision [r]: the source offers another
    one, or it is the one the RRDP state has *)
Definition not_again (c : config) (base name : string) (e : env) (f : fs) (r : revision) : Prop :=
  forall n, offers c e f n -> revision_of n = r ->
    exists st s, starts_from c base name f st /\ st_snap st = Some s /\
      ss_session s = rv_session r /\ ss_serial s = rv_serial r.
(** [rsync_client c base name T r f0 f]: an rsync client was sent to the tree of
    [r], through the link in [f0], at time [T] or later, between two runs or in
    the middle of one ([rc_during]).  If [r] is recorded as replaced, that is
    since [T].  Since then runs were completed, failed or killed, all less than
    the cleanup time after [T], and the tree is now [f]. *)
Inductive rsync_client (c : config) (base name : string) (T : Z) (r : revision) (f0 : fs) : fs -> Prop :=
| rc_start : mirror any_notif c base name f0 -> f0 !! current_path c = Some (Link (dir_name r)) -> plain_record c f0 ->
    (forall rs o, recorded_rsync c f0 rs -> o ∈ rs_old rs -> or_rev o = r -> (T <= or_since o)%Z) ->
    rsync_client c base name T r f0 f0
| rc_during f c' e i j g : mirror any_notif c base name f -> plain_record c f ->
    (forall rs o, recorded_rsync c f rs -> o ∈ rs_old rs -> or_rev o = r -> (T <= or_since o)%Z) ->
    same_places c c' -> c_force_moves c' = false -> good_world c' base name e f -> soon T c' e ->
    (f !! current_path c = Some (Link (dir_name r)) -> not_again c' base name e f r) ->
    instants c' e f !! i = Some f0 -> f0 !! current_path c = Some (Link (dir_name r)) ->
    instants c' e f !! j = Some g -> i <= j -> rsync_client c base name T r f0 g
| rc_run f c' e g : rsync_client c base name T r f0 f -> same_places c c' -> c_force_moves c' = false ->
    good_world c' base name e f -> soon T c' e -> not_again c' base name e f r ->
    g ∈ instants c' e f -> rsync_client c base name T r f0 g
| rc_else f g : rsync_client c base name T r f0 f -> wf g -> (forall p, owned c p -> g !! p = f !! p) ->
    rsync_client c base name T r f0 g.

Lemma soon_clean T c e cb t : soon T c e -> clean_time c e cb -> (T <= t)%Z -> (cb < t)%Z.
Proof. intros Hw [a ->] Ht. destruct (Hw a) as [H1 H2]. unfold wrap64. rewrite Z.mod_small by lia. lia. Qed.

Section tree_kept.
  Context (c : config) (base name : string) (e : env) (f : fs) (Hs : sane c base name e f) (Hpl : plain_record c f).
  Context (T : Z) (r : revision) (Hsym : c_force_moves c = false) (Hsoon : soon T c e)
    (Hsince : forall rs o, recorded_rsync c f rs -> o ∈ rs_old rs -> or_rev o = r -> (T <= or_since o)%Z).

  Lemma retired_since rs olds o : recorded_rsync c f rs -> retired e rs olds -> o ∈ olds -> or_rev o = r -> (T <= or_since o)%Z.
  Proof.
    intros Hrec Hret Hin Hr. unfold retired in Hret. destruct (rs_current rs) as [cur|]; [|subst olds; by eapply Hsince].
    destruct Hret as (now & [a ->] & ->). apply elem_of_app in Hin as [Hin|Hin]; [by eapply Hsince|].
    apply elem_of_list_singleton in Hin as ->. cbn. apply (Hsoon a).
  Qed.
  Lemma tree_instant g p : not_again c base name e f r -> g ∈ instants c e f -> under (rev_dir c r) p -> g !! p = f !! p.
  Proof.
    intros Hnot Hg Hp. assert (Hpo : rsync_own c p) by (left; eapply under_trans; [|exact Hp]; apply under_app).
    destruct (rsync_instant c base name e f Hs g Hg)
      as [H|(st & n0 & n & sg & f1 & v & st' & f2 & cb & st2 & f3 & g' & Ha & Hr & Hm & Hgg)]; [auto|].
    rewrite (Hgg _ Hpo). rewrite <- (own_before c base name e f Hs _ _ _ _ _ _ _ _ _ _ _ _ Hpo Ha).
    rewrite <- rev_dir_eq in Hp.
    assert (Hne : forall snap, st_snap st2 = Some snap -> rev_of snap <> r).
    { intros snap Hsn Er. destruct (step_rev c base name e f _ _ _ _ _ _ _ _ _ _ _ _ Ha Hsn) as (Ho & Hrv & V1 & V2 & Hst & rb & Hcv).
      destruct (Hnot n0 Ho) as (st1 & s & Hst1 & Hs1 & E1 & E2); [congruence|].
      rewrite (starts_unique _ _ _ _ _ _ Hst1 Hst) in Hs1. unfold compare_version in Hcv. rewrite Hs1 in Hcv.
      assert (ER : r = revision_of n0) by congruence. rewrite ER in E1, E2. cbn in E1, E2.
      rewrite bool_decide_true in Hcv by congruence. cbn in Hcv. rewrite E2, V2, N.compare_refl in Hcv. done. }
    assert (Hin : forall snap h, st_snap st2 = Some snap -> inside (under (rev_path c (rev_of snap))) f3 h -> h !! p = f3 !! p).
    { intros snap h Hsn Hh. pose proof (revs_apart c _ _ (Hne _ Hsn)) as Ha'.
      assert (Hap : apart p (rev_path c (rev_of snap))) by (eapply apart_sub_l; [apply apart_sym, Ha'|exact Hp]).
      destruct (apart_out _ _ Hap) as [K1 K2]. apply (inside_same _ _ _ _ Hh); [done|]. intros (q & Hq & Hb). by apply (K2 q). }
    assert (Hlk : forall rv h h', link_turned c rv h h' -> h' !! p = h !! p).
    { intros rv h h' [_ ->]. rewrite lookup_insert_ne, lookup_delete_ne; [done| |].
      - intros <-. apply (apart_disjoint _ _ (link_tmp c) (rev_tmp_apart c r)); [done|apply under_refl].
      - intros <-. apply (apart_disjoint _ _ (rsync_current c) (rev_current_apart c r)); [done|apply under_refl]. }
    assert (Htu : forall rv rs h h', turning c rv rs h h' -> h' !! p = h !! p).
    { intros rv rs h h' H. unfold turning in H. rewrite (symlinks _ Hsym) in H. destruct H as [H|H]; [|by eapply Hlk].
      apply H. intros ->. apply (apart_disjoint _ _ (link_tmp c) (rev_tmp_apart c r)); [done|apply under_refl]. }
    assert (Hlo : forall rs rv rs1 cy h h', rsync_starts c f3 rs -> next_rsync e rs rv rs1 -> clean_time c e cy ->
      lost (rev_paths c rs1 cy) h h' -> h' !! p = h !! p).
    { intros rs rv rs1 cy h h' Hst Hn Hct Hl. destruct (Hl p) as [|(_ & o & [Ho1 Ho2] & Hu)]; [done|]. exfalso.
      destruct (next_retired _ _ _ _ Hn) as [_ Hret].
      pose proof (run_recorded c base name e f Hs _ _ _ _ _ _ _ _ _ _ _ _ Ha Hpl Hst) as Hrec.
      destruct (decide (or_rev o = r)) as [E|E].
      - pose proof (retired_since _ _ _ Hrec Hret Ho1 E) as Ht. pose proof (soon_clean _ _ _ _ _ Hsoon Hct Ht). lia.
      - by apply (apart_disjoint _ _ p (revs_apart c _ _ E)). }
    destruct Hm as [->|snap H1 H2 _|snap rs g1 b els g2 H1 H2|snap rs g1 b els g2 g3 rs1 cy H1 H2 H3 H4 H5|snap rs g1 b els g2 g3 rs1 cy g4 H1 H2 H3 H4 H5 H6].
    - done.
    - by eapply Hin.
    - rewrite (Htu _ _ _ _ H2). by eapply Hin; apply H1.
    - rewrite (Hlo _ _ _ _ _ _ (rp_start _ _ _ _ _ _ _ _ _ _ H1) H3 H4 H5), (Htu _ _ _ _ (turned_turning c _ _ _ _ H2)). by eapply Hin; apply H1.
    - assert (Hpu : under (c_rsync_dir c) p) by (eapply under_trans; [apply rev_under|exact Hp]).
      rewrite (saving_dir c base name e f Hs _ _ _ _ H6 Hpu).
      rewrite (Hlo _ _ _ _ _ _ (rp_start _ _ _ _ _ _ _ _ _ _ H1) H3 H4 H5), (Htu _ _ _ _ (turned_turning c _ _ _ _ H2)). by eapply Hin; apply H1.
  Qed.
  Lemma since_instant g : g ∈ instants c e f -> plain_record c g /\
    forall rs o, recorded_rsync c g rs -> o ∈ rs_old rs -> or_rev o = r -> (T <= or_since o)%Z.
  Proof.
    intros Hg. destruct (record_instant c base name e f Hs Hpl g Hg) as [E|(n & rs' & b & Ho & Hn & E & Hp & _)].
    - split; [intros t; rewrite E; apply Hpl|]. intros rs o Hrec. apply (Hsince rs o). unfold recorded_rsync in *. by rewrite <- E.
    - split; [intros t; rewrite E; done|]. intros rs o [[E1 _]|(b1 & m1 & E1 & E2)] Hin Hr; [congruence|].
      rewrite E in E1. injection E1 as <- <-.
      destruct (str_pre_split _ _ Hp) as [->|(r' & Hr' & Hne)].
      + rewrite rsync_state_roundtrip in E2. injection E2 as <-. destruct Hn as (rs0 & olds & cb & Hrec & Hret & Hct & ->).
        cbn in Hin. apply elem_of_list_filter in Hin as [_ Hin]. by eapply retired_since.
      + by rewrite (rsync_state_prefix _ _ _ Hr' Hne) in E2.
  Qed.
  (** from the instant the client follows the link *)
  Lemma tree_during i j g h p :
    (f !! current_path c = Some (Link (dir_name r)) -> not_again c base name e f r) ->
    instants c e f !! i = Some g -> g !! current_path c = Some (Link (dir_name r)) ->
    instants c e f !! j = Some h -> i <= j -> under (rev_dir c r) p -> h !! p = g !! p.
  Proof.
    intros Hnot Hi Hg Hj Hij Hp.
    assert (Hgi : g ∈ instants c e f) by (by eapply elem_of_list_lookup_2).
    assert (Hhi : h ∈ instants c e f) by (by eapply elem_of_list_lookup_2).
    destruct (decide (f !! current_path c = Some (Link (dir_name r)))) as [E|E].
    - rewrite (tree_instant g p), (tree_instant h p); auto.
    - assert (Hen : rsync_enabled c = true).
      { destruct (rsync_instant c base name e f Hs g Hgi) as [H|(st & n0 & n & sg & f1 & v & st' & f2 & cb & st2 & f3 & g' & _ & Hr & _)]; [|done].
        exfalso. apply E. rewrite <- Hg. symmetry. apply H. left. apply under_app. }
      eapply (turned_order c base name e f Hs Hpl r); [|exact Hen|by apply symlinks|exact Hi|exact Hj|exact Hij|..].
      + intros rs olds cb o H1 H2 H3 H4 H5. eapply soon_clean; [exact Hsoon|exact H3|]. by eapply retired_since.
      + rewrite current_eq. congruence.
      + by rewrite rev_dir_eq.
  Qed.
End tree_kept.

(** Until the cleanup time after it started is over, the client finds the tree
    it was sent to as it was. *)
Theorem C64_tree_kept c base name T r f0 f p :
  cfg_ok c base name -> rsync_client c base name T r f0 f -> under (rev_dir c r) p -> f !! p = f0 !! p.
Proof.
  intros Hc Hrc Hp.
  assert (H : mirror any_notif c base name f /\ plain_record c f /\
    (forall rs o, recorded_rsync c f rs -> o ∈ rs_old rs -> or_rev o = r -> (T <= or_since o)%Z) /\
    forall p, under (rev_dir c r) p -> f !! p = f0 !! p); [|by apply H]. clear p Hp.
  induction Hrc as [H1 H2 H3 H4|f c' e i j g IHm IHp IHs Hpl Hfm Hw Hsoon Hnot Hi Hl Hj Hij|f c' e g H (IHm & IHp & IHs & IH) Hpl Hfm Hw Hsoon Hnot Hg|f g H (IHm & IHp & IHs & IH) Hwf Hsame].
  - done.
  - assert (Hs : sane c' base name e f) by (apply setting_sane; split; [by eapply places_cfg|by eapply mirror_places|done]).
    assert (Ey := places_yp _ _ Hpl).
    assert (Ed : c_rsync_dir c' = c_rsync_dir c) by by destruct Hpl as (_ & _ & _ & ->).
    assert (IHp' : plain_record c' f) by (unfold plain_record; by rewrite Ey).
    assert (Hrec : forall h rs, recorded_rsync c' h rs <-> recorded_rsync c h rs) by (intros; unfold recorded_rsync; by rewrite Ey).
    assert (IHs' : forall rs o, recorded_rsync c' f rs -> o ∈ rs_old rs -> or_rev o = r -> (T <= or_since o)%Z)
      by (intros rs o H1; by apply IHs, Hrec).
    assert (Hg : g ∈ instants c' e f) by (by eapply elem_of_list_lookup_2).
    destruct (since_instant c' base name e f Hs IHp' T r Hsoon IHs' g Hg) as [K1 K2].
    split; [by eapply (mi_run _ _ _ _ f c' e)|]. split; [unfold plain_record in *; by rewrite Ey in K1|].
    split; [intros rs o H1; by apply K2, Hrec|]. intros p Hp.
    eapply (tree_during c' base name e f Hs IHp' T r Hfm Hsoon IHs'); [|exact Hi| |exact Hj|exact Hij|];
      unfold current_path, rev_dir in *; by rewrite Ed.
  - assert (Hs : sane c' base name e f) by (apply setting_sane; split; [by eapply places_cfg|by eapply mirror_places|done]).
    assert (Ey := places_yp _ _ Hpl).
    assert (IHp' : plain_record c' f) by (unfold plain_record; by rewrite Ey).
    assert (Hrec : forall h rs, recorded_rsync c' h rs <-> recorded_rsync c h rs) by (intros; unfold recorded_rsync; by rewrite Ey).
    assert (IHs' : forall rs o, recorded_rsync c' f rs -> o ∈ rs_old rs -> or_rev o = r -> (T <= or_since o)%Z)
      by (intros rs o H1; by apply IHs, Hrec).
    destruct (since_instant c' base name e f Hs IHp' T r Hsoon IHs' g Hg) as [K1 K2].
    split; [by eapply (mi_run _ _ _ _ f c' e)|]. split; [unfold plain_record in *; by rewrite Ey in K1|].
    split; [intros rs o H1; by apply K2, Hrec|]. intros p Hp. rewrite <- IH by done.
    eapply (tree_instant c' base name e f Hs IHp' T r Hfm Hsoon IHs' g p Hnot Hg).
    unfold rev_dir in *. by destruct Hpl as (_ & _ & _ & ->).
  - assert (Ey : g !! rsync_state_path c = f !! rsync_state_path c) by (apply Hsame; unfold owned; auto 6).
    split; [by eapply mi_else|]. split; [intros t; rewrite Ey; apply IHp|].
    split; [intros rs o H1; apply IHs; unfold recorded_rsync in *; by rewrite <- Ey|].
    intros p Hp. rewrite <- IH by done. apply Hsame. right. right. left. eapply under_trans; [apply under_app|exact Hp].
Qed.

(** The client reads the tree of serial 3 while two further versions are
    published; at the end other clients get another tree. *)
Lemma fresh_since T r f : (forall rs, recorded_rsync demo_config f rs -> rs = mkRs (Some rev3) []) ->
  forall rs o, recorded_rsync demo_config f rs -> o ∈ rs_old rs -> or_rev o = r -> (T <= or_since o)%Z.
Proof. intros H rs o Hr Ho. rewrite (H rs Hr) in Ho. by apply elem_of_nil in Ho. Qed.
Lemma reading_client : rsync_client demo_config base name 1000 rev3 (tree3 1) (tree3 3).
Proof.
  destruct (reading_facts _ _ reading3) as (H1 & H2 & H3 & _).
  assert (Hstep : forall i, 1 <= i -> i <= 2 -> rsync_client demo_config base name 1000 rev3 (tree3 1) (tree3 i) ->
    rsync_client demo_config base name 1000 rev3 (tree3 1) (tree3 (S i))).
  { intros i Hi1 Hi H. apply (rc_run _ _ _ _ _ _ (tree3 i) demo_config (env3 i)); [exact H|apply same_places_refl|reflexivity|exact (env3_good i (tree3 i) Hi)
      |intros a; cbn; lia| |exact (after_instant demo_config (env3 i) (tree3 i))].
    intros n Ho Er. exfalso. rewrite (env3_offers i _ n Hi Ho) in Er. clear -Er Hi1 Hi.
    assert (E : i = 1 \/ i = 2) by lia. destruct E as [->| ->]; discriminate Er. }
  apply (Hstep 2 (le_S _ _ (le_n 1)) (le_n 2)), (Hstep 1 (le_n 1) (le_S _ _ (le_n 1))).
  apply rc_start; [exact (mirror3 1 (le_S _ _ (le_S _ _ (le_n 1))))|exact H3|exact H1|].
  exact (fresh_since 1000 rev3 (tree3 1) H2).
Qed.
Example C64_applies : cfg_ok demo_config base name /\ rsync_client demo_config base name 1000 rev3 (tree3 1) (tree3 3) /\
  tree3 3 !! current_path demo_config <> tree3 1 !! current_path demo_config /\
  tree3 3 !! (rev_dir demo_config rev3 ++ ["ca"]) = Some Dir.
Proof.
  destruct (reading_facts _ _ reading3) as (_ & _ & _ & H4 & H5).
  split; [exact demo_cfg_ok|]. split; [exact reading_client|]. split; [exact H4|].
  exact (eq_trans (C64_tree_kept demo_config base name 1000 rev3 (tree3 1) (tree3 3) _ demo_cfg_ok reading_client (under_app _ _)) H5).
Qed.

(** A client follows the link as soon as it has turned to serial 5, before the
    run has written its record, and reads on while that run ends and another
    session is published. *)
Lemma later_after c e f g : g ∈ instants c e f ->
  exists i j, instants c e f !! i = Some g /\ instants c e f !! j = Some (after (run c e f)) /\ i <= j.
Proof.
  intros [i Hi]%elem_of_list_lookup_1. exists i, (length (instants c e f) - 1). split; [done|].
  pose proof (lookup_lt_Some _ _ _ Hi) as Hl. split; [|lia]. clear i Hi Hl.
  assert (E : after (run c e f) = List.last (trees (w_trace (run c e f).2)) f).
  { destruct (t_process c e (resume f)) as (l & Ht & Hw). cbn [resume w_trace w_fs app] in Ht, Hw.
    unfold after, run. by rewrite Hw, Ht. }
  unfold instants. rewrite E. generalize (trees (w_trace (run c e f).2)). intros l. clear E. revert f.
  induction l as [|x l IH]; intros f; [done|]. specialize (IH x). cbn [length] in *. rewrite Nat.sub_succ, Nat.sub_0_r in *.
  rewrite last_cons_default. exact IH.
Qed.
Definition turned5 : fs := killed_when demo_config (env3 1) (tree3 1)
  (fun g => bool_decide (g !! current_path demo_config = Some (Link (dir_name rev5)))).
Definition turned5_check (f g h : fs) : bool :=
  bool_decide (g !! current_path demo_config = Some (Link (dir_name rev5))) &&
  bool_decide (g !! rsync_state_path demo_config = f !! rsync_state_path demo_config) &&
  bool_decide (h !! current_path demo_config <> g !! current_path demo_config) &&
  match g !! (rev_dir demo_config rev5 ++ ["ca"; "5.roa"]) with Some (File _ _) => true | _ => false end.
Lemma turned5_ok : turned5_check (tree_at 1) turned5 (tree_at 3) = true.
Proof. vme. Qed.
Lemma turned5_facts f g h : turned5_check f g h = true ->
  g !! current_path demo_config = Some (Link (dir_name rev5)) /\
  g !! rsync_state_path demo_config = f !! rsync_state_path demo_config /\
  h !! current_path demo_config <> g !! current_path demo_config /\
  exists b m, g !! (rev_dir demo_config rev5 ++ ["ca"; "5.roa"]) = Some (File b m).
Proof.
  unfold turned5_check. intros [[[H1 H2]%andb_true_iff H3]%andb_true_iff H4]%andb_true_iff.
  apply bool_decide_eq_true_1 in H1, H2, H3. repeat (split; [done|]).
  destruct (g !! (rev_dir demo_config rev5 ++ ["ca"; "5.roa"])) as [[b m| |]|]; try done. by exists b, m.
Qed.
Lemma turned5_ok' : turned5_check (tree3 1) turned5 (tree3 3) = true.
Proof. exact (eq_trans (f_equal2 (fun f h => turned5_check f turned5 h) (eq_sym (tree_at_eq 1 (le_S _ _ (le_S _ _ (le_n 1))))) (eq_sym (tree_at_eq 3 (le_n 3)))) turned5_ok). Qed.
Lemma rev3_ne : Some (Link (dir_name rev3)) <> Some (Link (dir_name rev5)).
Proof. by vm_compute. Qed.
Lemma turned5_client : rsync_client demo_config base name 1000 rev5 turned5 (tree3 3).
Proof.
  destruct (reading_facts _ _ reading3) as (H1 & H2 & H3 & _). destruct (turned5_facts _ _ _ turned5_ok') as (H4 & _).
  destruct (later_after demo_config (env3 1) (tree3 1) turned5 (killed_instant _ _ _ _)) as (i & j & Hi & Hj & Hij).
  apply (rc_run _ _ _ _ _ _ (tree3 2) demo_config (env3 2));
    [|apply same_places_refl|reflexivity|exact (env3_good 2 (tree3 2) (le_n 2))|intros a; cbn; lia| |exact (after_instant demo_config (env3 2) (tree3 2))].
  - apply (rc_during _ _ _ _ _ _ (tree3 1) demo_config (env3 1) i j);
      [exact (mirror3 1 (le_S _ _ (le_S _ _ (le_n 1))))|exact H1|exact (fresh_since 1000 rev5 (tree3 1) H2)|apply same_places_refl|reflexivity
      |exact (env3_good 1 (tree3 1) (le_S _ _ (le_n 1)))|intros a; cbn; lia| |exact Hi|exact H4|exact Hj|exact Hij].
    intros E. exfalso. rewrite H3 in E. exact (rev3_ne E).
  - intros n Ho Er. exfalso. rewrite (env3_offers 2 _ n (le_n 2) Ho) in Er. discriminate Er.
Qed.
Example C64_during_applies : cfg_ok demo_config base name /\ rsync_client demo_config base name 1000 rev5 turned5 (tree3 3) /\
  turned5 !! rsync_state_path demo_config = tree3 1 !! rsync_state_path demo_config /\
  tree3 3 !! current_path demo_config <> turned5 !! current_path demo_config /\
  exists b m, tree3 3 !! (rev_dir demo_config rev5 ++ ["ca"; "5.roa"]) = Some (File b m).
Proof.
  destruct (turned5_facts _ _ _ turned5_ok') as (_ & H2 & H3 & b & m & H4).
  split; [exact demo_cfg_ok|]. split; [exact turned5_client|]. split; [exact H2|]. split; [exact H3|]. exists b, m.
  exact (eq_trans (C64_tree_kept demo_config base name 1000 rev5 turned5 (tree3 3) _ demo_cfg_ok turned5_client (under_app _ _)) H4).
Qed.

Print Assumptions C63_kill.
Print Assumptions C63_stuck.
Print Assumptions C63_stuck_for_good.
Print Assumptions C63_refuted.
Print Assumptions C64_tree_kept.
