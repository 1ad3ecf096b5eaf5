(** * C70: directory moves: what blocks all later updates *)
From Coq Require Import ZifyN ZifyNat ZifyBool.
From Verif Require Import RsyncRun DemoRun Refuted PropsLive PropsRsync PropsHoldsRsync PropsRecord PropsOrder RunView Tracks PropsHistory PropsRecover.
From Verif Require Import CleanProofs FsWf HistoryProofs.

(** ** Specification *)
(** 'current' is a directory, and the place where it would have to go is taken:
    there is something in the directory of the revision that is recorded as the
    current one; or no revision is recorded, and 'current' is not empty *)
Definition blocked (c : config) (f : fs) : Prop :=
  f !! current_path c = Some Dir /\ exists rs, recorded_rsync c f rs /\
  match rs_current rs with
  | Some cur => exists q, q <> [] /\ is_Some (f !! (rev_dir c cur ++ q))
  | None => exists q, q <> [] /\ is_Some (f !! (current_path c ++ q))
  end.

(** ** Proofs *)
Lemma below_child (p q : path) : q <> [] -> below p (p ++ q).
Proof. intros Hq. split; [apply under_app|]. intros E. apply Hq. apply (app_inv_head p). by rewrite app_nil_r. Qed.
Lemma op_rename_onto p q f : f !! q = Some Dir -> inhabited f q -> p <> q -> p <> [] -> q <> [] -> op_rename p q f = None.
Proof.
  intros Hq Hi Hpq Hp Hqn. unfold op_rename. destruct p as [|p0 p']; [done|]. rewrite !fs_get_nonroot by done. rewrite Hq.
  apply inhabited_spec in Hi. destruct (f !! (p0 :: p')) as [[| |]|]; [by destruct (parent_is_dir f q)| |by destruct (parent_is_dir f q)|done].
  destruct (_ && _); [|done]. rewrite decide_False by congruence. by rewrite Hi.
Qed.
Lemma pub_stays c e st f snap rs f1 b els f2 : rsync_pub c e st f snap rs f1 b els f2 -> stays f f2.
Proof.
  intros Hp p Hs. assert (H1 : is_Some (f1 !! p)).
  { destruct (rp_grow _ _ _ _ _ _ _ _ _ _ Hp p) as [E|(_ & E & _)]; rewrite E in *; [done|by destruct Hs]. }
  destruct (rp_tree _ _ _ _ _ _ _ _ _ _ Hp p) as [b' m _ -> _|_ ->|u o _ _ -> _ _]; done.
Qed.
Lemma recorded_same c f g rs : g !! rsync_state_path c = f !! rsync_state_path c -> recorded_rsync c f rs -> recorded_rsync c g rs.
Proof. unfold recorded_rsync. by intros ->. Qed.
Lemma current_not_tmp c q : current_path c ++ q <> link_tmp c.
Proof. rewrite link_tmp_eq. unfold current_path. rewrite <- app_assoc. by intros E%app_inv_head. Qed.
Lemma rev_not_tmp c r q : rev_path c r ++ q <> link_tmp c.
Proof. intros E. apply (apart_disjoint _ _ (link_tmp c) (rev_tmp_apart c r)); [rewrite <- E; apply under_app|apply under_refl]. Qed.
Lemma current_not_rev c r q : ~ under (rev_path c r) (current_path c ++ q).
Proof. rewrite <- current_eq. intros H. by apply (apart_disjoint _ _ _ (rev_current_apart c r) H), under_app. Qed.

Section run.
  Context (c : config) (base name : string) (e : env) (f : fs).
  Context (Hs : sane c base name e f) (Hpl : plain_record c f) (Hb : blocked c f).
  Let Hc : cfg_ok c base name := sn_cfg _ _ _ _ _ Hs.

  (** with the objects of a revision written, it cannot be turned to *)
  Lemma no_turn st n0 n sg f1 v st' f2 cb st2 f3 snap rs g1 b els g2 :
    at_rsync c base name e f st n0 n sg f1 v st' f2 cb st2 f3 ->
    rsync_pub c e st2 f3 snap rs g1 b els g2 ->
    (forall g, ~ turned c (rev_of snap) rs g2 g) /\
    forall g, turning c (rev_of snap) rs g2 g -> tmp_only c g2 g.
  Proof using Hs Hpl Hb.
    intros Ha Hp. destruct Hb as (Hcur & rs' & Hrec' & Hw).
    pose proof (run_recorded c base name e f Hs _ _ _ _ _ _ _ _ _ _ _ _ Ha Hpl (rp_start _ _ _ _ _ _ _ _ _ _ Hp)) as Hrec.
    rewrite (recorded_unique _ _ _ _ Hrec' Hrec) in Hw. clear rs' Hrec'.
    assert (Hown : forall p, under (c_rsync_dir c) p -> f3 !! p = f !! p).
    { intros p Hu. apply (own_before c base name e f Hs) with (2 := Ha). by left. }
    pose proof (rp_in _ _ _ _ _ _ _ _ _ _ Hp) as Hi. pose proof (pub_stays _ _ _ _ _ _ _ _ _ _ Hp) as Hst.
    assert (Hsame : forall q, g2 !! (current_path c ++ q) = f !! (current_path c ++ q)).
    { intros q. rewrite <- Hown by (eapply under_trans; [|apply under_app]; rewrite <- current_eq; apply current_under).
      assert (Hap : apart (current_path c ++ q) (rev_path c (rev_of snap))).
      { eapply apart_sub_l; [|apply under_app]. rewrite <- current_eq. apply apart_sym, rev_current_apart. }
      destruct (apart_out _ _ Hap) as [K1 K2]. apply (inside_same _ _ _ _ Hi K1). intros (k & Hk & Hbk). by apply (K2 k). }
    assert (Hg2 : g2 !! rsync_current c = Some Dir).
    { rewrite current_eq. specialize (Hsame []). rewrite app_nil_r in Hsame. by rewrite Hsame. }
    assert (Hma : forall g, moved_aside c rs g2 g -> rs_current rs = None /\ g = g2).
    { intros g Hm. unfold moved_aside in Hm. destruct (rs_current rs) as [cur|]; [exfalso|done].
      assert (Hex : fs_exists g2 (rsync_current c) = true).
      { unfold fs_exists, fs_stat. rewrite fs_get_nonroot by apply rsync_current_ne. by rewrite Hg2. }
      rewrite Hex in Hm. destruct Hw as (q & Hq & Hsm).
      assert (Hch : is_Some (g2 !! (rev_path c cur ++ q))).
      { apply Hst. rewrite Hown; [by rewrite rev_dir_eq|]. eapply under_trans; [apply rev_under|apply under_app]. }
      destruct Hch as [nd Hch]. pose proof (wf_below _ _ _ _ (proj1 Hi) Hch (below_child _ _ Hq) (rev_path_ne c cur)) as Hd.
      rewrite op_rename_onto in Hm; [done|done| |apply apart_neq, apart_sym, rev_current_apart|apply rsync_current_ne|apply rev_path_ne].
      exists (rev_path c cur ++ q), nd. split; [done|by apply below_child]. }
    assert (Hdt : forall g, ~ dir_turned c (rev_of snap) rs g2 g).
    { intros g (fa & H1 & H2). apply Hma in H1 as [H0 ->]. rewrite H0 in Hw. destruct Hw as (q & Hq & nd & Hsm).
      rewrite op_rename_onto in H2; [done|done| |apply apart_neq, rev_current_apart|apply rev_path_ne|apply rsync_current_ne].
      exists (rsync_current c ++ q), nd. split; [by rewrite current_eq, Hsame|by apply below_child]. }
    unfold turned, turning. destruct (use_symlinks c); split.
    - by intros g [Hl _].
    - intros g [?|[Hl _]]; [done|]. done.
    - done.
    - intros g [->|[H|H]]; [by intros p| |by apply Hdt in H]. apply Hma in H as [_ ->]. by intros p.
  Qed.

  Lemma blocked_own g : g ∈ instants c e f ->
    (forall p, p = rsync_state_path c \/ under (current_path c) p -> g !! p = f !! p) /\
    (forall r q, is_Some (f !! (rev_dir c r ++ q)) -> is_Some (g !! (rev_dir c r ++ q))).
  Proof using Hs Hpl Hb.
    intros Hg.
    assert (Ho : forall p, p = rsync_state_path c \/ under (current_path c) p -> rsync_own c p).
    { intros p [->|Hp]; [by right|]. left. eapply under_trans; [|exact Hp]. rewrite <- current_eq. apply current_under. }
    assert (Hr' : forall r q, rsync_own c (rev_path c r ++ q)).
    { intros r q. left. eapply under_trans; [apply rev_under|apply under_app]. }
    destruct (rsync_instant c base name e f Hs g Hg)
      as [H|(st & n0 & n & sg & f1 & v & st' & f2 & cb & st2 & f3 & g' & Ha & Hr & Hm & Hgg)].
    { split; [intros p Hp; apply H; auto|]. intros r q. rewrite <- rev_dir_eq. by rewrite H. }
    assert (Hown : forall p, rsync_own c p -> f3 !! p = f !! p).
    { intros p Hu. by apply (own_before c base name e f Hs) with (2 := Ha). }
    assert (Hap : forall r p, p = rsync_state_path c \/ under (current_path c) p -> apart p (rev_path c r)).
    { intros r p [->|Hp]; [eapply apart_sub; [apply (ck_yp_y _ _ _ Hc)|apply rev_under]|].
      eapply apart_sub_l; [|exact Hp]. rewrite <- current_eq. apply apart_sym, rev_current_apart. }
    assert (Hin : forall r h, inside (under (rev_path c r)) f3 h ->
      forall p, p = rsync_state_path c \/ under (current_path c) p -> h !! p = f !! p).
    { intros r h Hh p Hp. rewrite <- Hown by auto. destruct (apart_out _ _ (Hap r p Hp)) as [K1 K2].
      apply (inside_same _ _ _ _ Hh K1). intros (k & Hk & Hbk). by apply (K2 k). }
    assert (Hnt : forall p, p = rsync_state_path c \/ under (current_path c) p -> p <> link_tmp c).
    { intros p [->|[q ->]]; [|apply current_not_tmp]. rewrite link_tmp_eq. intros E.
      apply (apart_disjoint _ _ (rsync_state_path c) (ck_yp_y _ _ _ Hc) (under_refl _)). rewrite E. apply under_app. }
    assert (Hg' : (forall p, p = rsync_state_path c \/ under (current_path c) p -> g' !! p = f !! p) /\
      forall r q, is_Some (f3 !! (rev_path c r ++ q)) -> is_Some (g' !! (rev_path c r ++ q))).
    { destruct Hm as [->|snap H1 H2 [_ H3]|snap rs g1 b els g2 H1 H2|snap rs g1 b els g2 g3 rs1 cy H1 H2 H3 H4 H5|snap rs g1 b els g2 g3 rs1 cy g4 H1 H2 H3 H4 H5 H6].
      - split; [intros p Hp; apply Hown; auto|done].
      - split; [by apply (Hin _ _ H2)|]. intros r q. apply H3.
      - destruct (no_turn _ _ _ _ _ _ _ _ _ _ _ _ _ _ _ _ _ Ha H1) as [_ Ht]. specialize (Ht _ H2). split.
        + intros p Hp. rewrite Ht by auto. by apply (Hin _ _ (rp_in _ _ _ _ _ _ _ _ _ _ H1)).
        + intros r q Hx. rewrite Ht by apply rev_not_tmp. by apply (pub_stays _ _ _ _ _ _ _ _ _ _ H1).
      - by destruct (no_turn _ _ _ _ _ _ _ _ _ _ _ _ _ _ _ _ _ Ha H1) as [Ht _], (Ht _ H2).
      - by destruct (no_turn _ _ _ _ _ _ _ _ _ _ _ _ _ _ _ _ _ Ha H1) as [Ht _], (Ht _ H2). }
    destruct Hg' as [G1 G2]. split.
    - intros p Hp. rewrite Hgg by auto. by apply G1.
    - intros r q Hx. rewrite <- rev_dir_eq in *. rewrite Hgg by done. apply G2. by rewrite Hown.
  Qed.

  Lemma blocked_front g : c_rsync_disable c = false -> g ∈ instants c e f -> front_phase c base name e f g.
  Proof using Hs Hpl Hb.
    intros Hen%enabled Hg. apply (instant_phase c base name e f Hs) in Hg.
    assert (Hnn : forall st n0 n sg f1 v st' f2 cb st2 f3 f4, ~ at_notify c base name e f st n0 n sg f1 v st' f2 cb st2 f3 f4).
    { intros st n0 n sg f1 v st' f2 cb st2 f3 f4 Hn.
      destruct (an_step _ _ _ _ _ _ _ _ _ _ _ _ _ _ _ _ _ Hn Hen) as (snap & rs & g1 & b & els & g2 & g3 & rs1 & cy & g4 & Hd).
      pose proof (an_rsync _ _ _ _ _ _ _ _ _ _ _ _ _ _ _ _ _ Hn) as Ha.
      destruct (no_turn _ _ _ _ _ _ _ _ _ _ _ _ _ _ _ _ _ Ha (rd_pub _ _ _ _ _ _ _ _ _ _ _ _ _ _ _ Hd)) as [Ht _].
      apply (Ht _ (rd_turn _ _ _ _ _ _ _ _ _ _ _ _ _ _ _ Hd)). }
    destruct Hg as [H|st n0 n sg f1 v st' f2 cb st2 f3 f4 n' H1 H2 H3|st n0 n sg f1 v st' f2 cb st2 f3 f4 n' f5 H1 H2]; [done| |].
    - by apply Hnn in H1.
    - exfalso. eapply Hnn, H1.
  Qed.
End run.

Lemma blocked_plain c f : blocked c f -> plain_record c f.
Proof. intros (_ & rs & [[E _]|(b & m & E & _)] & _) t; congruence. Qed.

(** While a mirror is blocked, no run with rsync (in either mode) changes what
    clients get, with rsync or with RRDP, nor what is recorded, and it stays
    blocked. *)
Theorem C70_blocked c base name e f :
  setting c base name e f -> c_rsync_disable c = false -> blocked c f ->
  (forall g, g ∈ instants c e f -> blocked c g /\
     forall p, p = notif_path c name \/ p = rrdp_state_path c \/ p = rsync_state_path c \/ under (current_path c) p ->
       g !! p = f !! p) /\
  (forall w, run c e f = (Ok tt, w) -> w_fs w = f).
Proof.
  intros Hset Hen Hb. pose proof (setting_sane _ _ _ _ _ Hset) as Hs. pose proof (blocked_plain _ _ Hb) as Hpl. split.
  - intros g Hg. destruct (blocked_own c base name e f Hs Hpl Hb g Hg) as [Ho Hst].
    pose proof (blocked_front c base name e f Hs Hpl Hb g Hen Hg) as Hf. split.
    + destruct Hb as (Hcur & rs & Hrec & Hw). split; [rewrite Ho; [done|right; apply under_refl]|].
      exists rs. split; [eapply recorded_same; [|exact Hrec]; apply Ho; by left|].
      destruct (rs_current rs) as [cur|]; destruct Hw as (q & Hq & Hx); exists q; (split; [done|]); [by apply Hst|].
      rewrite Ho; [done|right; apply under_app].
    + intros p [->|[->|[->|Hp]]]; [by eapply front_N; [apply Hset|exact Hs|]|by eapply front_sp; [apply Hset|exact Hs|]|apply Ho; auto..].
  - intros w Hrun. pose proof (enabled _ Hen) as Hr.
    destruct (rsync_completed c base name e f Hs w Hrun Hr)
      as [?|(st & n0 & n & sg & f1 & v & st' & f2 & cb & st2 & f3 & snap & rs' & g1 & b & els & g2 & g3 & rs1 & cy & g4 & f4 & n' & f5 & Hsv & Hsa & Hd & Hw & Hf)]; [done|exfalso].
    pose proof (an_rsync _ _ _ _ _ _ _ _ _ _ _ _ _ _ _ _ _ (as_notify _ _ _ _ _ _ _ _ _ _ _ _ _ _ _ _ _ _ _ Hsv)) as Ha.
    destruct (no_turn c base name e f Hs Hpl Hb _ _ _ _ _ _ _ _ _ _ _ _ _ _ _ _ _ Ha (rd_pub _ _ _ _ _ _ _ _ _ _ _ _ _ _ _ Hd)) as [Ht _].
    apply (Ht _ (rd_turn _ _ _ _ _ _ _ _ _ _ _ _ _ _ _ Hd)).
Qed.

(** Nor does any number of them, each completed, failed or killed anywhere. *)
Lemma blocked_places c c' f : same_places c c' -> blocked c f <-> blocked c' f.
Proof.
  intros H. pose proof (places_yp _ _ H) as E. destruct H as (_ & _ & _ & E4).
  unfold blocked, recorded_rsync, current_path, rev_dir. by rewrite E4, E.
Qed.
Theorem C70_for_good c base name f0 f :
  cfg_ok c base name -> mirror any_notif c base name f0 -> blocked c f0 -> rsync_runs c base name f0 f ->
  blocked c f /\
  forall p, p = notif_path c name \/ p = rrdp_state_path c \/ p = rsync_state_path c \/ under (current_path c) p ->
    f !! p = f0 !! p.
Proof.
  intros Hc Hm Hb Hrr.
  assert (H : mirror any_notif c base name f /\ blocked c f /\
    forall p, p = notif_path c name \/ p = rrdp_state_path c \/ p = rsync_state_path c \/ under (current_path c) p ->
     f !! p = f0 !! p); [|apply H].
  induction Hrr as [|f c' e g H (IHm & IHb & IH) Hpl Hen Hw Hg|f g H (IHm & IHb & IH) Hwf Hsame].
  - done.
  - split; [by eapply (mi_run _ _ _ _ f c' e)|].
    assert (Hset : setting c' base name e f) by (split; [by eapply places_cfg|by eapply mirror_places|done]).
    apply (blocked_places _ _ _ Hpl) in IHb.
    destruct (proj1 (C70_blocked c' base name e f Hset Hen IHb) g Hg) as [Hb' Hp']. split; [by apply (blocked_places _ _ _ Hpl)|].
    intros p Hp. rewrite <- IH by done. apply Hp'.
    rewrite (places_N c c' name Hpl), (places_sp c c' Hpl), (places_yp _ _ Hpl). unfold current_path.
    destruct Hpl as (_ & _ & _ & ->). done.
  - assert (Ho : forall p, p = notif_path c name \/ p = rrdp_state_path c \/ p = rsync_state_path c \/ under (c_rsync_dir c) p -> g !! p = f !! p).
    { intros p Hp. apply Hsame. unfold owned. destruct Hp as [->|[->|[->|Hp]]]; [right; left; apply under_app|auto..]. }
    assert (Hcu : forall p, under (current_path c) p -> under (c_rsync_dir c) p).
    { intros p. apply under_trans. rewrite <- current_eq. apply current_under. }
    split; [by eapply mi_else|]. split.
    + destruct IHb as (Hcur & rs & Hrec & Hx). split; [rewrite Ho; [done|]; do 3 right; apply Hcu, under_refl|].
      exists rs. split; [eapply recorded_same; [|exact Hrec]; apply Ho; auto|].
      destruct (rs_current rs) as [cur|]; destruct Hx as (q & Hq & Hx); exists q; (split; [done|]); rewrite Ho; try done; do 3 right.
      * rewrite <- rev_dir_eq. eapply under_trans; [apply rev_under|apply under_app].
      * apply Hcu, under_app.
    + intros p Hp. rewrite <- IH by done. apply Ho. destruct Hp as [?|[?|[?|?]]]; auto.
Qed.

(** With directory moves, a version cannot be published again: when the source
    still has the one that is recorded for rsync (the run before was interrupted
    between the two records), no run succeeds. *)
Theorem C70_retry c base name e f w rs cur :
  setting c base name e f -> c_rsync_disable c = false -> c_force_moves c = true ->
  recorded_rsync c f rs -> rs_current rs = Some cur -> f !! current_path c = Some Dir ->
  (forall n, offers c e f n -> revision_of n = cur) ->
  (forall n rel b els, snapshot_doc c base name e f n rel b els -> els <> []) ->
  run c e f = (Ok tt, w) -> w_fs w = f.
Proof.
  intros Hs%setting_sane Hr%enabled Hfm Hrec Hcur Hdir Hof Hel E.
  assert (Hpl : plain_record c f).
  { destruct Hrec as [[E' _]|(b & m & E' & _)]; intros t; congruence. }
  destruct (rsync_completed c base name e f Hs w E Hr)
    as [?|(st & n0 & n & sg & f1 & v & st' & f2 & cb & st2 & f3 & snap & rs' & g1 & b & els & g2 & g3 & rs1 & cy & g4 & f4 & n' & f5 & Hsv & Hsa & Hd & Hw & Hf)]; [done|exfalso].
  pose proof (an_rsync _ _ _ _ _ _ _ _ _ _ _ _ _ _ _ _ _ (as_notify _ _ _ _ _ _ _ _ _ _ _ _ _ _ _ _ _ _ _ Hsv)) as Ha.
  pose proof (rd_pub _ _ _ _ _ _ _ _ _ _ _ _ _ _ _ Hd) as Hp.
  destruct (published_source c base name e f Hs _ _ _ _ _ _ _ _ _ _ _ _ _ _ _ _ _ Ha Hp) as (Hsf & Hrv & Hrd).
  pose proof (run_recorded c base name e f Hs _ _ _ _ _ _ _ _ _ _ _ _ Ha Hpl (rp_start _ _ _ _ _ _ _ _ _ _ Hp)) as Hrec'.
  rewrite <- (recorded_unique _ _ _ _ Hrec Hrec') in Hd, Hp. clear rs' Hrec'.
  pose proof (source_doc _ _ _ _ _ _ _ _ _ Hsf) as Hsd.
  rewrite (Hof _ (sd_offer _ _ _ _ _ _ _ _ _ Hsd)) in Hrv.
  pose proof (rp_in _ _ _ _ _ _ _ _ _ _ Hp) as Hi.
  assert (Hch : exists q, q <> [] /\ is_Some (g2 !! (rev_path c cur ++ q))).
  { destruct els as [|[u o] els']; [by destruct (Hel _ _ _ _ Hsd)|].
    assert (Hu : clean_uri u).
    { destruct Hsf as [_ _ _ _ Hcl _]. eapply Hcl. by left. }
    exists (object_rel c u). split; [apply object_rel_ne|]. rewrite <- Hrv, <- object_path_rel by done.
    destruct (rp_tree _ _ _ _ _ _ _ _ _ _ Hp (object_path (c_include_host c) (rev_path c (rev_of snap)) u))
      as [b' m _ -> _|Hno _|u' o' Hno _ _ _ _]; [done|exfalso; by eapply (Hno u o); [left|]..]. }
  destruct Hch as (q & Hq & nd & Hch).
  assert (Hg2 : g2 !! rsync_current c = Some Dir).
  { destruct (apart_out _ _ (apart_sym _ _ (rev_current_apart c (rev_of snap)))) as [K1 K2].
    rewrite (inside_same _ _ _ _ Hi K1); [rewrite Hf; [by rewrite current_eq|]; left; apply current_under|].
    intros (k & Hk & Hb). by apply (K2 k). }
  pose proof (wf_below _ _ _ _ (proj1 Hi) Hch (below_child _ _ Hq) (rev_path_ne c cur)) as Hrd'.
  pose proof (rd_turn _ _ _ _ _ _ _ _ _ _ _ _ _ _ _ Hd) as D2. unfold turned, use_symlinks in D2. rewrite Hfm in D2. cbn [negb] in D2.
  destruct D2 as (fa & M1 & _). unfold moved_aside in M1. rewrite Hcur in M1.
  assert (Hex : fs_exists g2 (rsync_current c) = true).
  { unfold fs_exists, fs_stat. rewrite fs_get_nonroot by apply rsync_current_ne. by rewrite Hg2. }
  rewrite Hex, op_rename_onto in M1; [done|done| |apply apart_neq, apart_sym, rev_current_apart|apply rsync_current_ne|apply rev_path_ne].
  exists (rev_path c cur ++ q), nd. split; [done|by apply below_child].
Qed.

(** *** A case: the second run of the example with directory moves is killed
    after it has saved the rsync record and before it replaces the notification;
    the next run, for the same version, fails; and from then on they all do *)
Definition saved_for (r : revision) (g : fs) : bool :=
  match rsync_state_of moves_config g with Some rs => bool_decide (rs_current rs = Some r) | None => false end.
Definition between : fs := killed_when moves_config live_env moved1 (saved_for rev5).
Definition retried : fs := after (run moves_config live_env between).
Definition no_links_b (d : path) (f : fs) : bool :=
  forallb (fun kn => match kn.2 with Link _ => negb (bool_decide (d `prefix_of` kn.1)) | _ => true end) (map_to_list f).
Lemma no_links_ok d f : no_links_b d f = true -> no_links d f.
Proof.
  intros H p t Hu E. unfold no_links_b in H. rewrite forallb_forall in H.
  assert (Hin : In (p, Link t) (map_to_list f)) by (by apply elem_of_list_In, elem_of_map_to_list).
  specialize (H _ Hin). cbn in H. by rewrite bool_decide_true in H.
Qed.
Definition blocked_check (f g h : fs) (r : res unit) : bool :=
  saved_for rev5 g && at_b g (current_path moves_config) (Some Dir) &&
  bool_decide (g !! notif_path moves_config name = f !! notif_path moves_config name) && no_links_b (staging_dir moves_config) g &&
  match r with Err _ => true | _ => false end &&
  saved_for rev5 h && at_b h (current_path moves_config) (Some Dir) && at_b h (rev_dir moves_config rev5 ++ ["ca"]) (Some Dir) &&
  bool_decide (h !! notif_path moves_config name = f !! notif_path moves_config name).
Lemma saved_recorded r g : saved_for r g = true -> exists rs, recorded_rsync moves_config g rs /\ rs_current rs = Some r.
Proof.
  unfold saved_for. destruct (rsync_state_of moves_config g) as [rs|] eqn:E; [|done]. intros H%bool_decide_eq_true.
  exists rs. split; [by apply rsync_state_recorded|done].
Qed.
Lemma blocked_check_ok f g h r : blocked_check f g h r = true ->
  (exists rs, recorded_rsync moves_config g rs /\ rs_current rs = Some rev5) /\ g !! current_path moves_config = Some Dir /\
  g !! notif_path moves_config name = f !! notif_path moves_config name /\ no_links (staging_dir moves_config) g /\
  (exists x, r = Err x) /\ blocked moves_config h /\ h !! notif_path moves_config name = f !! notif_path moves_config name.
Proof.
  unfold blocked_check. rewrite !andb_true_iff. intros ((((((((H1 & H2) & H3) & H4) & H5) & H6) & H7) & H8) & H9).
  apply saved_recorded in H1, H6. apply at_ok in H2, H7, H8. apply bool_decide_eq_true in H3, H9. apply no_links_ok in H4.
  split; [done|]. split; [done|]. split; [done|]. split; [done|]. split; [destruct r; try done; by eexists|].
  split; [|done]. split; [done|]. destruct H6 as (rs & K1 & K2). exists rs. split; [done|]. rewrite K2. exists ["ca"]. split; [done|]. by rewrite H8.
Qed.
Lemma between_ok : blocked_check moved1 between retried (run moves_config live_env between).1 = true.
Proof. vme. Qed.
Lemma moves_live f n : offers moves_config live_env f n -> n = live_n.
Proof.
  intros Hn. change (offers demo_config (fixed_env live_docs 1000) f n) in Hn. apply fixed_offers in Hn as (b & H1 & H2).
  destruct live_parsed as [E1 E2]. rewrite E2 in H1. injection H1 as <-. rewrite E1 in H2. by injection H2 as <-.
Qed.
Lemma moves_live_good f : good_world moves_config base name live_env f.
Proof. split; [|apply safe_clean]. intros n ->%moves_live. apply good_check_ok. by vm_compute. Qed.
Lemma moved1_mirror : mirror any_notif moves_config base name moved1.
Proof. apply moves_setting. Qed.
Lemma moves_cfg_ok : cfg_ok moves_config base name.
Proof. apply moves_setting. Qed.
Lemma moves_places : same_places moves_config moves_config.
Proof. apply same_places_refl. Qed.
Lemma moved1_ran : exists w, run moves_config live_env moved1 = (Ok tt, w).
Proof. destruct (ran_ok moves_config live_env moved1 (fun _ => True)) as (w & E & _); [vme|done|exists w; exact E]. Qed.
Lemma live_prompt : no_faults live_env.
Proof. done. Qed.
Lemma between_instant : between ∈ instants moves_config live_env moved1.
Proof. exact (killed_instant moves_config live_env moved1 (saved_for rev5)). Qed.
Lemma retried_instant : retried ∈ instants moves_config live_env between.
Proof. exact (after_instant moves_config live_env between). Qed.
Lemma retried_after : after (run moves_config live_env between) = retried.
Proof. exact eq_refl. Qed.
Lemma live_rev : revision_of live_n = rev5.
Proof. by vm_compute. Qed.
Lemma live_els_ne : live_els <> [].
Proof. by vm_compute. Qed.
Lemma live_one : one_hash live_n.
Proof.
  intros u h h' H1 H2. pose proof live_nodup as Hn.
  apply elem_of_list_lookup in H1 as [i H1]. apply elem_of_list_lookup in H2 as [j H2].
  assert (E : i = j) by (eapply (NoDup_lookup _ i j u Hn); by rewrite list_lookup_fmap, ?H1, ?H2).
  subst j. rewrite H1 in H2. by injection H2 as <-.
Qed.
Opaque run moved1 between retried live_docs live_doc.
Lemma between_mirror : mirror any_notif moves_config base name between.
Proof.
  eapply (mi_run _ _ _ _ moved1 moves_config live_env); [exact moved1_mirror|exact moves_places|exact (moves_live_good moved1)|exact (fun _ _ => I)|exact between_instant].
Qed.
Lemma retried_mirror : mirror any_notif moves_config base name retried.
Proof.
  eapply (mi_run _ _ _ _ between moves_config live_env); [exact between_mirror|exact moves_places|exact (moves_live_good between)|exact (fun _ _ => I)|exact retried_instant].
Qed.
Lemma between_setting : setting moves_config base name live_env between.
Proof. split; [exact moves_cfg_ok|exact between_mirror|exact (moves_live_good between)]. Qed.
Lemma retried_setting : setting moves_config base name live_env retried.
Proof. split; [exact moves_cfg_ok|exact retried_mirror|exact (moves_live_good retried)]. Qed.
Lemma after_of (r : res unit) (rw : res unit * world) : rw.1 = r -> exists w, rw = (r, w) /\ after rw = w_fs w.
Proof. destruct rw as [r' w]. cbn. intros ->. by exists w. Qed.

Theorem C70_refuted : exists e f g x w,
  let c := moves_config in
  mirror any_notif c base name f /\ no_faults e /\ (exists w1, run c e f = (Ok tt, w1)) /\
  g ∈ instants c e f /\ g !! notif_path c name = f !! notif_path c name /\
  run c e g = (Err x, w) /\ blocked c (w_fs w) /\
  forall f', rsync_runs c base name (w_fs w) f' -> f' !! notif_path c name = f !! notif_path c name.
Proof.
  destruct (blocked_check_ok _ _ _ _ between_ok) as (_ & _ & H3 & _ & (x & H5) & H6 & K).
  destruct (after_of _ _ H5) as (w & E & Ew). rewrite retried_after in Ew.
  exists live_env, moved1, between, x, w. cbv zeta.
  split; [exact moved1_mirror|]. split; [exact live_prompt|]. split; [exact moved1_ran|]. split; [exact between_instant|].
  split; [exact H3|]. split; [exact E|]. rewrite <- Ew. split; [exact H6|]. intros f' Hf.
  pose proof (proj2 (C70_for_good _ _ _ _ _ moves_cfg_ok retried_mirror H6 Hf) _ (or_introl eq_refl)) as H7.
  exact (eq_trans H7 K).
Qed.

Example C70_applies : blocked moves_config retried /\ setting moves_config base name live_env retried /\
  c_rsync_disable moves_config = false.
Proof. exact (conj (proj1 (proj2 (proj2 (proj2 (proj2 (proj2 (blocked_check_ok _ _ _ _ between_ok))))))) (conj retried_setting eq_refl)). Qed.
Lemma live_honest : honest_run moves_config live_env between.
Proof.
  split; [exact (fixed_no_304 live_docs 1000)|].
  split; [exact (proj1 (proj2 (proj2 (proj2 (blocked_check_ok _ _ _ _ between_ok)))))|].
  intros n ->%moves_live. exact live_one.
Qed.
Example C70_retry_applies : exists rs, let c := moves_config in let e := live_env in let f := between in
  setting c base name e f /\ c_rsync_disable c = false /\ c_force_moves c = true /\
  recorded_rsync c f rs /\ rs_current rs = Some rev5 /\ f !! current_path c = Some Dir /\
  (forall n, offers c e f n -> revision_of n = rev5) /\
  (forall n rel b els, snapshot_doc c base name e f n rel b els -> els <> []).
Proof.
  destruct (blocked_check_ok _ _ _ _ between_ok) as ((rs & H1 & H1') & H2 & _).
  exists rs. cbv zeta. split; [exact between_setting|]. split; [exact eq_refl|]. split; [exact eq_refl|].
  split; [exact H1|]. split; [exact H1'|]. split; [exact H2|]. split.
  - intros n ->%moves_live. exact live_rev.
  - intros n rel b els [Hn _ Hd Hh]. apply moves_live in Hn as ->. specialize (Hh live_honest).
    apply live_snapshot in Hh. change (e_ext live_env) with live_ext in Hd. rewrite Hh in Hd.
    assert (E : live_els = els) by exact (f_equal fst Hd). rewrite <- E. exact live_els_ne.
Qed.
Transparent run moved1 between retried live_docs live_doc.

Print Assumptions C70_blocked.
Print Assumptions C70_for_good.
Print Assumptions C70_retry.
Print Assumptions C70_refuted.
