(** * C83: a directory in the place of the rsync link *)
From Coq Require Import ZifyN ZifyNat ZifyBool.
From Verif Require Import RsyncRun DemoRun Refuted PropsLive PropsRsync PropsHoldsRsync PropsRecord PropsOrder PropsBlocked RunView PropsHistory PropsRecover.
From Verif Require Import FsWf HistoryProofs.

(** ** Specification *)
(** any number of runs that update the rsync tree with links, each completed,
    failed or killed at any instant, with any faults and sources; in between,
    anything that is not krill-sync's can change *)
Inductive linking_runs (c : config) (base name : string) (f0 : fs) : fs -> Prop :=
| li_start : linking_runs c base name f0 f0
| li_run f c' e g : linking_runs c base name f0 f -> same_places c c' ->
    c_rsync_disable c' = false -> c_force_moves c' = false ->
    good_world c' base name e f -> g ∈ instants c' e f -> linking_runs c base name f0 g
| li_else f g : linking_runs c base name f0 f -> wf g -> (forall p, owned c p -> g !! p = f !! p) -> linking_runs c base name f0 g.
(** what clients get, and what is recorded *)
Definition shown_path (c : config) (name : string) (p : path) : Prop :=
  p = notif_path c name \/ p = rrdp_state_path c \/ p = rsync_state_path c \/ under (current_path c) p.

(** ** Proofs *)
Section run.
  Context (c : config) (base name : string) (e : env) (f : fs).
  Context (Hs : sane c base name e f) (Hfm : c_force_moves c = false) (Hd : f !! current_path c = Some Dir).
  Let Hc : cfg_ok c base name := sn_cfg _ _ _ _ _ Hs.

  Lemma no_link st n0 n sg f1 v st' f2 cb st2 f3 snap rs g1 b els g2 :
    at_rsync c base name e f st n0 n sg f1 v st' f2 cb st2 f3 ->
    rsync_pub c e st2 f3 snap rs g1 b els g2 ->
    (forall g, ~ turned c (rev_of snap) rs g2 g) /\
    forall g, turning c (rev_of snap) rs g2 g -> tmp_only c g2 g.
  Proof using Hs Hfm Hd.
    intros Ha Hp. pose proof (rp_in _ _ _ _ _ _ _ _ _ _ Hp) as Hi.
    assert (Hg2 : g2 !! rsync_current c = Some Dir).
    { transitivity (f !! rsync_current c); [|by rewrite current_eq].
      assert (Hap : apart (rsync_current c) (rev_path c (rev_of snap))) by apply apart_sym, rev_current_apart.
      destruct (apart_out _ _ Hap) as [K1 K2].
      rewrite (inside_same _ _ _ _ Hi K1) by (intros (k & Hk & Hbk); by apply (K2 k)).
      apply (own_before c base name e f Hs) with (2 := Ha). left. apply current_under. }
    unfold turned, turning, use_symlinks. rewrite Hfm. cbn [negb]. split.
    - by intros g [Hl _].
    - intros g [?|[Hl _]]; done.
  Qed.
  Lemma taken_own g : g ∈ instants c e f ->
    forall p, p = rsync_state_path c \/ under (current_path c) p -> g !! p = f !! p.
  Proof using Hs Hfm Hd.
    intros Hg.
    assert (Ho : forall p, p = rsync_state_path c \/ under (current_path c) p -> rsync_own c p).
    { intros p [->|Hp]; [by right|]. left. eapply under_trans; [|exact Hp]. rewrite <- current_eq. apply current_under. }
    destruct (rsync_instant c base name e f Hs g Hg)
      as [H|(st & n0 & n & sg & f1 & v & st' & f2 & cb & st2 & f3 & g' & Ha & Hr & Hm & Hgg)]; [auto|].
    assert (Hown : forall p, rsync_own c p -> f3 !! p = f !! p).
    { intros p Hu. by apply (own_before c base name e f Hs) with (2 := Ha). }
    assert (Hap : forall r p, p = rsync_state_path c \/ under (current_path c) p -> apart p (rev_path c r)).
    { intros r p [->|Hp]; [eapply apart_sub; [apply (ck_yp_y _ _ _ Hc)|apply rev_under]|].
      eapply apart_sub_l; [|exact Hp]. rewrite <- current_eq. apply apart_sym, rev_current_apart. }
    assert (Hin : forall r h, inside (under (rev_path c r)) f3 h ->
      forall p, p = rsync_state_path c \/ under (current_path c) p -> h !! p = f !! p).
    { intros r h Hh p Hp. rewrite <- Hown by auto. destruct (apart_out _ _ (Hap r p Hp)) as [K1 K2].
      apply (inside_same _ _ _ _ Hh K1). intros (k & Hk & Hbk). by apply (K2 k). }
    assert (Hnt : forall p, p = rsync_state_path c \/ under (current_path c) p -> p <> link_tmp c).
    { intros p [->|[q ->]]; [|apply current_not_tmp]. rewrite link_tmp_eq. intros E.
      apply (apart_disjoint _ _ (rsync_state_path c) (ck_yp_y _ _ _ Hc) (under_refl _)). rewrite E. apply under_app. }
    intros p Hp. rewrite Hgg by auto.
    destruct Hm as [->|snap H1 H2 _|snap rs g1 b els g2 H1 H2|snap rs g1 b els g2 g3 rs1 cy H1 H2 H3 H4 H5|snap rs g1 b els g2 g3 rs1 cy g4 H1 H2 H3 H4 H5 H6].
    - apply Hown; auto.
    - by apply (Hin _ _ H2).
    - destruct (no_link _ _ _ _ _ _ _ _ _ _ _ _ _ _ _ _ _ Ha H1) as [_ Ht]. rewrite (Ht _ H2) by auto.
      by apply (Hin _ _ (rp_in _ _ _ _ _ _ _ _ _ _ H1)).
    - by destruct (no_link _ _ _ _ _ _ _ _ _ _ _ _ _ _ _ _ _ Ha H1) as [Ht _], (Ht _ H2).
    - by destruct (no_link _ _ _ _ _ _ _ _ _ _ _ _ _ _ _ _ _ Ha H1) as [Ht _], (Ht _ H2).
  Qed.
  Lemma taken_front g : c_rsync_disable c = false -> g ∈ instants c e f -> front_phase c base name e f g.
  Proof using Hs Hfm Hd.
    intros Hen%enabled Hg. apply (instant_phase c base name e f Hs) in Hg.
    assert (Hnn : forall st n0 n sg f1 v st' f2 cb st2 f3 f4, ~ at_notify c base name e f st n0 n sg f1 v st' f2 cb st2 f3 f4).
    { intros st n0 n sg f1 v st' f2 cb st2 f3 f4 Hn.
      destruct (an_step _ _ _ _ _ _ _ _ _ _ _ _ _ _ _ _ _ Hn Hen) as (snap & rs & g1 & b & els & g2 & g3 & rs1 & cy & g4 & Hdn).
      pose proof (an_rsync _ _ _ _ _ _ _ _ _ _ _ _ _ _ _ _ _ Hn) as Ha.
      destruct (no_link _ _ _ _ _ _ _ _ _ _ _ _ _ _ _ _ _ Ha (rd_pub _ _ _ _ _ _ _ _ _ _ _ _ _ _ _ Hdn)) as [Ht _].
      apply (Ht _ (rd_turn _ _ _ _ _ _ _ _ _ _ _ _ _ _ _ Hdn)). }
    destruct Hg as [H|st n0 n sg f1 v st' f2 cb st2 f3 f4 n' H1 H2 H3|st n0 n sg f1 v st' f2 cb st2 f3 f4 n' f5 H1 H2]; [done| |].
    - by apply Hnn in H1.
    - exfalso. eapply Hnn, H1.
  Qed.
End run.

Lemma taken_shown c base name e f g p : sane c base name e f -> c_rsync_disable c = false -> c_force_moves c = false ->
  f !! current_path c = Some Dir -> g ∈ instants c e f -> shown_path c name p -> g !! p = f !! p.
Proof.
  intros Hs Hen Hfm Hd Hg Hp. pose proof (taken_own c base name e f Hs Hfm Hd g Hg) as Ho. pose proof (sn_cfg _ _ _ _ _ Hs) as Hc.
  pose proof (taken_front c base name e f Hs Hfm Hd g Hen Hg) as Hf.
  destruct Hp as [->|[->|[->|Hp]]]; [by eapply front_N|by eapply front_sp|apply Ho; auto..].
Qed.

(** While 'current' is a directory, no run with links changes what clients get,
    with rsync or with RRDP, nor what is recorded; and one that completes has
    changed nothing. *)
Theorem C83_taken c base name e f :
  setting c base name e f -> c_rsync_disable c = false -> c_force_moves c = false -> f !! current_path c = Some Dir ->
  (forall g p, g ∈ instants c e f -> shown_path c name p -> g !! p = f !! p) /\
  (forall w, run c e f = (Ok tt, w) -> w_fs w = f).
Proof.
  intros Hset Hen Hfm Hd. pose proof (setting_sane _ _ _ _ _ Hset) as Hs. split.
  - intros g p. by apply (taken_shown c base name e f).
  - intros w Hrun. pose proof (enabled _ Hen) as Hr.
    destruct (rsync_completed c base name e f Hs w Hrun Hr)
      as [?|(st & n0 & n & sg & f1 & v & st' & f2 & cb & st2 & f3 & snap & rs' & g1 & b & els & g2 & g3 & rs1 & cy & g4 & f4 & n' & f5 & Hsv & Hsa & Hdn & Hw & Hf)]; [done|exfalso].
    pose proof (an_rsync _ _ _ _ _ _ _ _ _ _ _ _ _ _ _ _ _ (as_notify _ _ _ _ _ _ _ _ _ _ _ _ _ _ _ _ _ _ _ Hsv)) as Ha.
    destruct (no_link c base name e f Hs Hfm Hd _ _ _ _ _ _ _ _ _ _ _ _ _ _ _ _ _ Ha (rd_pub _ _ _ _ _ _ _ _ _ _ _ _ _ _ _ Hdn)) as [Ht _].
    apply (Ht _ (rd_turn _ _ _ _ _ _ _ _ _ _ _ _ _ _ _ Hdn)).
Qed.

(** Nor does any number of them, also when it was someone else who has put the
    directory there, for instance because a copy of the tree was restored in which
    the link had become a directory: of krill-sync's own files only the RRDP state
    has to be as it was. *)
Theorem C83_for_good c base name f0 f g :
  cfg_ok c base name -> mirror any_notif c base name f0 -> wf f -> f !! rrdp_state_path c = f0 !! rrdp_state_path c ->
  f !! current_path c = Some Dir -> linking_runs c base name f g ->
  forall p, shown_path c name p -> g !! p = f !! p.
Proof.
  intros Hc Hm Hwf0 Esp Hd Hr.
  assert (Hown : own_tree c base name f) by (eapply own_else; [by eapply mirror_own|done|done]).
  enough (own_tree c base name g /\ forall p, shown_path c name p -> g !! p = f !! p) by tauto.
  induction Hr as [|g c' e h H (IHm & IH) Hpl Hen Hfm [Hw1 Hw2] Hg|g h H (IHm & IH) Hwf Ho]; [done| |].
  - assert (Hs : sane c' base name e g) by (split; [by eapply places_cfg|by eapply own_to|done|done]).
    split; [apply (own_back c c' base name Hpl), (phase_own c' base name e g Hs); by apply instant_phase|].
    assert (Hsh : forall p, shown_path c' name p <-> shown_path c name p).
    { intros p. unfold shown_path, current_path. rewrite (places_N c c' name Hpl), (places_sp c c' Hpl), (places_yp _ _ Hpl).
      destruct Hpl as (_ & _ & _ & ->). done. }
    assert (Hd' : g !! current_path c' = Some Dir).
    { assert (Ecp : current_path c' = current_path c) by (unfold current_path; by destruct Hpl as (_ & _ & _ & ->)).
      rewrite Ecp, <- Hd. apply IH. do 3 right. apply under_refl. }
    intros p Hp. rewrite <- IH by done. apply (taken_shown c' base name e g); [done..|by apply Hsh].
  - split; [eapply own_else; [exact IHm|done|]; apply Ho, owned_sp|].
    intros p Hp. rewrite <- IH by done. apply Ho. unfold owned.
    destruct Hp as [->|[->|[->|Hp]]]; [right; left; apply under_app|auto..]. right. right. left.
    eapply under_trans; [|exact Hp]. rewrite <- current_eq. apply current_under.
Qed.

(** ** Examples *)
(** the mirror has published twice; then it is copied in a way that turns the
    link into a directory *)
Definition copied_b (f : fs) : fs := <[current_path demo_config ++ ["5.roa"] := File "r5" None]> (<[current_path demo_config := Dir]> f).
Definition copied : fs := copied_b (tree3 2).
(** a directory that was there before krill-sync *)
Definition other_tree : fs :=
  <[current_path demo_config ++ ["x"] := File "x" None]> (<[current_path demo_config := Dir]> (<[c_rsync_dir demo_config := Dir]> start_tree)).
Definition not_ok_b (r : res unit * world) : bool := match r.1 with Ok _ => false | _ => true end.
Lemma not_ok_b_ok r : not_ok_b r = true -> forall w, r <> (Ok tt, w).
Proof. by intros H w ->. Qed.
Definition taken_b (f h o : fs) : bool :=
  at_b h (current_path demo_config) (Some Dir) && at_b h (rrdp_state_path demo_config) (f !! rrdp_state_path demo_config) &&
  wf_check h && negb (at_b h (notif_path demo_config name) None) &&
  at_b o (current_path demo_config) (Some Dir) && at_b o (rrdp_state_path demo_config) None && wf_check o &&
  ok_b (run demo_config (env3 2) f) && not_ok_b (run demo_config (env3 2) h) && not_ok_b (run demo_config (env3 0) o).
Lemma taken_checked : taken_b (tree3 2) copied other_tree = true.
Proof. vme. Qed.
Lemma taken_facts f h o : taken_b f h o = true ->
  (h !! current_path demo_config = Some Dir /\ h !! rrdp_state_path demo_config = f !! rrdp_state_path demo_config /\ wf h /\
   h !! notif_path demo_config name <> None) /\
  (o !! current_path demo_config = Some Dir /\ o !! rrdp_state_path demo_config = None /\ wf o) /\
  (exists w, run demo_config (env3 2) f = (Ok tt, w)) /\ (forall w, run demo_config (env3 2) h <> (Ok tt, w)) /\
  (forall w, run demo_config (env3 0) o <> (Ok tt, w)).
Proof.
  unfold taken_b. intros [[[[[[[[[H1%at_ok H2%at_ok]%andb_true_iff H3%wf_check_ok]%andb_true_iff H4%there_ok]%andb_true_iff H5%at_ok]%andb_true_iff
    H6%at_ok]%andb_true_iff H7%wf_check_ok]%andb_true_iff H8]%andb_true_iff H9]%andb_true_iff H10]%andb_true_iff.
  apply ok_b_ok in H8 as (w & H8 & _).
  exact (conj (conj H1 (conj H2 (conj H3 H4))) (conj (conj H5 (conj H6 H7)) (conj (ex_intro _ w H8) (conj (not_ok_b_ok _ H9) (not_ok_b_ok _ H10))))).
Qed.
Opaque run.
Lemma copied_runs : linking_runs demo_config base name copied (after (run demo_config (env3 2) copied)).
Proof.
  exact (li_run _ _ _ _ copied demo_config (env3 2) _ (li_start _ _ _ _) (same_places_refl _) eq_refl eq_refl
    (env3_good 2 copied (le_n 2)) (after_instant _ _ _)).
Qed.
Example C83_applies :
  cfg_ok demo_config base name /\ mirror any_notif demo_config base name (tree3 2) /\
  linking_runs demo_config base name copied (after (run demo_config (env3 2) copied)) /\
  setting demo_config base name (env3 0) other_tree /\ c_rsync_disable demo_config = false /\ c_force_moves demo_config = false /\
  (copied !! current_path demo_config = Some Dir /\ copied !! rrdp_state_path demo_config = tree3 2 !! rrdp_state_path demo_config /\
   wf copied /\ copied !! notif_path demo_config name <> None) /\
  (other_tree !! current_path demo_config = Some Dir /\ other_tree !! rrdp_state_path demo_config = None /\ wf other_tree) /\
  (exists w, run demo_config (env3 2) (tree3 2) = (Ok tt, w)) /\ (forall w, run demo_config (env3 2) copied <> (Ok tt, w)) /\
  (forall w, run demo_config (env3 0) other_tree <> (Ok tt, w)).
Proof.
  pose proof (taken_facts _ _ _ taken_checked) as H. destruct (proj1 (proj2 H)) as (_ & H2 & H3).
  exact (conj demo_cfg_ok (conj (mirror3 2 (le_S _ _ (le_n 2))) (conj copied_runs
    (conj (Build_setting _ _ _ _ _ demo_cfg_ok (mi_start _ _ _ _ _ H3 H2) (env3_good 0 other_tree (le_S _ _ (le_S _ _ (le_n 0)))))
      (conj eq_refl (conj eq_refl H)))))).
Qed.
Transparent run.
Print Assumptions C83_taken.
Print Assumptions C83_for_good.
