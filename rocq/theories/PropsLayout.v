(** * C84: what changing --rsync-include-host does *)
From Coq Require Import ZifyN ZifyNat ZifyBool.
From Verif Require Import RsyncRun DemoRun Refuted PropsLive PropsRsync PropsHoldsRsync PropsRecord PropsBlocked PropsHistory PropsRecover.
From Verif Require Import FsWf HistoryProofs.

(** ** Specification *)
(** the same settings, with or without host names in the rsync tree *)
Definition with_host (c : config) (h : bool) : config := {|
  c_verbose := c_verbose c; c_quiet := c_quiet c; c_state_dir := c_state_dir c;
  c_rrdp_dir := c_rrdp_dir c; c_notify_delay := c_notify_delay c; c_max_deltas := c_max_deltas c;
  c_rsync_dir := c_rsync_dir c; c_force_moves := c_force_moves c; c_rsync_disable := c_rsync_disable c;
  c_include_host := h; c_cleanup_after := c_cleanup_after c; c_insecure := c_insecure c;
  c_notif_uri := c_notif_uri c; c_source_base := c_source_base c; c_fetch_map := c_fetch_map c;
  c_tal_files := c_tal_files c; c_scripts := c_scripts c; c_reject := c_reject c; c_offline := c_offline c |}.
(** where an object is in such a tree *)
Definition object_place (h : bool) (u : rsync_uri) : path :=
  (if h then [ru_auth u; ru_module u] else []) ++ split_on slash (ru_path u).

(** ** Proofs *)
Section run.
  Context (c : config) (base name : string) (e : env) (f : fs) (Hs : sane c base name e f) (Hfm : c_force_moves c = false).
  Context (r : revision) (Hnot : forall n, offers c e f n -> revision_of n <> r).
  Lemma kept_or_gone g p : g ∈ instants c e f -> under (rev_dir c r) p -> g !! p = f !! p \/ g !! p = None.
  Proof using Hs Hfm Hnot.
    intros Hg Hp. assert (Hpo : rsync_own c p) by (left; eapply under_trans; [|exact Hp]; apply under_app).
    destruct (rsync_instant c base name e f Hs g Hg)
      as [H|(st & n0 & n & sg & f1 & v & st' & f2 & cb & st2 & f3 & g' & Ha & Hr & Hm & Hgg)]; [auto|].
    rewrite (Hgg _ Hpo). rewrite <- (own_before c base name e f Hs _ _ _ _ _ _ _ _ _ _ _ _ Hpo Ha).
    rewrite <- rev_dir_eq in Hp.
    assert (Hne : forall snap, st_snap st2 = Some snap -> rev_of snap <> r).
    { intros snap Hsn. destruct (step_rev c base name e f _ _ _ _ _ _ _ _ _ _ _ _ Ha Hsn) as (Ho & Hrv & _).
      rewrite Hrv. by apply Hnot. }
    assert (Hcu : ~ under (rsync_current c) p).
    { intros Hu. by apply (apart_disjoint _ _ p (rev_current_apart c r)). }
    assert (Htm : p <> link_tmp c).
    { intros ->. apply (apart_disjoint _ _ (link_tmp c) (rev_tmp_apart c r)); [done|apply under_refl]. }
    assert (Hin : forall snap h, st_snap st2 = Some snap -> inside (under (rev_path c (rev_of snap))) f3 h -> h !! p = f3 !! p).
    { intros snap h Hsn Hh. pose proof (revs_apart c _ _ (Hne _ Hsn)) as Ha'.
      assert (Hap : apart p (rev_path c (rev_of snap))) by (eapply apart_sub_l; [apply apart_sym, Ha'|exact Hp]).
      destruct (apart_out _ _ Hap) as [K1 K2]. apply (inside_same _ _ _ _ Hh); [done|]. intros (q & Hq & Hb). by apply (K2 q). }
    assert (Htu : forall snap rs h h', turning c (rev_of snap) rs h h' -> h' !! p = h !! p).
    { intros snap rs h h' H. unfold turning in H. rewrite (symlinks c Hfm) in H.
      destruct H as [H|[_ ->]]; [by apply H|]. rewrite lookup_insert_ne, lookup_delete_ne; [done|congruence|].
      intros <-. apply Hcu, under_refl. }
    destruct Hm as [->|snap H1 H2 _|snap rs g1 b els g2 H1 H2|snap rs g1 b els g2 g3 rs1 cy H1 H2 H3 H4 H5|snap rs g1 b els g2 g3 rs1 cy g4 H1 H2 H3 H4 H5 H6].
    - by left.
    - left. by eapply Hin.
    - left. rewrite (Htu _ _ _ _ H2). by eapply Hin; apply H1.
    - destruct (H5 p) as [E|[E _]]; [|by right]. left. rewrite E, (Htu _ _ _ _ (turned_turning c _ _ _ _ H2)). by eapply Hin; apply H1.
    - assert (Hpu : under (c_rsync_dir c) p) by (eapply under_trans; [apply rev_under|exact Hp]).
      rewrite (saving_dir c base name e f Hs _ _ _ _ H6 Hpu).
      destruct (H5 p) as [E|[E _]]; [|by right]. left. rewrite E, (Htu _ _ _ _ (turned_turning c _ _ _ _ H2)). by eapply Hin; apply H1.
  Qed.
End run.

(** The option has no effect on trees that are there: at every instant of every
    run, with the option changed or not, each file of a tree of another version
    than the source's is where it was, as it was, or gone. *)
Theorem C84_others c base name h e f g r p :
  cfg_ok c base name -> mirror any_notif c base name f -> c_force_moves c = false -> good_world (with_host c h) base name e f ->
  g ∈ instants (with_host c h) e f -> (forall n, offers (with_host c h) e f n -> revision_of n <> r) ->
  under (rev_dir c r) p -> g !! p = f !! p \/ g !! p = None.
Proof.
  intros Hc Hm Hfm Hw Hg Hno Hp. assert (Hsp : same_places c (with_host c h)) by (by repeat split).
  assert (Hset : setting (with_host c h) base name e f) by (split; [by eapply places_cfg|by eapply mirror_places|done]).
  by apply (kept_or_gone (with_host c h) base name e f (setting_sane _ _ _ _ _ Hset) Hfm r Hno).
Qed.

(** The first completed run that publishes a version for which there is no
    directory yet serves it in the new layout, and in no other. *)
Theorem C84_next_version c base name h e f w :
  cfg_ok c base name -> mirror any_notif c base name f -> c_rsync_disable c = false -> good_world (with_host c h) base name e f ->
  new_revisions (with_host c h) e f -> run (with_host c h) e f = (Ok tt, w) ->
  w_fs w = f \/
  exists n rel b els root, snapshot_doc (with_host c h) base name e f n rel b els /\
    announces c name (e_ext e) (w_fs w) n /\ serves c (w_fs w) root /\
    holds_exactly (with_host c h) els (w_fs w) root /\
    (forall q b' m, w_fs w !! (root ++ q) = Some (File b' m) -> exists u o, (u, o) ∈ els /\ q = object_place h u).
Proof.
  intros Hc Hm Hd Hw Hn Hrun. assert (Hsp : same_places c (with_host c h)) by (by repeat split).
  assert (Hset : setting (with_host c h) base name e f) by (split; [by eapply places_cfg|by eapply mirror_places|done]).
  destruct (C18_rsync_tree _ _ _ _ _ _ Hset Hd Hn Hrun) as [?|(n & rel & b & els & root & H1 & H2 & _ & H4 & H5)]; [by left|right].
  exists n, rel, b, els, root. split; [done|]. split; [exact H2|]. split; [exact H4|].
  split; [exact H5|]. intros q b' m E. destruct (proj1 (proj1 H5 q b')) as (l1 & u & l2 & -> & <- & _); [by exists m|].
  exists u, (Some b'). split; [apply elem_of_app; right; by left|done].
Qed.

(** With a directory that a killed run has left for the version, the tree that is
    served can have both layouts: here a run without host names is killed when it
    has written the objects, and the next one, with host names, completes. *)
Definition wrote5 : fs := killed_when demo_config (env3 1) (tree3 1)
  (fun g => match g !! (rev_dir demo_config rev5 ++ ["ca"; "5.roa"]) with Some (File _ _) => true | _ => false end).
Definition both_layouts (c : config) (g : fs) : Prop :=
  exists root u b m b' m', serves c g root /\
    g !! (root ++ object_place false u) = Some (File b m) /\ g !! (root ++ object_place true u) = Some (File b' m').
Lemma host_good c h base name e f : good_world c base name e f -> good_world (with_host c h) base name e f.
Proof. intros [H1 H2]. split; [exact H1|exact H2]. Qed.
Lemma host_places c h : same_places c (with_host c h).
Proof. by repeat split. Qed.
Lemma host_setting c h base name e f : setting c base name e f -> setting (with_host c h) base name e f.
Proof.
  intros [H1 H2 H3]. pose proof (host_places c h) as Hp. split; [by eapply places_cfg|by eapply mirror_places|by apply host_good].
Qed.
Definition uri5 : rsync_uri := mkRsync "h" "mod" "ca/5.roa".
Definition file_b (nd : option node) : bool := match nd with Some (File _ _) => true | _ => false end.
Lemma file_ok nd : file_b nd = true -> exists b m, nd = Some (File b m).
Proof. destruct nd as [[b m| |]|]; try done. intros _. by exists b, m. Qed.
Definition mixed_b (r : res unit * world) : bool :=
  ok_b r && at_b (after r) (current_path demo_config) (Some (Link (dir_name rev5))) &&
  file_b (after r !! (rev_dir demo_config rev5 ++ object_place false uri5)) &&
  file_b (after r !! (rev_dir demo_config rev5 ++ object_place true uri5)).
Lemma mixed_facts r : mixed_b r = true -> exists w, r = (Ok tt, w) /\ both_layouts demo_config (w_fs w).
Proof.
  unfold mixed_b. intros [[[(w & H1 & E)%ok_b_ok H2%at_ok]%andb_true_iff H3%file_ok]%andb_true_iff H4%file_ok]%andb_true_iff.
  exists w. split; [exact H1|]. rewrite E. destruct H3 as (b & m & H3), H4 as (b' & m' & H4).
  exists (rev_dir demo_config rev5), uri5, b, m, b', m'. split; [|split; [exact H3|exact H4]].
  exists (dir_name rev5). split; [exact H2|reflexivity].
Qed.
Lemma mixed_checked : mixed_b (run (with_host demo_config true) (env3 1) wrote5) = true.
Proof. vme. Qed.
Definition changed_b (r : res unit * world) : bool :=
  ok_b r && at_b (after r) (rev_dir demo_config rev5 ++ object_place false uri5) None &&
  file_b (after r !! (rev_dir demo_config rev5 ++ object_place true uri5)) &&
  file_b (after r !! (rev_dir demo_config rev3 ++ ["ca"; "3.roa"])).
Lemma changed_facts r : changed_b r = true -> exists w b m b' m', r = (Ok tt, w) /\
  w_fs w !! (rev_dir demo_config rev5 ++ object_place false uri5) = None /\
  w_fs w !! (rev_dir demo_config rev5 ++ object_place true uri5) = Some (File b m) /\
  w_fs w !! (rev_dir demo_config rev3 ++ ["ca"; "3.roa"]) = Some (File b' m').
Proof.
  unfold changed_b. intros [[[(w & H1 & E)%ok_b_ok H2%at_ok]%andb_true_iff H3%file_ok]%andb_true_iff H4%file_ok]%andb_true_iff.
  destruct H3 as (b & m & H3), H4 as (b' & m' & H4). exists w, b, m, b', m'. rewrite E. exact (conj H1 (conj H2 (conj H3 H4))).
Qed.
Lemma changed_checked : changed_b (run (with_host demo_config true) (env3 1) (tree3 1)) = true.
Proof. vme. Qed.
Lemma changed_fresh : fresh_check demo_config (tree3 1) rev5 = true.
Proof. vme. Qed.
Opaque run.
Lemma wrote5_mirror : mirror any_notif demo_config base name wrote5.
Proof.
  exact (mi_run _ _ _ _ (tree3 1) demo_config (env3 1) wrote5 (mirror3 1 (le_S _ _ (le_S _ _ (le_n 1)))) (same_places_refl _)
    (env3_good 1 (tree3 1) (le_S _ _ (le_n 1))) (fun _ _ => I) (killed_instant _ _ _ _)).
Qed.
Theorem C84_mixed_refuted : exists e f g w,
  setting demo_config base name e f /\ g ∈ instants demo_config e f /\ setting (with_host demo_config true) base name e g /\
  run (with_host demo_config true) e g = (Ok tt, w) /\ both_layouts demo_config (w_fs w).
Proof.
  destruct (mixed_facts _ mixed_checked) as (w & H1 & H2). exists (env3 1), (tree3 1), wrote5, w.
  exact (conj (setting3 1 (le_S _ _ (le_n 1))) (conj (killed_instant _ _ _ _)
    (conj (host_setting _ true _ _ _ _ (Build_setting _ _ _ _ _ demo_cfg_ok wrote5_mirror (env3_good 1 wrote5 (le_S _ _ (le_n 1))))) (conj H1 H2)))).
Qed.

(** ** Examples *)
(** serial 3 is served without host names; then the option is given, and the
    source has serial 5 *)
Lemma host_new : new_revisions (with_host demo_config true) (env3 1) (tree3 1).
Proof.
  destruct (fresh_ok _ _ _ changed_fresh) as (H1 & H2 & H3). split; [exact H1|]. intros n Hn.
  assert (E : revision_of n = rev5) by (rewrite (env3_offers 1 (tree3 1) n (le_S _ _ (le_n 1)) Hn); reflexivity).
  rewrite E. exact (conj H2 H3).
Qed.
Example C84_applies : cfg_ok demo_config base name /\ mirror any_notif demo_config base name (tree3 1) /\
  c_force_moves demo_config = false /\ c_rsync_disable demo_config = false /\
  good_world (with_host demo_config true) base name (env3 1) (tree3 1) /\
  new_revisions (with_host demo_config true) (env3 1) (tree3 1) /\
  (forall n, offers (with_host demo_config true) (env3 1) (tree3 1) n -> revision_of n <> rev3) /\
  exists w b m b' m', run (with_host demo_config true) (env3 1) (tree3 1) = (Ok tt, w) /\
    w_fs w !! (rev_dir demo_config rev5 ++ object_place false uri5) = None /\
    w_fs w !! (rev_dir demo_config rev5 ++ object_place true uri5) = Some (File b m) /\
    w_fs w !! (rev_dir demo_config rev3 ++ ["ca"; "3.roa"]) = Some (File b' m').
Proof.
  split; [exact demo_cfg_ok|]. split; [exact (mirror3 1 (le_S _ _ (le_S _ _ (le_n 1))))|]. split; [reflexivity|]. split; [reflexivity|].
  split; [exact (host_good _ true _ _ _ _ (env3_good 1 (tree3 1) (le_S _ _ (le_n 1))))|]. split; [exact host_new|].
  split; [|exact (changed_facts _ changed_checked)].
  intros n Hn E. rewrite (env3_offers 1 (tree3 1) n (le_S _ _ (le_n 1)) Hn) in E. discriminate E.
Qed.
Transparent run.
Print Assumptions C84_others.
Print Assumptions C84_next_version.
Print Assumptions C84_mixed_refuted.
