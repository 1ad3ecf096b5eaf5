(** * C80: what runs do when the rsync directory is changed *)
From Coq Require Import ZifyN ZifyNat ZifyBool.
From Verif Require Import PropsRun PropsHistory RsyncRun DemoRun Refuted PropsRsync PropsSource.
From Verif Require Import FsWf HistoryProofs.

(** ** Specification *)
(** the same settings, but with this rsync directory *)
Definition with_rsync_dir (c : config) (dir : path) : config := {|
  c_verbose := c_verbose c; c_quiet := c_quiet c; c_state_dir := c_state_dir c;
  c_rrdp_dir := c_rrdp_dir c; c_notify_delay := c_notify_delay c; c_max_deltas := c_max_deltas c;
  c_rsync_dir := dir; c_force_moves := c_force_moves c; c_rsync_disable := c_rsync_disable c;
  c_include_host := c_include_host c; c_cleanup_after := c_cleanup_after c; c_insecure := c_insecure c;
  c_notif_uri := c_notif_uri c; c_source_base := c_source_base c; c_fetch_map := c_fetch_map c;
  c_tal_files := c_tal_files c; c_scripts := c_scripts c; c_reject := c_reject c; c_offline := c_offline c |}.
(** Runs with the directories of [c], from the tree [f] on: completed, failed or
    killed at any instant, with other options as they like.  In between, others
    may change what krill-sync does not own, except in [keep]. *)
Inductive runs_on (c : config) (base name : string) (keep : path) (f : fs) : fs -> Prop :=
| ro_start : runs_on c base name keep f f
| ro_run g c' e h : runs_on c base name keep f g -> same_places c c' -> good_world c' base name e g ->
    h ∈ instants c' e g -> runs_on c base name keep f h
| ro_else g h : runs_on c base name keep f g -> wf h -> (forall p, owned c p \/ under keep p -> h !! p = g !! p) ->
    runs_on c base name keep f h.

(** ** Proofs *)
Lemma own_rsync_dir c dir base name f : own_tree c base name f -> own_tree (with_rsync_dir c dir) base name f.
Proof. intros (H1 & H2 & H3). split; [done|]. split; [done|]. intros st Hst. destruct (H3 st Hst). by split. Qed.

(** Nothing at or below the old directory is changed ever after: what is served
    there stays as it is, and the trees kept there are never removed. *)
Theorem C80_left_alone c dir base name f g p :
  let c' := with_rsync_dir c dir in
  cfg_ok c base name -> cfg_ok c' base name -> apart dir (c_rsync_dir c) ->
  mirror any_notif c base name f -> runs_on c' base name (c_rsync_dir c) f g ->
  under (c_rsync_dir c) p -> g !! p = f !! p.
Proof.
  intros c' Hc Hc' Hap Hm Hr Hp.
  assert (Hown : own_tree c' base name f) by (apply own_rsync_dir; by eapply mirror_own).
  enough (own_tree c' base name g /\ g !! p = f !! p) by tauto.
  induction Hr as [|g c2 e h Hr [IH1 IH2] Hsp [Hw1 Hw2] Hh|g h Hr [IH1 IH2] Hwf Ho]; [done| |].
  - assert (Hs : sane c2 base name e g) by (split; [by eapply places_cfg|by eapply own_to|done|done]).
    apply (instant_phase c2 base name e g Hs) in Hh. split.
    { apply (own_back c' c2 base name Hsp). by apply (phase_own c2 base name e g Hs). }
    rewrite <- IH2. apply (phase_frame c2 base name e g Hs) in Hh. destruct Hsp as (E1 & E2 & E3 & E4).
    assert (Hpa : forall d, apart d (c_rsync_dir c) -> apart p d) by (intros d Hd; eapply apart_sub_l; [apply apart_sym, Hd|done]).
    assert (A1 : apart p (staging_dir c)) by apply Hpa, (ck_s_y _ _ _ Hc).
    assert (A2 : apart p (c_rrdp_dir c)) by apply Hpa, (ck_r_y _ _ _ Hc).
    assert (A3 : apart p dir) by by apply Hpa.
    assert (A4 : apart p (rrdp_state_path c)) by apply Hpa, (ck_sp_y _ _ _ Hc).
    assert (A5 : apart p (rsync_state_path c)) by apply Hpa, (ck_yp_y _ _ _ Hc).
    unfold owned, staging_dir, rrdp_state_path, rsync_state_path in Hh. rewrite E2, E3, E4 in Hh.
    apply (inside_same _ _ _ _ Hh).
    + intros [H|[H|[H|[->| ->]]]].
      * by apply (apart_out _ _ A1).
      * by apply (apart_out _ _ A2).
      * by apply (apart_out _ _ A3).
      * by apply apart_neq in A4.
      * by apply apart_neq in A5.
    + intros (q & [H|[H|[H|[->| ->]]]] & Hb).
      * by apply (proj2 (apart_out _ _ A1) q).
      * by apply (proj2 (apart_out _ _ A2) q).
      * by apply (proj2 (apart_out _ _ A3) q).
      * by apply (proj2 (apart_out _ _ A4) (rrdp_state_path c) (under_refl _)).
      * by apply (proj2 (apart_out _ _ A5) (rsync_state_path c) (under_refl _)).
  - split; [|rewrite Ho by auto; done]. eapply own_else; [exact IH1|done|]. apply Ho. left. apply owned_sp.
Qed.

(** The new directory is not filled before the source has a new version. *)
Theorem C80_not_before c dir base name e f g p :
  let c' := with_rsync_dir c dir in
  cfg_ok c' base name -> setting c base name e f ->
  g ∈ instants c' e f -> under dir p -> g !! p <> f !! p ->
  exists st n0 n, starts_from c base name f st /\ takes c e f n0 n /\
    forall s, st_snap st = Some s -> ss_session s <> n_session n \/ (ss_serial s < n_serial n)%N.
Proof.
  intros c' Hc' [Hc Hm [Hw1 Hw2]] Hg Hp Hne.
  assert (Hs : sane c' base name e f).
  { split; [done| |done|done]. apply own_rsync_dir. by eapply mirror_own. }
  destruct (rsync_instant c' base name e f Hs g Hg)
    as [H|(st & n0 & n & sg & f1 & v & st' & f2 & cb & st2 & f3 & g' & Ha & _)]; [destruct Hne; apply H; by left|].
  destruct (ac_move _ _ _ _ _ _ _ _ _ _ _ _ _ (ar_clean _ _ _ _ _ _ _ _ _ _ _ _ _ _ _ _ Ha)) as [Hst [Hso Hcv _ _ _] _ _].
  exists st, n0, n. split; [exact Hst|]. split; [exact (source_takes c' e f n0 n Hso)|].
  intros s Es. unfold compare_version in Hcv. rewrite Es in Hcv. case_bool_decide as E; [|by left].
  right. cbn in Hcv. by destruct (N.compare_spec (ss_serial s) (n_serial n)).
Qed.

(** The first run that publishes a new version serves it from there. *)
Theorem C80_next_version c dir base name e f w :
  let c' := with_rsync_dir c dir in
  cfg_ok c' base name -> setting c base name e f -> c_rsync_disable c = false -> plain_record c f ->
  (forall n, offers c e f n -> unseen c f (revision_of n)) -> (forall p, under dir p -> f !! p = None) ->
  run c' e f = (Ok tt, w) ->
  w_fs w = f \/
  exists n rel b els root, snapshot_doc c base name e f n rel b els /\
    announces c name (e_ext e) (w_fs w) n /\
    serves c' (w_fs w) root /\ under dir root /\ holds_exactly c els (w_fs w) root.
Proof.
  intros c' Hc' [Hc Hm [Hw1 Hw2]] Hr Hpl Hun Hnone E.
  assert (Hs : sane c' base name e f).
  { split; [done| |done|done]. apply own_rsync_dir. by eapply mirror_own. }
  assert (Hn : new_revisions c' e f).
  { split; [done|]. intros n Hn. split; [exact (Hun n Hn)|]. intros p Hp. apply Hnone. eapply under_trans; [|exact Hp]. apply under_app. }
  destruct (new_retried _ _ _ Hn) as [Hn1 Hn2]. apply (enabled c') in Hr.
  destruct (rsync_result c' base name e f Hs w Hr Hn1 Hn2 E) as [H|(n & n' & rel & b & els & root & H1 & H2 & H3 & H4 & H5 & H6)]; [by left|right].
  exists n, rel, b, els, root. split; [by destruct (source_doc _ _ _ _ _ _ _ _ _ H1)|]. split; [by exists n', None|]. split; [done|]. split.
  { unfold serves in H5. cbn [c' with_rsync_dir c_force_moves c_rsync_dir] in H5. destruct (c_force_moves c); [subst root; apply under_app|].
    destruct H5 as (d & _ & ->). apply under_app. }
  assert (Hx : holds_exactly c' els (w_fs w) root) by (eapply new_exact; [apply Hn, H1|done]). exact Hx.
Qed.

(** ** Examples *)
Definition moved : config := with_rsync_dir demo_config ["srv"; "rsync2"].
Lemma moved_ok : cfg_ok moved base name.
Proof. split; try (vm_compute; done); try (by repeat constructor); (split; intros [k Hk]; vm_compute in Hk; done). Qed.
(** the third version, much later *)
Definition late3 : env := run_env (docs3 2) 100000.
Lemma late3_good f : good_world demo_config base name late3 f.
Proof. split; [|apply safe_clean]. intros n ->%docs3_offers; [apply src3_good|lia]. Qed.
(** the two runs, with the new directory and with the old one *)
Definition moved1 : fs := after (run moved (env3 1) (tree3 1)).
Definition moved2 : fs := after (run moved late3 moved1).
Definition stayed2 : fs := after (run demo_config late3 (tree3 2)).
Definition moved_b (f : fs) (r : res unit * world) (m2 s2 : fs) : bool :=
  unseen_check demo_config f rev5 && bool_decide (map_Forall (fun p _ => ~ ["srv"; "rsync2"] `prefix_of` p) f) &&
  ok_b r && bool_decide (w_fs r.2 !! current_path moved = Some (Link (dir_name rev5))) &&
  bool_decide (f !! current_path demo_config = Some (Link (dir_name rev3))) &&
  bool_decide (m2 !! rev_dir demo_config rev3 = Some Dir) && none_b s2 (rev_dir demo_config rev3) &&
  negb (bool_decide (m2 !! current_path moved = Some (Link (dir_name rev5)))).
Lemma moved_checked : moved_b (tree3 1) (run moved (env3 1) (tree3 1)) moved2 stayed2 = true.
Proof. vme. Qed.
Lemma moved_facts f r m2 s2 : moved_b f r m2 s2 = true ->
  plain_record demo_config f /\ unseen demo_config f rev5 /\ (forall p, under ["srv"; "rsync2"] p -> f !! p = None) /\
  (exists w, r = (Ok tt, w) /\ w_fs w !! current_path moved = Some (Link (dir_name rev5))) /\
  f !! current_path demo_config = Some (Link (dir_name rev3)) /\
  m2 !! rev_dir demo_config rev3 = Some Dir /\ s2 !! rev_dir demo_config rev3 = None /\
  m2 !! current_path moved <> Some (Link (dir_name rev5)).
Proof.
  unfold moved_b. intros [[[[[[[H1 H2]%andb_true_iff H3]%andb_true_iff H4]%andb_true_iff H5]%andb_true_iff H6]%andb_true_iff H7]%andb_true_iff H8]%andb_true_iff.
  apply bool_decide_eq_true in H2, H4, H5, H6. apply negb_true_iff, bool_decide_eq_false in H8.
  split; [|split; [|split; [|split; [|split; [done|split; [done|split; [|done]]]]]]].
  - intros t E. unfold unseen_check in H1. by rewrite E in H1.
  - unfold unseen_check in H1. intros rs [[E ->]|(b & m & E & Hp)]; [split; [done|]; intros o Ho; by apply elem_of_nil in Ho|].
    rewrite E, Hp in H1. apply andb_true_iff in H1 as [K1 K2]. apply negb_true_iff, bool_decide_eq_false in K1.
    split; [done|]. intros o Ho. rewrite forallb_forall in K2. apply elem_of_list_In in Ho. specialize (K2 o Ho).
    by apply negb_true_iff, bool_decide_eq_false in K2.
  - intros p Hp. destruct (f !! p) as [nd|] eqn:E; [|done]. by destruct (H2 _ _ E).
  - destruct r as [[[]|x|] w]; [|done..]. by exists w.
  - unfold none_b in H7. by destruct (s2 !! _).
Qed.
Lemma moved_good e f : good_world demo_config base name e f -> good_world moved base name e f.
Proof. intros [H1 H2]. split; [exact H1|exact H2]. Qed.
Lemma moved_runs : runs_on moved base name (c_rsync_dir demo_config) (tree3 1) moved2.
Proof.
  eapply (ro_run _ _ _ _ _ moved1 moved late3); [|apply same_places_refl|exact (moved_good _ _ (late3_good moved1))|apply after_instant].
  eapply (ro_run _ _ _ _ _ (tree3 1) moved (env3 1)); [apply ro_start|apply same_places_refl| |apply after_instant].
  exact (moved_good _ _ (env3_good 1 (tree3 1) ltac:(lia))).
Qed.
Lemma moved_apart : apart ["srv"; "rsync2"] (c_rsync_dir demo_config).
Proof. split; intros [k Hk]; vm_compute in Hk; done. Qed.

Opaque run.
(** A mirror that serves serial 3 by rsync.  The next run serves serial 5 from the
    new directory.  A day later the tree of serial 3 is still in the old one; had
    the directory not been changed, it would be gone. *)
Example C80_applies :
  cfg_ok demo_config base name /\ cfg_ok moved base name /\ apart ["srv"; "rsync2"] (c_rsync_dir demo_config) /\
  setting demo_config base name (env3 1) (tree3 1) /\ c_rsync_disable demo_config = false /\
  plain_record demo_config (tree3 1) /\
  (forall n, offers demo_config (env3 1) (tree3 1) n -> unseen demo_config (tree3 1) (revision_of n)) /\
  (forall p, under ["srv"; "rsync2"] p -> tree3 1 !! p = None) /\
  runs_on moved base name (c_rsync_dir demo_config) (tree3 1) moved2 /\
  (exists w, run moved (env3 1) (tree3 1) = (Ok tt, w) /\ w_fs w !! current_path moved = Some (Link (dir_name rev5))) /\
  tree3 1 !! current_path demo_config = Some (Link (dir_name rev3)) /\
  moved2 !! rev_dir demo_config rev3 = Some Dir /\ stayed2 !! rev_dir demo_config rev3 = None /\
  moved2 !! current_path moved <> Some (Link (dir_name rev5)).
Proof.
  destruct (moved_facts _ _ _ _ moved_checked) as (H1 & H2 & H3 & H4).
  split; [apply demo_cfg_ok|]. split; [apply moved_ok|]. split; [exact moved_apart|]. split; [apply setting3; lia|].
  split; [reflexivity|]. split; [exact H1|]. split; [intros n ->%env3_offers; [exact H2|lia]|]. split; [exact H3|].
  split; [exact moved_runs|]. exact H4.
Qed.
Transparent run.
Print Assumptions C80_left_alone.
Print Assumptions C80_not_before.
Print Assumptions C80_next_version.
