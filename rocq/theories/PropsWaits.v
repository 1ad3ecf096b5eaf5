(** * C85: options have no effect before the source has a new version *)
From Coq Require Import ZifyN ZifyNat ZifyBool.
From Verif Require Import RsyncRun DemoRun Refuted PropsLive PropsRsync PropsHoldsRsync PropsSource PropsHistory PropsOrder.
From Verif Require Import FsWf HistoryProofs.

(** ** Specification *)
(** Any number of runs on the same state directory, each completed, failed or
    killed at any instant, with any other options, also other directories and
    another notification URI, while the source has nothing newer than [s]. *)
Inductive waiting_runs (dir : path) (s : snap_state) (f : fs) : fs -> Prop :=
| wr_start : waiting_runs dir s f f
| wr_run g c base name e h : waiting_runs dir s f g -> c_state_dir c = dir -> cfg_ok c base name ->
    (forall n, offers c e g n -> n_session n = ss_session s /\ (n_serial n <= ss_serial s)%N) ->
    h ∈ instants c e g -> waiting_runs dir s f h.

(** ** Theorems *)
(** Nothing is changed at all, at no instant: not what the options are about (no
    rsync tree is made when rsync is switched on, no delta dropped when fewer are
    wanted, nothing removed when the cleanup time is made shorter, nothing put in
    another directory), nor anything else. *)
Theorem C85_waits c base name f st s g :
  starts_from c base name f st -> st_snap st = Some s -> waiting_runs (c_state_dir c) s f g -> g = f.
Proof.
  intros Hst Hsn. induction 1 as [|g c' base' name' e h H -> Ed Hc Ho Hg]; [done|].
  assert (Hst' : starts_from c' base' name' f st).
  { destruct Hst as [[H1 H2]|[_ ->]]; [|done]. left. unfold recorded, rrdp_state_path in *. rewrite Ed. done. }
  destruct (C06_not_newer c' base' name' e f st s Hc Hst' Hsn Ho) as [Ei _]. rewrite Ei in Hg.
  by apply elem_of_list_singleton in Hg.
Qed.

(** Where rsync is switched on when there is nothing of it yet: the first run that
    completes and changes anything serves the tree of the version it publishes. *)
Theorem C85_rsync_on c base name e f w :
  setting c base name e f -> c_rsync_disable c = false ->
  f !! rsync_state_path c = None -> (forall p, under (c_rsync_dir c) p -> f !! p = None) ->
  run c e f = (Ok tt, w) ->
  w_fs w = f \/
  exists n rel b els root, snapshot_doc c base name e f n rel b els /\
    announces c name (e_ext e) (w_fs w) n /\ serves c (w_fs w) root /\ holds_exactly c els (w_fs w) root.
Proof.
  intros Hset Hen Hrec Hnone Hrun.
  assert (Hn : new_revisions c e f).
  { split; [intros t; by rewrite Hrec|]. intros n _. split.
    - intros rs [[_ ->]|(b & m & E & _)]; [|congruence]. split; [done|]. intros o Ho. by apply elem_of_nil in Ho.
    - intros p Hp. apply Hnone. eapply under_trans; [apply under_app|exact Hp]. }
  destruct (C18_rsync_tree _ _ _ _ _ _ Hset Hen Hn Hrun) as [?|(n & rel & b & els & root & H1 & H2 & _ & H4 & H5)]; [by left|right].
  by exists n, rel, b, els, root.
Qed.

(** ** Examples *)
(** serial 3 is published without rsync *)
Definition off3 : fs := after (run off_config (env3 0) start_tree).
Definition state_of (f : fs) : option rrdp_state :=
  match op_read f (rrdp_state_path off_config) with Some b => state_parse b | None => None end.
Definition waits_b (f : fs) : bool :=
  fs_exists f (rrdp_state_path off_config) &&
  match state_of f with
  | Some st => match st_snap st with
      | Some s => bool_decide (ss_session s = n_session (src3 0)) && bool_decide (ss_serial s = n_serial (src3 0))
      | None => false
      end
  | None => false
  end &&
  at_b f (rsync_state_path demo_config) None && bool_decide (map_Forall (fun p _ => ~ c_rsync_dir demo_config `prefix_of` p) f) &&
  ok_b (run demo_config (env3 0) f) && ok_b (run demo_config (env3 1) f) &&
  at_b (after (run demo_config (env3 1) f)) (current_path demo_config) (Some (Link (dir_name rev5))).
Lemma waits_checked : waits_b off3 = true.
Proof. vme. Qed.
Lemma waits_facts f : waits_b f = true ->
  (exists st s, starts_from off_config base name f st /\ st_snap st = Some s /\
    ss_session s = n_session (src3 0) /\ ss_serial s = n_serial (src3 0)) /\
  f !! rsync_state_path demo_config = None /\ (forall p, under (c_rsync_dir demo_config) p -> f !! p = None) /\
  (exists w, run demo_config (env3 0) f = (Ok tt, w)) /\
  exists w, run demo_config (env3 1) f = (Ok tt, w) /\ w_fs w !! current_path demo_config = Some (Link (dir_name rev5)).
Proof.
  unfold waits_b. intros [[[[[[H1 H2]%andb_true_iff H3%at_ok]%andb_true_iff H4%bool_decide_eq_true]%andb_true_iff H5]%andb_true_iff H6]%andb_true_iff H7%at_ok]%andb_true_iff.
  apply ok_b_ok in H5 as (w5 & H5 & _). apply ok_b_ok in H6 as (w6 & H6 & E6). rewrite <- E6 in H7.
  split; [|split; [exact H3|split; [|split; [exact (ex_intro _ w5 H5)|exact (ex_intro _ w6 (conj H6 H7))]]]].
  - unfold state_of in H2. destruct (op_read f (rrdp_state_path off_config)) as [b|] eqn:E; [|discriminate H2].
    destruct (state_parse b) as [st|] eqn:Ep; [|discriminate H2]. destruct (st_snap st) as [s|] eqn:Es; [|discriminate H2].
    apply andb_true_iff in H2 as [K1%bool_decide_eq_true K2%bool_decide_eq_true]. exists st, s.
    split; [left; split; [exact H1|]; exists b; exact (conj E Ep)|]. exact (conj Es (conj K1 K2)).
  - intros p [k ->]. destruct (f !! (c_rsync_dir demo_config ++ k)) as [nd|] eqn:E; [|reflexivity].
    exfalso. apply (H4 _ _ E). by exists k.
Qed.
Opaque run.
Lemma off3_mirror : mirror any_notif demo_config base name off3.
Proof.
  assert (Hsp : same_places demo_config off_config) by (by repeat split).
  destruct (off_setting 0 (le_S _ _ (le_S _ _ (le_n 0)))) as [_ _ Hw].
  exact (mi_run _ _ _ _ (tree3 0) off_config (env3 0) off3 (mirror3 0 (le_S _ _ (le_S _ _ (le_S _ _ (le_n 0))))) Hsp Hw (fun _ _ => I)
    (after_instant _ _ _)).
Qed.
(** rsync is switched on: as long as the source has serial 3, nothing happens;
    serial 5 is served with rsync *)
Example C85_applies : exists st s w,
  starts_from off_config base name off3 st /\ st_snap st = Some s /\
  waiting_runs (c_state_dir off_config) s off3 (after (run demo_config (env3 0) off3)) /\
  (exists w0, run demo_config (env3 0) off3 = (Ok tt, w0)) /\
  setting demo_config base name (env3 1) off3 /\ c_rsync_disable demo_config = false /\
  off3 !! rsync_state_path demo_config = None /\ (forall p, under (c_rsync_dir demo_config) p -> off3 !! p = None) /\
  run demo_config (env3 1) off3 = (Ok tt, w) /\ w_fs w !! current_path demo_config = Some (Link (dir_name rev5)).
Proof.
  destruct (waits_facts _ waits_checked) as ((st & s & H1 & H2 & H3 & H4) & H5 & H6 & H7 & w & H8 & H9).
  exists st, s, w. split; [exact H1|]. split; [exact H2|]. split.
  { apply (wr_run (c_state_dir off_config) s off3 off3 demo_config base name (env3 0) _ (wr_start _ _ _) eq_refl demo_cfg_ok);
      [|exact (after_instant demo_config (env3 0) off3)].
    intros n Hn. rewrite (env3_offers 0 off3 n (le_S _ _ (le_S _ _ (le_n 0))) Hn). split; [exact (eq_sym H3)|].
    rewrite H4. reflexivity. }
  exact (conj H7 (conj (Build_setting _ _ _ _ _ demo_cfg_ok off3_mirror (env3_good 1 off3 (le_S _ _ (le_n 1)))) (conj eq_refl (conj H5 (conj H6 (conj H8 H9)))))).
Qed.
Transparent run.
Print Assumptions C85_waits.
Print Assumptions C85_rsync_on.
