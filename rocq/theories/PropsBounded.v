(** * C69: what the mirror keeps is bounded *)
From Coq Require Import ZifyN ZifyNat ZifyBool.
From Verif Require Import RsyncRun DemoRun PropsRun PropsSource Refuted PropsClean PropsRsync PropsHistory PropsOrder.
From Verif Require Import PropsHolds RunDone.
From Verif Require Import FsWf HistoryProofs.

(** After completed runs (see C47), and one more that changed something: every
    file in the RRDP directory is the notification (or the file it is prepared
    in), a file that this notification lists, or one that is recorded as dropped
    less than the cleanup time before this run. *)
Theorem C69_rrdp c base name e f w st :
  cfg_ok c base name -> PropsHolds.completed_runs c base name f -> good_world c base name e f -> honest_run c e f ->
  run c e f = (Ok tt, w) -> w_fs w <> f -> starts_from c base name (w_fs w) st ->
  exists n k, w_fs w !! notif_path c name = Some (File (x_write_notif (e_ext e) n) None) /\
    forall p b m, under (c_rrdp_dir c) p -> w_fs w !! p = Some (File b m) ->
      p = notif_path c name \/ p = notif_tmp c name \/
      (exists rel h, (base +:+ rel, h) ∈ refs n /\ p = public_path c rel) \/
      exists d, d ∈ st_deprecated st /\ dp_path d = p /\ (wrap64 (e_clock e k - c_cleanup_after c) < dp_since d)%Z.
Proof.
  intros Hc Hf Hw Hh Hrun Hch Hst.
  assert (Hset : setting c base name e f) by (split; [done|by apply completed_mirror|done]).
  destruct (C06_shows c base name e f w Hset Hrun Hch) as (n & En & stn & Hstn & Hn).
  rewrite (starts_unique _ _ _ _ _ _ Hstn Hst) in Hn. clear stn Hstn.
  assert (exists st0, starts_from c base name f st0) as [st0 Hst0].
  { destruct (ok_run c base name e f (setting_sane _ _ _ _ _ Hset) w Hrun)
      as [(_ & st0 & H & _)|(st0 & n0 & n1 & sg & f1 & v & st1 & f2 & cb & st2 & f3 & f4 & n' & f5 & Ha & _)]; [by exists st0|].
    exists st0. apply Ha. }
  destruct (C13_forgotten c base name e f w st0 st Hset Hrun Hch Hst0 Hst) as (k & deps & _ & Hd & _).
  exists n, k. split; [done|]. intros p b m Hp Ep.
  destruct (decide (p = notif_path c name)) as [->|N1]; [by left|right].
  destruct (decide (p = notif_tmp c name)) as [->|N2]; [by left|right].
  destruct (C47_history c base name (w_fs w) st p b m) as [(rel & h & Hin & ->)|(d & Hin & Ed)]; try done.
  - by eapply cr_run.
  - left. exists rel, h. split; [|done]. rewrite (refs_of base st n Hn). apply elem_of_list_fmap. by exists (rel, h).
  - right. exists d. split; [done|]. split; [done|]. rewrite Hd in Hin. by apply elem_of_list_filter in Hin as [? _].
Qed.

(** The same for the rsync directory: after completed runs (see C61) and one more
    that changed something, every directory in it is 'current' (or the name it
    is prepared under), that of the revision just published, or that of an old
    revision recorded less than the cleanup time before this run. *)
Theorem C69_rsync c base name e f w :
  cfg_ok c base name -> whole_runs c base name f -> good_world c base name e f -> c_rsync_disable c = false ->
  run c e f = (Ok tt, w) -> w_fs w <> f ->
  exists n rs cb, offers c e f n /\ clean_time c e cb /\ recorded_rsync c (w_fs w) rs /\
    forall d, w_fs w !! (c_rsync_dir c ++ [d]) = Some Dir ->
      d = "current" \/ d = "current.tmp" \/ d = dir_name (revision_of n) \/
      exists o, o ∈ rs_old rs /\ d = dir_name (or_rev o) /\ (cb < or_since o)%Z.
Proof.
  intros Hc Hf Hw Hd Hrun Hch.
  assert (Hset : setting c base name e f) by (split; [done|by apply whole_mirror|done]).
  pose proof (C61_history c base name f Hc Hf) as Ha. pose proof (accounted_plain _ _ Ha) as Hp.
  destruct (C21_old_trees c base name e f w Hset Hd Hp Hrun) as [?|(n & rs & olds & cb & Hn & _ & _ & Hcb & Hrec & _)]; [done|].
  destruct (C61_accounted c base name e f w Hset Hp Ha Hrun) as (rs' & Hrec' & Hk).
  rewrite <- (recorded_unique _ _ _ _ Hrec Hrec') in Hk. clear rs' Hrec'.
  exists n, (mkRs (Some (revision_of n)) (filter (fun o => (cb < or_since o)%Z) olds)), cb.
  split; [done|]. split; [done|]. split; [done|]. intros d Ed.
  destruct (Hk d Ed) as [->|[->|(r & Hr & ->)]]; [auto|auto|]. right. right. cbn [rs_current rs_old] in *.
  destruct Hr as [[= <-]|(o & Ho & <-)]; [by left|right].
  exists o. split; [done|]. split; [done|]. by apply elem_of_list_filter in Ho as [? _].
Qed.

(** Nothing is removed by runs that find no new version, however long ago it was
    dropped: the bound does not hold then. *)
Definition idle : env := run_env (docs3 1) 1000000.
Lemma idle_offers f n : offers demo_config idle f n -> n = src3 1.
Proof. apply docs3_offers. lia. Qed.
Definition long_gone (f : fs) (p : path) (t : Z) : bool :=
  match state_of demo_config f with
  | Some st => existsb (fun d => bool_decide (dp_path d = p) && (dp_since d <=? t)%Z) (st_deprecated st)
  | None => false
  end.
Lemma long_gone_ok f p t : long_gone f p t = true -> exists st d, starts_from demo_config base name f st /\
  d ∈ st_deprecated st /\ dp_path d = p /\ (dp_since d <= t)%Z.
Proof.
  unfold long_gone. destruct (state_of demo_config f) as [st|] eqn:E; [|done].
  intros (d & Hd & H)%existsb_exists. apply andb_true_iff in H as [H1 H2]. apply bool_decide_eq_true in H1.
  exists st, d. split; [by apply state_of_starts|]. split; [by apply elem_of_list_In|]. split; [done|lia].
Qed.
Lemma gone3 : long_gone (tree3 2) (public_path demo_config (snap_rel uuid_A 3)) (1000000 - c_cleanup_after demo_config) = true.
Proof. vme. Qed.
Lemma idle_ok : ok_b (run demo_config idle (tree3 2)) = true.
Proof. vme. Qed.
Lemma idle_good : good_world demo_config base name idle (tree3 2).
Proof. split; [|apply safe_clean]. intros n ->%idle_offers. apply src3_good. Qed.
Lemma idle_honest : honest_run demo_config idle (tree3 2).
Proof.
  destruct late_honest as (_ & H2 & _). split; [apply serve_no_304|]. split; [exact H2|]. clear H2.
  intros n ->%idle_offers. intros u h h' L1%listing_ref L2%listing_ref.
  destruct L1 as (a & Ha & <- & <-), L2 as (b & Hb & E & <-). by rewrite (sb_unique _ _ _ src3_stable 1 1 a b).
Qed.
Opaque run t3_1 t3_2 t3_3 start_tree.
Lemma completed3 i : i <= 2 -> PropsHolds.completed_runs demo_config base name (tree3 i).
Proof.
  induction i as [|i IH]; intros Hi.
  - destruct start_empty as [H1 H2]. apply cr_start; [apply start_wf|exact H2|exact H1].
  - destruct (ran3 i ltac:(lia)) as (w & Hw & <-). apply (cr_run _ _ _ (tree3 i) (env3 i)); [apply IH; lia|
      apply env3_good; lia|apply serve_honest; lia|exact Hw].
Qed.
Lemma summary_at st u k l a b : summary st = Some (u, k, l, a, b) ->
  exists s, st_snap st = Some s /\ ss_session s = u /\ ss_serial s = k.
Proof. unfold summary. destruct (st_snap st) as [s|]; [|done]. intros H. exists s. by simplify_eq/=. Qed.
Lemma idle_same r w : run demo_config idle (tree3 2) = (r, w) -> w_fs w = tree3 2.
Proof.
  destruct (state3 2 (le_S _ _ (le_n 1)) (le_S _ _ (le_n 2))) as (st & T1 & T2).
  destruct (summary_at st _ _ _ _ _ T2) as (s & Es & T3 & T4).
  apply (proj2 (C06_not_newer demo_config base name idle (tree3 2) st s demo_cfg_ok (state_of_starts _ _ _ _ _ T1) Es
    (fun n Hn => eq_ind_r (x := src3 1) (fun n => n_session n = ss_session s /\ (n_serial n <= ss_serial s)%N)
       (conj (eq_sym T3) (eq_ind_r (fun k => (5 <= k)%N) (N.le_refl 5) T4)) (idle_offers _ n Hn)))).
Qed.
Theorem C69_idle_refuted : exists e f w st d b m,
  PropsHolds.completed_runs demo_config base name f /\ good_world demo_config base name e f /\ honest_run demo_config e f /\
  run demo_config e f = (Ok tt, w) /\ starts_from demo_config base name (w_fs w) st /\ d ∈ st_deprecated st /\
  (forall k, (dp_since d + c_cleanup_after demo_config <= e_clock e k)%Z) /\ w_fs w !! dp_path d = Some (File b m).
Proof.
  destruct (long_gone_ok _ _ _ gone3) as (st & d & H1 & H2 & H3 & H4).
  destruct (file3 (snap_rel uuid_A 3) (or_introl eq_refl)) as (b & m & H5).
  destruct (ok_b_ok _ idle_ok) as (w & Hw & _). pose proof (idle_same _ _ Hw) as Ew.
  exists idle, (tree3 2), w, st, d, b, m. rewrite Ew, H3.
  split; [exact (completed3 2 (le_n 2))|]. split; [exact idle_good|]. split; [exact idle_honest|].
  split; [exact Hw|]. split; [exact H1|]. split; [exact H2|]. split; [|exact H5].
  intros k. clear - H4. change (e_clock idle k) with 1000000%Z. lia.
Qed.
Transparent run t3_1 t3_2 t3_3 start_tree.

(** the third run of the example, which goes to a new session *)
Example C69_applies : exists w st, cfg_ok demo_config base name /\
  PropsHolds.completed_runs demo_config base name (tree3 2) /\ whole_runs demo_config base name (tree3 2) /\
  good_world demo_config base name late (tree3 2) /\ honest_run demo_config late (tree3 2) /\
  c_rsync_disable demo_config = false /\ run demo_config late (tree3 2) = (Ok tt, w) /\ w_fs w <> tree3 2 /\
  starts_from demo_config base name (w_fs w) st /\ length (st_deprecated st) = 4.
Proof.
  destruct C12_applies as (_ & _ & (w & Hw & Ew) & _). destruct C13_applies as (Hn & _ & (st & S1 & S2)).
  destruct late_setting as [_ _ Hg].
  exists w, st. rewrite Ew. split; [exact demo_cfg_ok|]. split; [exact (completed3 2 (le_n 2))|].
  split; [exact (whole_runs3 2 (le_S _ _ (le_n 2)))|]. split; [exact Hg|]. split; [exact late_honest|].
  split; [reflexivity|]. split; [exact Hw|]. split; [exact Hn|]. split; [exact S1|exact S2].
Qed.
Print Assumptions C69_rrdp.
Print Assumptions C69_rsync.
Print Assumptions C69_idle_refuted.
