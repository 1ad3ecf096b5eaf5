(** * What holds of C46: when files are recorded as dropped, and when the
      notification that lists them is replaced *)
From Verif Require Import PropsRun PropsClean RunDone DemoRun Refuted Requests PropsHoldsRequests.
From Verif Require Import FsWf.

(** [d] is in the old list of records, or its time was read from the clock *)
Definition stamped (old : list deprecated) (l : list deprecated) (w : world) : Prop :=
  forall d, d ∈ l -> d ∈ old \/ EvClock (dp_since d) ∈ w_trace w.
Lemma stamped_grows old l w w' k : stamped old l w -> w_trace w' = w_trace w ++ k -> stamped old l w'.
Proof. intros H E d Hd. destruct (H d Hd) as [?|?]; [by left|]. right. rewrite E. apply elem_of_app. by left. Qed.
Definition always (u : https) (m : fetch_mode) (t : option string) : Prop := True.
(** whatever follows, the times stay in the trace *)
Lemma wpt_stamped {A} e old l (m : M A) w : stamped old l w -> asks e always m ->
  wpt e anyev m w (fun _ w' => stamped old l w').
Proof. intros H Hm. destruct (Hm w) as (k & E & _ & _). exists k. split; [done|]. split; [by apply Forall_true|]. by eapply stamped_grows. Qed.

Lemma w_deprecate_now e p w :
  wpt e anyev (deprecate_now p) w (fun r w' => exists k, w_trace w' = w_trace w ++ k /\
    forall d, r = Ok d -> EvClock (dp_since d) ∈ w_trace w').
Proof.
  unfold deprecate_now, time_now. apply wpt_bind. apply wpt_clock; [done|]. apply wpt_ret. eexists. split; [done|].
  intros d [= <-]. cbn. apply elem_of_app. right. by left.
Qed.
Lemma w_deprecate_all e l : forall w,
  wpt e anyev (deprecate_all l) w (fun r w' => exists k, w_trace w' = w_trace w ++ k /\
    forall ds, r = Ok ds -> stamped [] ds w').
Proof.
  induction l as [|p l IH]; intros w; cbn [deprecate_all].
  { apply wpt_ret. exists []. split; [by rewrite app_nil_r|]. intros ds [= <-] d Hd. by apply elem_of_nil in Hd. }
  apply wpt_bind. eapply wpt_post; [apply w_deprecate_now|]. intros [d|x|] w1 (k1 & E1 & H1); [|by exists k1..].
  apply wpt_bind. eapply wpt_post; [apply IH|]. intros [ds|x|] w2 (k2 & E2 & H2).
  2, 3: exists (k1 ++ k2); split; [by rewrite E2, E1, app_assoc|done].
  apply wpt_ret. exists (k1 ++ k2). split; [by rewrite E2, E1, app_assoc|]. intros ds' [= <-] d' [->|Hd]%elem_of_cons.
  - right. rewrite E2. apply elem_of_app. left. by apply H1.
  - by apply (H2 _ eq_refl).
Qed.
Lemma w_apply_stamped e st sg c w :
  wpt e anyev (apply_staged_changed st sg c) w (fun r w' => forall st', r = Ok st' -> stamped (st_deprecated st) (st_deprecated st') w').
Proof.
  set (old := st_deprecated st).
  assert (Hold : forall w, stamped old old w) by (intros w' d Hd; by left).
  unfold apply_staged_changed. apply wpt_bind. eapply wpt_conseq; [apply (asks_move_file e always)|done|]. intros [[]|x|] w1 _; [|done..].
  apply wpt_bind. eapply wpt_conseq; [apply (asks_for_each e always); intros; apply asks_move_file|done|]. intros [[]|x|] w2 _; [|done..].
  apply wpt_bind. eapply (wpt_post _ _ _ _ (fun r w' => forall st1, r = Ok st1 -> stamped old (st_deprecated st1) w')).
  { unfold deprecate_snapshot. destruct (snapshot_path st) as [p|].
    - apply wpt_bind. eapply wpt_post; [apply w_deprecate_now|]. intros [d|x|] w3 (k & E & H); [|done..]. apply wpt_ret.
      intros st1 [= <-] d' [Hd|Hd]%elem_of_app; [by left|]. apply elem_of_list_singleton in Hd as ->. right. by apply H.
    - apply wpt_ret. by intros st1 [= <-]. }
  intros [st1|x|] w3 H1; [|done..]. specialize (H1 _ eq_refl). cbv zeta.
  assert (Hdep : forall (l : list path) (f : list deprecated -> rrdp_state), (forall ds, st_deprecated (f ds) = st_deprecated st1 ++ ds) ->
    wpt e anyev (ds ← deprecate_all l; mret (f ds)) w3 (fun r w' => forall st', r = Ok st' -> stamped old (st_deprecated st') w')).
  { intros l f Hf. apply wpt_bind. eapply wpt_post; [apply w_deprecate_all|]. intros [ds|x|] w4 (k & E & H); [|done..]. apply wpt_ret.
    intros st' [= <-]. rewrite Hf. intros d [Hd|Hd]%elem_of_app.
    - by eapply stamped_grows.
    - right. by destruct (H _ eq_refl d Hd) as [?%elem_of_nil|]. }
  apply wpt_bind. eapply (wpt_post _ _ _ _ (fun r w' => forall st1, r = Ok st1 -> stamped old (st_deprecated st1) w')).
  { destruct (sg_reset sg); [unfold deltas_deprecate_all|unfold deltas_deprecate_before; destruct (split_before _ _)]; by apply Hdep. }
  intros [st3|x|] w4 H3; [|done..]. specialize (H3 _ eq_refl).
  unfold clean. apply wpt_bind. eapply wpt_post.
  { apply wpt_stamped; [exact H3|]. apply asks_bind; [apply asks_clock|intros; apply asks_ret]. }
  intros [t|x|] w5 H5; [|done..]. apply wpt_bind. eapply wpt_post.
  { apply wpt_stamped; [exact H5|]. apply asks_for_each. intros d _. apply asks_bind; [apply asks_exists|]. intros ex. apply asks_when, asks_remove_up. }
  intros [[]|x|] w6 H6; [|done..]. apply wpt_ret. intros st' [= <-] d Hd. cbn in Hd. apply elem_of_list_filter in Hd as [_ Hd]. by apply H6.
Qed.

(** the steps after the delay only change the tree *)
Definition is_fs (ev : event) : Prop := exists g, ev = EvFs g.
Lemma w_step_fs e k f w : wpt e is_fs (fs_step k f) w (fun _ _ => True).
Proof.
  unfold wpt, fs_step.
  assert (H : forall l, exists l', w_trace (push_fs l w) = w_trace w ++ l' /\ Forall is_fs l').
  { intros l. exists (EvFs <$> l). split; [done|]. apply Forall_fmap. apply Forall_true. intros g. by exists g. }
  destruct (f (w_fs w)) as [[mids fin]|]; [destruct (e_fault e (w_n w) k)|]; cbn [fst snd].
  - destruct (H (take n mids)) as (l' & H1 & H2). by exists l'.
  - destruct (H (mids ++ [fin])) as (l' & H1 & H2). by exists l'.
  - destruct (H []) as (l' & H1 & H2). by exists l'.
Qed.
Lemma w_write_buf_fs e p b w : wpt e is_fs (write_buf p b) w (fun _ _ => True).
Proof.
  unfold write_buf, create_path_for_file. apply wpt_bind. apply wpt_bind. apply wpt_of_option; [|done]. intros q _.
  unfold create_dir_all. revert w. induction (inits_from _ _) as [|a l IH]; intros w; cbn [for_each].
  - apply wpt_ret. apply w_step_fs.
  - apply wpt_bind. eapply wpt_post; [apply w_step_fs|]. intros [[]|x|] w1 _; [|done..]. apply IH.
Qed.

Lemma w_mp_uri_fs e m r w : wpt e is_fs (mp_uri m r) w (fun _ _ => True).
Proof. unfold mp_uri. apply wpt_bind. apply wpt_getext. by apply wpt_of_option. Qed.
Lemma w_delta_infos_fs e m l w : wpt e is_fs (delta_infos m l) w (fun _ _ => True).
Proof.
  revert w. induction l as [|d l IH]; intros w; cbn [delta_infos]; [by apply wpt_ret|]. apply wpt_bind.
  eapply wpt_post; [apply w_mp_uri_fs|]. intros [u|x|] w1 _; [|done..]. apply wpt_bind. eapply wpt_post; [apply IH|].
  intros [ds|x|] w2 _; [|done..]. by apply wpt_ret.
Qed.
Lemma back_trace c e st2 w : exists l, w_trace (back c (Some st2) e w).2 =
    w_trace w ++ (if (0 <? c_notify_delay c)%N then [EvSleep (c_notify_delay c)] else []) ++ l /\ Forall is_fs l.
Proof.
  assert (H : forall w, wpt e is_fs (
    (let path_final := mp_path (st_map st2) (ns_name (st_source st2)) in
     let path_tmp := mp_path (st_map st2) (tmp_name (st_source st2)) in
     n ← make_notification_file st2; x ← getext;
     write_buf path_tmp (x_write_notif x n) ;; f_rename path_tmp path_final)) w (fun _ _ => True)).
  { clear w. intros w. cbv zeta. apply wpt_bind. eapply (wpt_post _ _ _ _ (fun _ _ => True)).
    { unfold make_notification_file. apply wpt_bind. apply wpt_of_option; [|done]. intros s _. apply wpt_bind.
      eapply wpt_post; [apply w_mp_uri_fs|]. intros [u|x|] w1 _; [|done..]. apply wpt_bind.
      eapply wpt_post; [apply w_delta_infos_fs|]. intros [ds|x|] w2 _; [|done..]. by apply wpt_ret. }
    intros [n|x|] w1 _; [|done..]. apply wpt_bind. apply wpt_getext. apply wpt_bind.
    eapply wpt_post; [apply w_write_buf_fs|]. intros [[]|x|] w2 _; [|done..]. apply w_step_fs. }
  assert (H' : forall w, wpt e is_fs (
    ((let path_final := mp_path (st_map st2) (ns_name (st_source st2)) in
     let path_tmp := mp_path (st_map st2) (tmp_name (st_source st2)) in
     n ← make_notification_file st2; x ← getext;
     write_buf path_tmp (x_write_notif x n) ;; f_rename path_tmp path_final)) ;; persist st2 (rrdp_state_path c)) w (fun _ _ => True)).
  { clear w. intros w. apply wpt_bind. eapply wpt_post; [apply H|]. intros [[]|x|] w1 _; [|done..]. apply w_write_buf_fs. }
  clear H. unfold back, write_notification. unfold mbind at 1. unfold M_bind at 1. unfold mbind at 1. unfold M_bind at 1.
  destruct (0 <? c_notify_delay c)%N; cbn [when_].
  - unfold sleep. destruct (H' (push_ev (EvSleep (c_notify_delay c)) w)) as (l & E & Hl & _). exists l. split; [|done].
    cbn [push_ev w_trace] in E. rewrite <- app_assoc in E. exact E.
  - destruct (H' w) as (l & E & Hl & _). exists l. split; [|done]. exact E.
Qed.

(** A completed run that changes anything has two parts.  In the first, all
    records of dropped files are made, with times then read from the clock, and
    the notification stays as it was.  Then comes the delay.  After it there are
    only changes to the tree: the notification is replaced and the state saved.
    So the retention time of a dropped file counts from before the delay, and the
    notification that lists it is served at least as long as the delay. *)
Theorem C46_order c base name e f w :
  setting c base name e f -> run c e f = (Ok tt, w) -> w_fs w <> f ->
  exists l1 l2,
    w_trace w = l1 ++ (if (0 <? c_notify_delay c)%N then [EvSleep (c_notify_delay c)] else []) ++ l2 /\
    (forall g, EvFs g ∈ l1 -> g !! notif_path c name = f !! notif_path c name) /\
    (forall ev, ev ∈ l2 -> exists g, ev = EvFs g) /\
    (forall st st' d, starts_from c base name f st -> starts_from c base name (w_fs w) st' ->
       d ∈ st_deprecated st' -> d ∈ st_deprecated st \/ EvClock (dp_since d) ∈ l1).
Proof.
  intros Hset Hrun Hch. pose proof (setting_sane _ _ _ _ _ Hset) as Hs. pose proof (sn_cfg _ _ _ _ _ Hs) as Hc.
  unfold run in Hrun. rewrite process_front in Hrun. destruct (w_front c base name e f Hs) as (l & Ht & Hl & HP & HN & HS).
  (* the records in the state handed to the second part *)
  assert (Hrec : forall st2, (front c e (resume f)).1 = Ok (Some st2) ->
    forall st, starts_from c base name f st -> stamped (st_deprecated st) (st_deprecated st2) (front c e (resume f)).2).
  { assert (H : wpt e anyev (front c) (resume f) (fun r w' => forall st2, r = Ok (Some st2) ->
      forall st, starts_from c base name f st -> stamped (st_deprecated st) (st_deprecated st2) w')).
    { unfold front. apply wpt_bind. eapply wpt_conseq; [apply (w_prepare c base name e f Hs)|done|].
      intros [[[st1 sg]|]|x|] w1 (_ & _ & H1); [|by apply wpt_ret|done..].
      destruct (H1 _ _ eq_refl) as (st & v & n0 & n & -> & Ha & _). cbn [publish1]. apply wpt_bind.
      eapply wpt_post; [apply w_apply_stamped|]. intros [st2|x|] w2 H2; [|done..]. specialize (H2 _ eq_refl). cbn in H2.
      apply wpt_bind. eapply wpt_post.
      { apply wpt_stamped; [exact H2|]. apply asks_when, asks_rsync. }
      intros [[]|x|] w3 H3; [|done..]. apply wpt_ret. intros st2' [= <-] st' Hst'.
      by rewrite (starts_unique _ _ _ _ _ _ Hst' (am_start _ _ _ _ _ _ _ _ _ _ Ha)). }
    apply wpt_elim in H. exact H. }
  cbn [resume w_trace app] in Ht. rewrite Forall_forall in Hl.
  unfold mbind, M_bind in Hrun. destruct (front c e (resume f)) as [r1 w1]. cbn [fst snd] in *.
  destruct r1 as [[st2|]|x|]; [| |done..].
  2: { injection Hrun as <-. destruct (HN eq_refl) as [E _]. by rewrite E in Hch. }
  destruct (HS _ eq_refl) as (st & n0 & n & sg & f1 & v & st' & f2 & cb & f3 & Han). clear HS HN.
  destruct (notify_has c base name e f _ _ _ _ _ _ _ _ _ _ _ _ Han) as [n' Hn'].
  destruct (back_trace c e st2 w1) as (l2 & E2 & Hl2).
  pose proof (w_back c base name e f Hs _ _ _ _ _ _ _ _ _ _ _ _ _ Han Hn') as Hb. apply wpt_elim in Hb.
  rewrite Hrun in E2, Hb. cbn [fst snd] in E2, Hb. destruct (Hb eq_refl) as (f5 & H3 & H4 & H5).
  exists (w_trace w1), l2. split; [done|]. split; [|split].
  - intros g Hg. rewrite Ht in Hg. specialize (Hl _ Hg). cbn in Hl. by apply (front_N c base name Hc e f Hs).
  - intros ev Hev. rewrite Forall_forall in Hl2. by apply Hl2.
  - intros st0 stx d Hst0 Hstx Hd. apply (Hrec _ eq_refl _ Hst0).
    pose proof (save_good c base name e f Hs _ _ _ _ _ _ _ _ _ _ _ _ Han) as Hg.
    destruct (read_file_at _ _ _ _ (state_path_ne c) H5) as [Hr Hx].
    destruct Hstx as [[_ (b' & Hb' & Hp)]|[Hf _]]; [|congruence]. rewrite Hr in Hb'. injection Hb' as <-.
    destruct (good_clean c base name Hc _ Hg) as [G1 G2]. destruct (state_parse_core _ _ G1 G2 Hp) as [v' ->]. done.
Qed.

(** Non-vacuity: the two runs of the counterexample to the stronger claim.  The
    second one drops files, sleeps, and replaces the notification. *)
Definition served_good_b (docs : list (string * string)) : bool :=
  match Demo.assoc docs notif_uri with
  | Some b => match x_parse_notif safe_ext b with Some n => good_check n | None => true end
  | None => true
  end.
Lemma served_good c docs t f : c_source_base c = None -> c_fetch_map c = None -> c_notif_uri c = notif_uri ->
  served_good_b docs = true -> good_world c base name (run_env docs t) f.
Proof.
  intros E1 E2 E3 H. split; [|apply safe_clean]. intros n Hn. apply serve_offers in Hn as (b & H1 & H2); [|done..].
  unfold served_good_b in H. rewrite H1, H2 in H. by apply good_check_ok.
Qed.
Lemma delay_setting : setting delay_config base name (run_env B1 1000) delayed0.
Proof.
  split.
  - split; try (vm_compute; done); try (by repeat constructor); (split; intros [k Hk]; vm_compute in Hk; done).
  - eapply (mi_run _ _ _ _ start_tree delay_config (run_env A3 0)); [|done|apply served_good; try reflexivity; vme|done|apply after_instant].
    apply mi_start; [apply start_wf|reflexivity].
  - apply served_good; try reflexivity; vme.
Qed.
Definition order_b (c : config) (e : env) (f : fs) : bool :=
  let r := run c e f in
  match r.1 with
  | Ok _ => negb (at_b (w_fs r.2) (notif_path c name) (f !! notif_path c name)) && existsb (fun ev => match ev with EvSleep _ => true | _ => false end) (w_trace r.2)
  | _ => false
  end.
Lemma order_b_ok c e f : order_b c e f = true -> exists w d, run c e f = (Ok tt, w) /\ w_fs w <> f /\ EvSleep d ∈ w_trace w.
Proof.
  unfold order_b. cbv zeta. destruct (run c e f) as [[[]| |] w]; cbn [fst snd]; [|done|done]. intros [H1 H2]%andb_true_iff.
  apply existsb_exists in H2 as (ev & Hin & Hev). destruct ev as [| | | |d]; try done. exists w, d. split; [done|]. split; [|by apply elem_of_list_In].
  intros E. rewrite E in H1. apply negb_true_iff in H1. by apply bool_decide_eq_false in H1.
Qed.
Example C46_applies : exists w d,
  setting delay_config base name (run_env B1 1000) delayed0 /\
  run delay_config (run_env B1 1000) delayed0 = (Ok tt, w) /\ w_fs w <> delayed0 /\ EvSleep d ∈ w_trace w.
Proof.
  destruct (order_b_ok delay_config (run_env B1 1000) delayed0) as (w & d & H); [vme|]. exists w, d. split; [apply delay_setting|exact H].
Qed.
Print Assumptions C46_order.
