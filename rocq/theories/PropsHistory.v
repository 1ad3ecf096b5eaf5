(** * Versions and deltas over histories: C06, C08, C09, C10, C11, C17 *)
From Coq Require Import ZifyN ZifyNat ZifyBool.
From Verif Require Import DemoRun Chain ReadBack FsWf.

(** ** C17: what a completed run saved can be read back *)
(** A completed run that changed anything leaves a state file from which the next
    run can start, whatever the validator has cached. *)
Theorem C17_saved c base name e f w :
  setting c base name e f -> run c e f = (Ok tt, w) -> w_fs w <> f -> exists st, recorded c (w_fs w) st.
Proof.
  intros Hset Hrun Hch. pose proof (setting_sane _ _ _ _ _ Hset) as Hs.
  destruct (done_state_file c base name e f Hs w) as [?|(st & Hg & Hcl & E)]; [|done|done|].
  { intros st. by apply (setting_check c base name e f). }
  exists (norm_state st). destruct (read_file_at _ _ _ _ (state_path_ne c) E) as [Hr _].
  exists (state_text st). split; [done|]. by apply state_roundtrip.
Qed.
Example C17_saved_applies : setting demo_config base name (env3 1) (tree3 1) /\
  exists w, run demo_config (env3 1) (tree3 1) = (Ok tt, w) /\ w_fs w <> tree3 1.
Proof.
  split; [apply setting3; lia|apply ran_changed3; lia].
Qed.

(** ** C06: the serial never goes backwards within a session *)
(** the tree serves [n], and the state file records it *)
Definition shows (c : config) (base name : string) (x : ext) (g : fs) (n : notification) : Prop :=
  g !! notif_path c name = Some (File (x_write_notif x n) None) /\
  exists st, starts_from c base name g st /\ notif_of base st n.

(** Completed runs one after the other from a tree without state file;
    [l]: the notifications published so far, newest first. *)
Inductive completed_runs (c : config) (base name : string) : fs -> list notification -> Prop :=
| cr_start f : wf f -> f !! rrdp_state_path c = None -> completed_runs c base name f []
| cr_same f l c' e w : completed_runs c base name f l -> same_places c c' -> good_world c' base name e f ->
    run c' e f = (Ok tt, w) -> w_fs w = f -> completed_runs c base name f l
| cr_new f l c' e w n : completed_runs c base name f l -> same_places c c' -> good_world c' base name e f ->
    run c' e f = (Ok tt, w) -> w_fs w <> f -> shows c base name (e_ext e) (w_fs w) n ->
    completed_runs c base name (w_fs w) (n :: l).

Lemma completed_mirror c base name f l : completed_runs c base name f l -> mirror any_notif c base name f.
Proof.
  induction 1 as [f Hwf E|f l c' e w H IH Hsp Hw Hr E|f l c' e w n H IH Hsp Hw Hr Hch Hn].
  - by apply mi_start.
  - done.
  - eapply (mi_run any_notif c base name f c' e); [done|done|done|done|]. pose proof (after_instant c' e f) as Ha.
    unfold after in Ha. by rewrite Hr in Ha.
Qed.
(** a completed run that changes anything shows what it published *)
Theorem C06_shows c base name e f w : setting c base name e f -> run c e f = (Ok tt, w) -> w_fs w <> f ->
  exists n, shows c base name (e_ext e) (w_fs w) n.
Proof.
  intros Hset Hrun Hch. destruct (C17_saved _ _ _ _ _ _ Hset Hrun Hch) as [stx (b & Hb & Hp)].
  assert (Hstx : starts_from c base name (w_fs w) stx).
  { left. split; [|by exists b]. unfold op_read in Hb. unfold fs_exists. by destruct (fs_stat (w_fs w) _). }
  apply setting_sane in Hset. destruct (ok_run c base name e f Hset w Hrun)
    as [(H & _)|(st & n0 & n & sg & f1 & v & st' & f2 & cb & st2 & f3 & f4 & n' & f5 & Ha & Hsv & Hg & HN & H2)]; [done|].
  exists n'. split; [done|]. exists stx. split; [done|]. destruct (H2 _ Hstx) as [v' ->].
  destruct (as_notif _ _ _ _ _ _ _ _ _ _ _ _ _ _ _ _ _ _ _ Ha) as (s & Es & ->). by exists s.
Qed.

(** [new] may follow [old] *)
Definition newer (new old : notification) : Prop :=
  n_session new = n_session old -> (n_serial old < n_serial new)%N.

(** Whenever two successive published versions have the same session, the
    serial of the second is higher. *)
Theorem C06_history c base name f l :
  cfg_ok c base name -> completed_runs c base name f l -> Sorted newer l.
Proof.
  intros Hc H.
  enough (Sorted newer l /\ forall n l', l = n :: l' -> forall st, starts_from c base name f st -> notif_of base st n) by tauto.
  induction H as [f Hwf E|f l c' e w H IH Hsp Hw Hr E|f l c' e w n H IH Hsp Hw Hr Hch [HN (st & Hst & Hn)]].
  - split; [constructor|done].
  - done.
  - destruct IH as [IH1 IH2]. split.
    2: { intros n1 l1 [= <- <-] st1 Hst1. by rewrite (starts_unique _ _ _ _ _ _ Hst1 Hst). }
    constructor; [done|]. destruct l as [|old l]; constructor. specialize (IH2 old l eq_refl).
    apply completed_mirror in H. pose proof (mirror_sane _ _ _ _ _ _ _ Hc H Hsp Hw) as Hs.
    destruct (ok_run c' base name e f Hs w Hr)
      as [(? & _)|(st0 & n0 & ns & sg & f1 & v & st' & f2 & cb & st2 & f3 & f4 & n' & f5 & Ha & _ & _ & _ & Hsv)]; [done|].
    apply (places_starts c c' base name Hsp) in Hst. destruct (Hsv _ Hst) as [v' ->].
    pose proof (an_rsync _ _ _ _ _ _ _ _ _ _ _ _ _ _ _ _ _ (as_notify _ _ _ _ _ _ _ _ _ _ _ _ _ _ _ _ _ _ _ Ha)) as A1.
    destruct (new_deltas c' base name e f _ _ _ _ _ _ _ _ _ _ _ A1) as [_ Es].
    destruct (ac_move _ _ _ _ _ _ _ _ _ _ _ _ _ (ar_clean _ _ _ _ _ _ _ _ _ _ _ _ _ _ _ _ A1)) as [Hst0 Hso _ _].
    destruct (IH2 st0) as (s0 & Es0 & ->); [by apply (places_starts c c' base name Hsp)|].
    destruct Hn as (s & Hs' & ->). cbn in Hs'. rewrite Es in Hs'. injection Hs' as <-.
    destruct Hso as [_ Hcv (S1 & S2 & _) _ _]. unfold compare_version in Hcv. rewrite Es0 in Hcv.
    intros Hsess. cbn in Hsess. rewrite bool_decide_true in Hcv by congruence. cbn [negb] in Hcv.
    destruct (N.compare_spec (ss_serial s0) (n_serial ns)); [done| |done]. cbn. lia.
Qed.
(** Three versions, the first two in one session. *)
Example C06_applies : exists n1 n2 n3, completed_runs demo_config base name (tree3 3) [n3; n2; n1] /\
  (n_session n1, n_serial n1) = (uuid_A, 3%N) /\ (n_session n2, n_serial n2) = (uuid_A, 5%N) /\
  (n_session n3, n_serial n3) = (uuid_B, 1%N).
Proof.
  assert (H : forall i, i <= 2 -> exists n, shows demo_config base name safe_ext (tree3 (S i)) n /\
    (n_session n, n_serial n) = (n_session (src3 i), n_serial (src3 i))).
  { intros i Hi. assert (Hst : exists st, starts_from demo_config base name (tree3 (S i)) st /\
      (exists s, st_snap st = Some s /\ (ss_session s, ss_serial s) = (n_session (src3 i), n_serial (src3 i)))).
    { destruct (state3 (S i)) as (st & E1 & E); [lia..|]. exists st. split; [by apply state_of_starts|].
      unfold summary in E. destruct (st_snap st) as [s|]; [|by destruct i as [|[|i]]]. exists s. split; [done|].
      destruct i as [|[|[|i]]]; [..|lia]; injection E as E2 E3 _ _ _; by rewrite E2, E3. }
    destruct (C06_shows demo_config base name (env3 i) (tree3 i) (run demo_config (env3 i) (tree3 i)).2) as [n Hn].
    - by apply setting3.
    - destruct (ran3 i Hi) as (w & E & _). by rewrite E.
    - destruct (ran3 i Hi) as (w & E & Ew). rewrite E. cbn [snd]. rewrite Ew. by apply changed3.
    - exists n. split; [exact Hn|]. destruct Hn as [_ (st1 & Hst1 & s1 & Hs1 & ->)]. destruct Hst as (st & Hst & s & Hs & E).
      rewrite (starts_unique _ _ _ _ _ _ Hst1 Hst) in Hs1. cbn. congruence. }
  destruct (H 0) as (n1 & H1 & E1); [lia|]. destruct (H 1) as (n2 & H2 & E2); [lia|]. destruct (H 2) as (n3 & H3 & E3); [lia|].
  exists n1, n2, n3. split; [|done].
  assert (Hstep : forall i l n, i <= 2 -> completed_runs demo_config base name (tree3 i) l ->
    shows demo_config base name safe_ext (tree3 (S i)) n -> completed_runs demo_config base name (tree3 (S i)) (n :: l)).
  { intros i l n Hi Hl Hn. change (tree3 (S i)) with (w_fs (run demo_config (env3 i) (tree3 i)).2).
    eapply (cr_new demo_config base name (tree3 i) l demo_config (env3 i)); [done|done|by apply env3_good| |  |done].
    - destruct (ran3 i Hi) as (w & E & _). by rewrite E.
    - destruct (ran3 i Hi) as (w & E & Ew). rewrite E. cbn [snd]. rewrite Ew. by apply changed3. }
  apply Hstep; [lia| |done]. apply Hstep; [lia| |done]. apply Hstep; [lia| |done].
  apply cr_start; [apply start_wf|done].
Qed.
Print Assumptions C17_saved.
Print Assumptions C06_shows.
Print Assumptions C06_history.

(** ** Sources whose delta lists end at their own serial *)
Lemma mirror_weaken (P Q : notification -> Prop) c base name f : (forall n, P n -> Q n) ->
  mirror P c base name f -> mirror Q c base name f.
Proof.
  intros HPQ. induction 1 as [f Hwf E|f c' e g Hm IH Hsp Hw HP Hg|f g Hm IH Hwf Ho].
  - by apply mi_start.
  - eapply (mi_run Q c base name f c' e); eauto.
  - by eapply mi_else.
Qed.
Lemma mirror_places P c c' base name f : same_places c c' -> mirror P c base name f -> mirror P c' base name f.
Proof.
  intros Hsp. induction 1 as [f Hwf E|f c1 e g Hm IH Hsp1 Hw HP Hg|f g Hm IH Hwf Ho].
  - apply mi_start; [done|]. by rewrite (places_sp c c' Hsp).
  - eapply (mi_run P c' base name f c1 e); try done. unfold same_places in *. intuition congruence.
  - eapply mi_else; [done|done|]. intros p Hp. apply Ho. unfold owned, rrdp_state_path, rsync_state_path, staging_dir in *.
    destruct Hsp as (_ & E2 & E3 & E4). by rewrite E2, E3, E4 in Hp.
Qed.
(** as [setting], for a source all of whose notifications, now and in the past,
    list deltas up to their own serial *)
Record chain_setting (c : config) (base name : string) (e : env) (f : fs) : Prop := {
  cs_cfg : cfg_ok c base name;
  cs_mirror : mirror ends_at_serial c base name f;
  cs_world : good_world c base name e f;
  cs_offers : forall n, offers c e f n -> ends_at_serial n }.
Lemma chain_set c base name e f : chain_setting c base name e f -> setting c base name e f.
Proof. intros [H1 H2 H3 H4]. split; [done|by eapply mirror_weaken; [|exact H2]|done]. Qed.

(** the documents a run can put in the public place *)
Lemma instant_notif c base name e f g : sane c base name e f -> g ∈ instants c e f ->
  g !! notif_path c name = f !! notif_path c name \/
  exists st n0 n sg f1 v st' f2 cb st2 f3 f4 n',
    at_notify c base name e f st n0 n sg f1 v st' f2 cb st2 f3 f4 /\ notif_of base st2 n' /\
    g !! notif_path c name = Some (File (x_write_notif (e_ext e) n') None).
Proof.
  intros Hs Hg. apply (instant_phase c base name e f Hs) in Hg. pose proof (sn_cfg _ _ _ _ _ Hs) as Hc.
  destruct Hg as [H|st0 n0 n sg f1 v st' f2 cb st2 f3 f4 n' H1 Hn H2|st0 n0 n sg f1 v st' f2 cb st2 f3 f4 n' f5 H1 H2].
  - left. by eapply front_N.
  - destruct (no_notif _ _ _ _ _ H2) as [E|E].
    + left. rewrite E. eapply front_N; [done|exact Hs|]. by eapply notify_front.
    + right. by do 13 eexists.
  - right. destruct H1 as [H1 Hn Ht Hf]. do 13 eexists. split; [exact H1|]. split; [exact Hn|].
    rewrite (save_N c base name Hc _ _ _ H2). done.
Qed.

(** ** C08: the published deltas form an unbroken chain *)
Record unbroken (n : notification) : Prop := {
  ub_first : forall d, head (n_deltas n) = Some d -> di_serial d = n_serial n;
  ub_next : forall i a b, n_deltas n !! i = Some a -> n_deltas n !! S i = Some b -> di_serial a = (di_serial b + 1)%N }.

Section chain.
  Context (c : config) (base name : string) (e : env) (f : fs) (Hset : chain_setting c base name e f).
  Let Hs : sane c base name e f := setting_sane _ _ _ _ _ (chain_set _ _ _ _ _ Hset).

  (** the new notification: the source's newest deltas, and nothing missing *)
  Lemma chain_notif st n0 n sg f1 v st' f2 cb st2 f3 f4 n' :
    at_notify c base name e f st n0 n sg f1 v st' f2 cb st2 f3 f4 -> notif_of base st2 n' ->
    exists a m j, di_serial <$> n_deltas n = nseq a m /\ (m = 0 \/ (a + N.of_nat m)%N = (n_serial n + 1)%N) /\ j <= m /\
      di_serial <$> n_deltas n' = reverse (nseq (a + N.of_nat j) (m - j)) /\ n_serial n' = n_serial n /\
      (sg_reset sg = true -> j = 0).
  Proof using Hset.
    intros [A1 _] (s & Es & ->). destruct Hset as [Hc Hm Hw Ho].
    pose proof (ac_move _ _ _ _ _ _ _ _ _ _ _ _ _ (ar_clean _ _ _ _ _ _ _ _ _ _ _ _ _ _ _ _ A1)) as A2.
    destruct (chain_step _ _ _ _ _ _ _ _ _ _ _ _ _ _ _ _ A1) as (a & m & j & H1 & H2 & H3 & H4 & H5).
    { eapply mirror_chained; [done|exact Hm|apply A2]. }
    { apply Ho. apply A2. }
    exists a, m, j. split; [done|]. split; [done|]. split; [done|]. split; [|split; [|done]].
    - cbn. rewrite <- list_fmap_compose. rewrite nseq_drop in H4. by rewrite <- H4.
    - cbn. destruct (new_deltas c base name e f _ _ _ _ _ _ _ _ _ _ _ A1) as [_ Es']. rewrite Es' in Es. injection Es as <-.
      apply (so_snap _ _ _ _ _ _ _ _ (am_staged _ _ _ _ _ _ _ _ _ _ A2)).
  Qed.
End chain.

Lemma reverse_nseq_lookup lo n i x : reverse (nseq lo n) !! i = Some x -> i < n /\ x = (lo + N.of_nat (n - 1 - i))%N.
Proof.
  intros H. assert (Hi : i < n). { apply lookup_lt_Some in H. by rewrite reverse_length, nseq_length in H. }
  rewrite reverse_lookup in H by (by rewrite nseq_length). rewrite nseq_length in H. apply nseq_lookup in H as [-> _].
  split; [done|]. do 2 f_equal. lia.
Qed.

(** At every instant of a run in a history, the public notification is the one
    from before or a new one whose deltas are its serial, one less, and so on. *)
Theorem C08_unbroken c base name e f g : chain_setting c base name e f -> g ∈ instants c e f ->
  g !! notif_path c name = f !! notif_path c name \/
  exists n, g !! notif_path c name = Some (File (x_write_notif (e_ext e) n) None) /\ unbroken n.
Proof.
  intros Hset Hg. pose proof (setting_sane _ _ _ _ _ (chain_set _ _ _ _ _ Hset)) as Hs.
  destruct (instant_notif c base name e f g Hs Hg) as [H|(st & n0 & n & sg & f1 & v & st' & f2 & cb & st2 & f3 & f4 & n' & H1 & H2 & H3)].
  { by left. }
  right. exists n'. split; [done|].
  destruct (chain_notif c base name e f Hset _ _ _ _ _ _ _ _ _ _ _ _ _ H1 H2) as (a & m & j & E1 & E2 & Hj & E3 & E4 & _).
  assert (Hlk : forall i d, n_deltas n' !! i = Some d -> i < m - j /\ di_serial d = (a + N.of_nat j + N.of_nat (m - j - 1 - i))%N).
  { intros i d Hi. apply reverse_nseq_lookup. rewrite <- E3. by rewrite list_lookup_fmap, Hi. }
  split.
  - intros d Hd. rewrite head_lookup in Hd. apply Hlk in Hd as [H4 ->]. destruct E2 as [->|E2]; [lia|]. rewrite E4. lia.
  - intros i x y Hx Hy. apply Hlk in Hx as [_ ->]. apply Hlk in Hy as [H4 ->]. lia.
Qed.
(** So at any time in a history, the public notification is the one from before
    krill-sync's first run or has an unbroken chain. *)
Theorem C08_history c base name f : cfg_ok c base name -> mirror ends_at_serial c base name f ->
  exists f0, wf f0 /\ f0 !! rrdp_state_path c = None /\
    (f !! notif_path c name = f0 !! notif_path c name \/
     exists x n, f !! notif_path c name = Some (File (x_write_notif x n) None) /\ unbroken n).
Proof.
  intros Hc Hm. induction Hm as [f Hwf E|f c' e g Hm IH Hsp Hw HP Hg|f g Hm IH Hwf Ho].
  - exists f. auto.
  - destruct IH as (f0 & H1 & H2 & H3). exists f0. split; [done|]. split; [done|].
    rewrite <- (places_N c c' name Hsp) in *.
    destruct (C08_unbroken c' base name e f g) as [E|(n & E & Hn)]; [|done|by rewrite E|].
    + split; [by apply (places_cfg c c' base name Hsp)| |done|done].
      by apply (mirror_places _ c).
    + right. eauto.
  - destruct IH as (f0 & H1 & H2 & H3). exists f0. split; [done|]. split; [done|]. rewrite Ho; [done|].
    right. left. apply under_app.
Qed.

Lemma src3_ends i : ends_at_serial (src3 i).
Proof.
  assert (H : forall n, bool_decide (n_deltas n = []) ||
      bool_decide (n_serial n ∈ (di_serial <$> n_deltas n) /\ Forall (fun d => (di_serial d <= n_serial n)%N) (n_deltas n)) = true ->
      ends_at_serial n).
  { intros n [H|H]%orb_true_iff; apply bool_decide_eq_true in H; [done|]. intros _. destruct H as [H1 H2]. split; [done|].
    by rewrite Forall_forall in H2. }
  apply H. destruct (src3_cases i) as [->|[->| ->]]; by vm_compute.
Qed.
Lemma mirror3_ends i : i <= 3 -> mirror ends_at_serial demo_config base name (tree3 i).
Proof.
  induction i as [|i IH]; intros Hi.
  - by apply mi_start; [apply start_wf|].
  - cbn [tree3]. eapply (mi_run _ _ _ _ _ demo_config (env3 i)); [apply IH; lia|done|apply env3_good; lia| |apply after_instant].
    intros n ->%env3_offers; [apply src3_ends|lia].
Qed.
Lemma chain3 i : i <= 2 -> chain_setting demo_config base name (env3 i) (tree3 i).
Proof.
  intros Hi. split; [apply demo_cfg_ok|apply mirror3_ends; lia|by apply env3_good|]. intros n ->%env3_offers; [apply src3_ends|done].
Qed.
Example C08_applies : chain_setting demo_config base name (env3 1) (tree3 1) /\
  tree3 2 ∈ instants demo_config (env3 1) (tree3 1) /\
  (fun n => (n_serial n, di_serial <$> n_deltas n)) <$> shown (tree3 2) = Some (5, [5; 4; 3])%N.
Proof. split; [apply chain3; lia|]. split; [apply after_instant|]. apply (served3 2); lia. Qed.
Print Assumptions C08_unbroken.
Print Assumptions C08_history.

(** ** C09: the delta limit is honoured *)
(** Whatever was published before, with whatever limit. *)
Theorem C09_limit c base name e f g k : chain_setting c base name e f -> c_max_deltas c = Some k -> g ∈ instants c e f ->
  g !! notif_path c name = f !! notif_path c name \/
  exists n, g !! notif_path c name = Some (File (x_write_notif (e_ext e) n) None) /\ length (n_deltas n) <= k.
Proof.
  intros Hset Hk Hg. pose proof (setting_sane _ _ _ _ _ (chain_set _ _ _ _ _ Hset)) as Hs.
  destruct (instant_notif c base name e f g Hs Hg) as [H|(st & n0 & n & sg & f1 & v & st' & f2 & cb & st2 & f3 & f4 & n' & H1 & H2 & H3)].
  { by left. }
  right. exists n'. split; [done|].
  destruct (chain_notif c base name e f Hset _ _ _ _ _ _ _ _ _ _ _ _ _ H1 H2) as (a & m & j & E1 & E2 & Hj & E3 & E4 & _).
  apply (f_equal length) in E3. rewrite fmap_length, reverse_length, nseq_length in E3.
  apply (f_equal length) in E1. rewrite fmap_length, nseq_length in E1.
  pose proof (an_rsync _ _ _ _ _ _ _ _ _ _ _ _ _ _ _ _ _ H1) as A1.
  destruct (am_staged _ _ _ _ _ _ _ _ _ _ (ac_move _ _ _ _ _ _ _ _ _ _ _ _ _ (ar_clean _ _ _ _ _ _ _ _ _ _ _ _ _ _ _ _ A1))) as [[_ Hv] _ _ _ _].
  rewrite Hk in Hv. unfold sort_and_verify in Hv. destruct (n_deltas n0) as [|d0 l0] eqn:E0.
  { injection Hv as ->. rewrite E0 in E1. cbn in E1. lia. }
  cbv zeta in Hv. destruct (limit_deltas (Some k) (sort_by_key di_serial (d0 :: l0))) as [|d1 l1] eqn:El; [done|].
  injection Hv as <- _. cbn [n_deltas] in E1. unfold limit_deltas in El.
  destruct (Nat.ltb_spec k (length (sort_by_key di_serial (d0 :: l0)))) as [H|H].
  - apply (f_equal length) in El. rewrite drop_length in El. lia.
  - rewrite El in H. lia.
Qed.
(** the second run's limit is 2, and the version before it was published with
    another limit *)
Definition limited (k : nat) : config := {|
  c_verbose := 0; c_quiet := false;
  c_state_dir := ["var"; "ks"]; c_rrdp_dir := ["srv"; "rrdp"];
  c_notify_delay := 0; c_max_deltas := Some k;
  c_rsync_dir := ["srv"; "rsync"]; c_force_moves := false; c_rsync_disable := false;
  c_include_host := false; c_cleanup_after := 7200; c_insecure := false;
  c_notif_uri := notif_uri; c_source_base := None; c_fetch_map := None;
  c_tal_files := []; c_scripts := []; c_reject := false; c_offline := false |}.
Lemma chain_limited k i : i <= 2 -> chain_setting (limited k) base name (env3 i) (tree3 i).
Proof.
  intros Hi. assert (Hsp : same_places demo_config (limited k)) by done. split.
  - apply (places_cfg demo_config (limited k) base name Hsp). apply demo_cfg_ok.
  - apply (mirror_places _ demo_config _ _ _ _ Hsp), mirror3_ends. lia.
  - split; [|apply safe_clean]. intros n Ho. change (offers demo_config (env3 i) (tree3 i) n) in Ho.
    apply env3_offers in Ho as ->; [apply src3_good|done].
  - intros n Ho. change (offers demo_config (env3 i) (tree3 i) n) in Ho. apply env3_offers in Ho as ->; [apply src3_ends|done].
Qed.
Example C09_applies : chain_setting (limited 2) base name (env3 1) (tree3 1) /\
  after (run (limited 2) (env3 1) (tree3 1)) ∈ instants (limited 2) (env3 1) (tree3 1) /\
  (fun n => di_serial <$> n_deltas n) <$> shown (tree3 1) = Some [3; 2]%N /\
  (fun n => di_serial <$> n_deltas n) <$> shown (after (run (limited 2) (env3 1) (tree3 1))) = Some [5; 4]%N.
Proof. split; [apply chain_limited; lia|]. split; [apply after_instant|]. split; [apply (served3_deltas 1); lia|].
  apply (bool_decide_eq_true_1 _). vm_cast_no_check (eq_refl true).
Qed.
Print Assumptions C09_limit.

(** ** C10: the published deltas are a suffix of the source's *)
(** see [newest] in Limited.v *)
Lemma sorted_unfmap {A} (key : A -> N) l : StronglySorted N.le (key <$> l) -> StronglySorted (fun a b => (key a <= key b)%N) l.
Proof.
  induction l as [|x l IH]; intros H; [constructor|]. cbn in H. apply StronglySorted_inv in H as [H1 H2].
  constructor; [by apply IH|]. exact (proj1 (Forall_fmap key _ l) H2).
Qed.
Lemma nseq_sorted_le lo n : StronglySorted N.le (nseq lo n).
Proof.
  revert lo. induction n as [|n IH]; intros lo; [constructor|]. rewrite nseq_S. constructor; [done|].
  apply Forall_forall. intros x Hx%nseq_in. lia.
Qed.
(** At every instant, the public notification is the one from before or a new
    one; the serials of the new one, in ascending order, are the end of the
    serials of the source's list [l]; it has every delta of the source that is
    newer than all recorded before the run; and it has exactly the source's
    deltas if the session is new. *)
Theorem C10_suffix c base name e f g : chain_setting c base name e f -> g ∈ instants c e f ->
  g !! notif_path c name = f !! notif_path c name \/
  exists st n0 l n, starts_from c base name f st /\ offers c e f n0 /\ newest (c_max_deltas c) n0 l /\
    g !! notif_path c name = Some (File (x_write_notif (e_ext e) n) None) /\
    (exists j, di_serial <$> reverse (n_deltas n) = drop j (di_serial <$> l)) /\
    (forall d, d ∈ l -> (forall d', d' ∈ st_deltas st -> (ds_serial d' < di_serial d)%N) -> d ∈ n_deltas n) /\
    ((forall s, st_snap st = Some s -> ss_session s <> n_session n0) -> reverse (n_deltas n) = l).
Proof.
  intros Hset Hg. pose proof (setting_sane _ _ _ _ _ (chain_set _ _ _ _ _ Hset)) as Hs.
  destruct (instant_notif c base name e f g Hs Hg) as [H|(st & n0 & n & sg & f1 & v & st' & f2 & cb & st2 & f3 & f4 & n' & H1 & H2 & H3)].
  { by left. }
  right.
  destruct (chain_notif c base name e f Hset _ _ _ _ _ _ _ _ _ _ _ _ _ H1 H2) as (a & m & j & E1 & E2 & Hj & E3 & E4 & Hreset).
  pose proof (an_rsync _ _ _ _ _ _ _ _ _ _ _ _ _ _ _ _ _ H1) as A1.
  pose proof (ac_move _ _ _ _ _ _ _ _ _ _ _ _ _ (ar_clean _ _ _ _ _ _ _ _ _ _ _ _ _ _ _ _ A1)) as A2.
  destruct (am_staged _ _ _ _ _ _ _ _ _ _ A2) as [[Ho Hv] Hcv Hsn Hds _].
  exists st, n0, (n_deltas n), n'. split; [apply A2|]. split; [done|]. split; [by eapply newest_limited|]. split; [done|].
  destruct H2 as (s & Es & En').
  assert (Hdi : forall d d', delta_of base e d d' -> mkDI (ds_serial d') (base +:+ ds_rel d') (ds_hash d') = d).
  { intros [ds du dh] d' (D1 & D2 & D3 & _). cbn in D1, D2, D3. by subst. }
  split; [|split].
  - exists j. rewrite fmap_reverse, E3, reverse_involutive, E1, nseq_drop. done.
  - intros d Hd Hnew. rewrite En'. cbn [n_deltas].
    assert (Hin : d ∈ filter (fun d => delta_is_new st (sg_reset sg) (di_serial d) = true) (n_deltas n)).
    { apply elem_of_list_filter. split; [|done]. unfold delta_is_new. destruct (sg_reset sg); [done|].
      destruct (st_deltas st) as [|d' l'] eqn:Ed; [done|]. cbn [negb]. specialize (Hnew d' ltac:(left)). lia. }
    apply elem_of_list_lookup in Hin as [i Hi]. destruct (Forall2_lookup_l _ _ _ _ _ Hds Hi) as (d' & Hi' & Hdo).
    apply elem_of_list_fmap. exists d'. split; [symmetry; by apply Hdi|].
    apply (new_delta_in c base name e f _ _ _ _ _ _ _ _ _ _ _ d' A1). right. by apply elem_of_list_lookup_2 in Hi'.
  - intros Hsess.
    assert (Hchain : chained st) by (eapply mirror_chained; [apply Hset|apply Hset|apply A2]).
    assert (Hall : kept st sg = [] /\ forall y, delta_is_new st (sg_reset sg) y = true).
    { unfold compare_version in Hcv. destruct (st_snap st) as [s0|] eqn:Es0.
      - assert (Hne : ss_session s0 <> n_session n).
        { destruct (sav_same _ _ _ _ _ Hv) as (-> & _). by apply Hsess. }
        rewrite bool_decide_false in Hcv by done. cbn [negb] in Hcv. injection Hcv as Hr. unfold kept. by rewrite <- Hr.
      - destruct Hchain as (lo & k & Hk & [->|(s1 & Hs1 & _)]); [|congruence]. cbn in Hk.
        assert (Hnil : st_deltas st = []) by (by destruct (st_deltas st)). unfold kept, delta_is_new. rewrite Hnil.
        split; [by destruct (sg_reset sg)|]. intros y. by rewrite orb_true_r. }
    destruct Hall as [Hkept Hall].
    replace (filter _ (n_deltas n)) with (n_deltas n) in Hds.
    2: { clear -Hall. induction (n_deltas n) as [|d l IH]; [done|]. rewrite filter_cons_True by apply Hall. by f_equal. }
    destruct (new_deltas c base name e f _ _ _ _ _ _ _ _ _ _ _ A1) as [E2' _]. rewrite Hkept in E2'. cbn [app] in E2'.
    rewrite sort_by_key_id in E2'.
    2: { apply sorted_unfmap. rewrite (Forall2_serials _ _ _ _ Hds), E1. apply nseq_sorted_le. }
    rewrite En'. cbn [n_deltas]. rewrite E2', fmap_reverse, reverse_involutive. clear -Hds Hdi.
    induction Hds as [|d d' l ds Hd _ IH]; [done|]. cbn. by rewrite (Hdi _ _ Hd), IH.
Qed.
Example C10_applies : chain_setting demo_config base name (env3 1) (tree3 1) /\
  (fun n => di_serial <$> n_deltas n) <$> shown (tree3 1) = Some [3; 2]%N /\
  (di_serial <$> n_deltas (src3 1)) = [5; 4; 3]%N /\
  (fun n => di_serial <$> n_deltas n) <$> shown (tree3 2) = Some [5; 4; 3]%N /\
  chain_setting demo_config base name (env3 2) (tree3 2) /\
  exists st, starts_from demo_config base name (tree3 2) st /\ forall s, st_snap st = Some s -> ss_session s <> n_session (src3 2).
Proof.
  split; [apply chain3; lia|]. split; [apply (served3_deltas 1); lia|]. split; [by vm_compute|].
  split; [apply (served3_deltas 2); lia|]. split; [apply chain3; lia|].
  destruct (state3 2) as (st & H1 & H2); [lia..|]. exists st. split; [by apply state_of_starts|]. intros s Es.
  unfold summary in H2. rewrite Es in H2. injection H2 as H2 _ _ _ _. by rewrite H2.
Qed.
Print Assumptions C10_suffix.

(** ** C11: a session change drops everything of the old session *)
(** When the source's session is new, a completed run lists nothing but what the
    source's notification lists, and records every file of the old state as
    dropped during this run. *)
Theorem C11_new_session c base name e f w st s :
  setting c base name e f -> patient c e -> run c e f = (Ok tt, w) -> w_fs w <> f ->
  starts_from c base name f st -> st_snap st = Some s -> (forall n, offers c e f n -> n_session n <> ss_session s) ->
  exists n n' st', offers c e f n /\
    w_fs w !! notif_path c name = Some (File (x_write_notif (e_ext e) n') None) /\
    n_session n' = n_session n /\ (forall r, r ∈ refs n' -> r ∈ refs n) /\
    recorded c (w_fs w) st' /\ notif_of base st' n' /\
    forall rel h, (rel, h) ∈ state_files st ->
      exists t, run_clock e t /\ mkDep t (public_path c rel) ∈ st_deprecated st'.
Proof.
  intros Hset Hpat Hrun Hch Hst Es Hsess. destruct (C17_saved _ _ _ _ _ _ Hset Hrun Hch) as [stx Hrec].
  assert (Hstx : starts_from c base name (w_fs w) stx).
  { left. split; [|done]. destruct Hrec as (b & Hb & _). unfold op_read in Hb. unfold fs_exists. by destruct (fs_stat (w_fs w) _). }
  apply setting_sane in Hset as Hs.
  destruct (ok_run c base name e f Hs w Hrun)
    as [(H & _)|(st0 & n0 & n & sg & f1 & v & st' & f2 & cb & st2 & f3 & f4 & n' & f5 & Ha & Hsv & Hg & HN & H2)]; [done|].
  destruct (H2 _ Hstx) as [v' ->].
  destruct Ha as [Ha Hno _ _].
  pose proof (an_rsync _ _ _ _ _ _ _ _ _ _ _ _ _ _ _ _ _ Ha) as A1.
  pose proof (ac_move _ _ _ _ _ _ _ _ _ _ _ _ _ (ar_clean _ _ _ _ _ _ _ _ _ _ _ _ _ _ _ _ A1)) as A2.
  destruct A2 as [Hst0 [[Ho Hv] Hcv Hsn Hds _] _ _].
  rewrite <- (starts_unique _ _ _ _ _ _ Hst Hst0) in *. clear st0 Hst0.
  destruct (sav_same _ _ _ _ _ Hv) as (Hv1 & Hv2 & Hv3 & Hv4).
  assert (Hr : sg_reset sg = true).
  { unfold compare_version in Hcv. rewrite Es in Hcv. rewrite bool_decide_false in Hcv.
    - cbn in Hcv. by injection Hcv as <-.
    - rewrite Hv1. intros E. by apply (Hsess _ Ho). }
  assert (Hkept : kept st sg = []) by (unfold kept; by rewrite Hr).
  destruct (new_deltas c base name e f _ _ _ _ _ _ _ _ _ _ _ A1) as [_ Es2].
  exists n0, n', (set_validator st2 v'). split; [done|]. split; [done|].
  destruct Hno as (s2 & Es2' & En'). rewrite Es2 in Es2'. injection Es2' as <-.
  destruct Hsn as (S1 & S2 & S3 & S4 & S5).
  split; [by rewrite En'; cbn; rewrite S1, Hv1|]. split; [|split; [done|split; [by exists (sg_snap sg)|]]].
  - intros r Hr'. rewrite En' in Hr'. unfold refs in Hr'. cbn [n_snap_uri n_snap_hash n_deltas] in Hr'.
    apply elem_of_cons in Hr' as [->|Hr'].
    + rewrite S3, <- S4, Hv3, Hv4. left.
    + apply elem_of_list_fmap in Hr' as (d & -> & Hd). apply elem_of_list_fmap in Hd as (d' & -> & Hd).
      apply (new_delta_in c base name e f _ _ _ _ _ _ _ _ _ _ _ d' A1) in Hd as [Hd|Hd].
      { rewrite Hkept in Hd. by apply elem_of_nil in Hd. }
      apply elem_of_list_lookup in Hd as [i Hi]. destruct (Forall2_lookup_r _ _ _ _ _ Hds Hi) as (d & Hi' & (D1 & D2 & D3 & _)).
      apply elem_of_list_lookup_2, elem_of_list_filter in Hi' as [_ Hin]. cbn [di_uri di_hash]. rewrite D2, <- D3.
      eapply sav_refs; [exact Hv|]. right. apply elem_of_list_fmap. by exists d.
  - intros rel h Hin.
    pose proof (dropped_spec c base name st sg rel h) as Hdrop.
    destruct (records c base name e f _ _ _ _ _ _ _ _ _ _ _ A1) as (deps & D1 & D2 & D3).
    assert (Hp : public_path c rel ∈ dropped st sg).
    { apply Hdrop; [by eapply start_good|done|]. intros d Hd. rewrite Hkept in Hd. by apply elem_of_nil in Hd. }
    rewrite <- D2 in Hp. apply elem_of_list_fmap in Hp as ([t p] & -> & Hd). rewrite Forall_forall in D3.
    exists t. split; [by apply (D3 _ Hd)|]. cbn [set_validator st_deprecated]. rewrite D1. apply elem_of_list_filter. split.
    + destruct (D3 _ Hd) as [b Hb]. destruct (ar_time _ _ _ _ _ _ _ _ _ _ _ _ _ _ _ _ A1) as [a ->].
      cbn in Hb |- *. rewrite Hb. destruct (Hpat a b) as [P1 P2]. unfold wrap64. rewrite Z.mod_small by lia. lia.
    + apply elem_of_app. by right.
Qed.
Example C11_applies : setting demo_config base name (env3 2) (tree3 2) /\ patient demo_config (env3 2) /\
  (exists w, run demo_config (env3 2) (tree3 2) = (Ok tt, w) /\ w_fs w <> tree3 2) /\
  exists st s, starts_from demo_config base name (tree3 2) st /\ st_snap st = Some s /\
    (forall n, offers demo_config (env3 2) (tree3 2) n -> n_session n <> ss_session s) /\ length (state_files st) = 4.
Proof.
  split; [apply setting3; lia|]. split; [apply serve_patient; cbn; lia|]. split.
  { apply ran_changed3. lia. }
  destruct (state3 2) as (st & H1 & H2); [lia..|]. unfold summary in H2. apply fmap_Some in H2 as (s & Es & [= E _ _ E4 _]).
  exists st, s. split; [by apply state_of_starts|]. split; [done|].
  split; [|done]. intros n ->%env3_offers; [|lia]. by rewrite <- E.
Qed.
Print Assumptions C11_new_session.
