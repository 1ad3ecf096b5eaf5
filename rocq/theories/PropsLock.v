(** * Only one instance works on a state directory (C42) *)
From Coq Require Import ZifyN ZifyNat ZifyBool.
From Verif Require Import Lock HistoryProofs DemoRun Refuted.
From Verif Require Import FsWf.

Lemma lock_path_eq c : lock_path c = c_state_dir c ++ ["krill-sync.lock"].
Proof. unfold lock_path. by rewrite path_join_clean by (by vm_compute; repeat constructor). Qed.

(** the configurations of the processes: same files, and none of the public
    directories is called like the lock file *)
Record same_mirror (c : config) (base name : string) (cs : nat -> config) : Prop := {
  sm_cfg : cfg_ok c base name;
  sm_places : forall k, same_places c (cs k);
  sm_rrdp : c_rrdp_dir c <> c_state_dir c ++ ["krill-sync.lock"];
  sm_rsync : c_rsync_dir c <> c_state_dir c ++ ["krill-sync.lock"] }.

Lemma upd_same f k p : upd f k p k = p.
Proof. unfold upd. by rewrite decide_True. Qed.
Lemma upd_other f k p j : j <> k -> upd f k p j = f j.
Proof. intros H. unfold upd. by rewrite decide_False. Qed.

Section lock.
  Context (c : config) (base name : string) (cs : nat -> config) (Hsm : same_mirror c base name cs).
  Let Hc : cfg_ok c base name := sm_cfg _ _ _ _ Hsm.
  Notation lk := (lock_path c).
  Notation M := (mirror any_notif c base name).

  Lemma state_prefix_not_owned p : p `prefix_of` c_state_dir c -> ~ owned c p.
  Proof using Hc.
    intros Hp. assert (Hsp : under p (rrdp_state_path c)).
    { rewrite rrdp_state_eq. eapply under_trans; [exact Hp|apply under_app]. }
    intros [H|[H|[H|[H|H]]]].
    - rewrite staging_eq in H. apply prefix_length in H. apply prefix_length in Hp. rewrite app_length in H. cbn in H. lia.
    - apply (ck_sp_r _ _ _ Hc). by eapply under_trans.
    - apply (ck_sp_y _ _ _ Hc). by eapply under_trans.
    - rewrite rrdp_state_eq in H. apply prefix_length in Hp. rewrite H, app_length in Hp. cbn in Hp. lia.
    - rewrite rsync_state_eq in H. apply prefix_length in Hp. rewrite H, app_length in Hp. cbn in Hp. lia.
  Qed.
  Lemma lock_not_owned : ~ owned c lk.
  Proof using Hsm Hc.
    rewrite lock_path_eq. intros [H|[H|[H|[H|H]]]].
    - rewrite staging_eq in H. destruct H as [k Hk]. rewrite <- app_assoc in Hk. apply app_inv_head in Hk. done.
    - apply (state_prefix_not_owned (c_rrdp_dir c)); [|right; left; apply under_refl].
      destruct (decide (c_rrdp_dir c = c_state_dir c ++ ["krill-sync.lock"])) as [E|E]; [by destruct (sm_rrdp _ _ _ _ Hsm)|].
      by apply below_snoc with (c := "krill-sync.lock").
    - apply (state_prefix_not_owned (c_rsync_dir c)); [|right; right; left; apply under_refl].
      destruct (decide (c_rsync_dir c = c_state_dir c ++ ["krill-sync.lock"])) as [E|E]; [by destruct (sm_rsync _ _ _ _ Hsm)|].
      by apply below_snoc with (c := "krill-sync.lock").
    - rewrite rrdp_state_eq in H. apply app_inv_head in H. done.
    - rewrite rsync_state_eq in H. apply app_inv_head in H. done.
  Qed.
  Lemma places_owned k p : owned (cs k) p <-> owned c p.
  Proof using Hsm.
    destruct (sm_places _ _ _ _ Hsm k) as (E1 & E2 & E3 & E4).
    unfold owned, staging_dir, rrdp_state_path, rsync_state_path. by rewrite E2, E3, E4.
  Qed.
  Lemma mirror_wf f : M f -> wf f.
  Proof using Hc. intros H. by apply (mirror_own _ _ _ _ _ Hc H). Qed.

  (** the lock file stays in place during a run *)
  Lemma run_lock k e f g b m : M f -> good_world (cs k) base name e f -> g ∈ instants (cs k) e f ->
    f !! lk = Some (File b m) -> g !! lk = Some (File b m) /\ M g.
  Proof using Hsm Hc.
    intros Hm Hw Hg E. pose proof (sm_places _ _ _ _ Hsm k) as Hp. split.
    - assert (Hs : sane (cs k) base name e f) by (by eapply mirror_sane).
      destruct (phase_frame _ base name e f Hs g (instant_phase _ base name e f Hs g Hg)) as [_ Hmod].
      destruct (Hmod lk) as [H|[H|(Ha & H1 & H2)]]; [congruence| |].
      + apply places_owned in H. by destruct (lock_not_owned H).
      + rewrite E in H1. by destruct H1.
    - eapply (mi_run _ _ _ _ _ (cs k) e); done.
  Qed.

  (** the invariant *)
  Record inv (s : sys) : Prop := {
    in_mirror : M (s_tree s);
    in_making : forall k ks, s_procs s k = Making ks -> Forall (fun p => p `prefix_of` c_state_dir c /\ p <> []) ks;
    in_trying : forall k i, s_procs s k = Trying i -> i = s_ino s /\ exists b m, s_tree s !! lk = Some (File b m);
    in_working : forall k i rest seen, s_procs s k = Working i rest seen ->
      i = s_ino s /\ s_locks s !! i = Some k /\ seen = s_tree s /\
      exists b m, s_tree s !! lk = Some (File b m) /\ Forall (fun g => M g /\ g !! lk = Some (File b m)) rest;
    in_clash : s_clash s = false }.

  (** a process that works is not disturbed by the others' preparations *)
  Lemma mkdir_tree s p mids g : inv s -> p `prefix_of` c_state_dir c -> p <> [] ->
    op_mkdir p (s_tree s) = Some (mids, g) ->
    M g /\ g !! lk = s_tree s !! lk /\ (forall b m, s_tree s !! lk = Some (File b m) -> g = s_tree s).
  Proof using Hsm Hc.
    intros Hi Hp Hne E. unfold op_mkdir in E. rewrite fs_get_nonroot in E by done.
    pose proof (mirror_wf _ (in_mirror _ Hi)) as Hwf.
    assert (Hpl : p <> lk).
    { intros ->. rewrite lock_path_eq in Hp. apply prefix_length in Hp. rewrite app_length in Hp. cbn in Hp. lia. }
    destruct (s_tree s !! p) as [[| |]|] eqn:Ep; try done.
    - injection E as _ <-. split; [apply Hi|done].
    - destruct (parent_is_dir (s_tree s) p) eqn:Hpd; [|done]. injection E as _ <-. split; [|split].
      + eapply mi_else; [apply Hi| |].
        * by apply (wf_mk (fun _ => True)).
        * intros q Hq. rewrite lookup_insert_ne; [done|]. intros ->. by apply (state_prefix_not_owned q).
      + by rewrite lookup_insert_ne.
      + intros b m El. exfalso.
        assert (Hx : s_tree s !! p = Some Dir); [|congruence].
        eapply wf_below; [exact Hwf|exact El| |done]. rewrite lock_path_eq. by apply below_snoc.
  Qed.

  Lemma ino_same s g : g !! lk = s_tree s !! lk -> ino_after c s g = s_ino s.
  Proof using. intros E. unfold ino_after. by rewrite decide_True. Qed.
  Lemma inits_ok p : p ∈ inits_from [] (c_state_dir c) -> p `prefix_of` c_state_dir c /\ p <> [].
  Proof using.
    intros H. pose proof (inits_from_prefix _ _ _ H) as [_ Hpre]. cbn in Hpre. split; [done|]. by eapply inits_from_last.
  Qed.
  Lemma release_ne k j i l : j <> k -> release k l !! i = Some j <-> l !! i = Some j.
  Proof using. intros H. unfold release. rewrite map_filter_lookup_Some. cbn. naive_solver. Qed.

  (** a step of a process that is not working keeps the others' places *)
  Lemma inv_move s k p g locks :
    inv s -> M g -> g !! lk = s_tree s !! lk -> (forall b m, s_tree s !! lk = Some (File b m) -> g = s_tree s) ->
    (forall j, j <> k -> forall i, s_locks s !! i = Some j -> locks !! i = Some j) ->
    (forall ks, p = Making ks -> Forall (fun q => q `prefix_of` c_state_dir c /\ q <> []) ks) ->
    (forall i, p = Trying i -> i = s_ino s /\ exists b m, g !! lk = Some (File b m)) ->
    (forall i rest seen, p <> Working i rest seen) ->
    inv (mkSys g (ino_after c s g) locks (upd (s_procs s) k p) (s_clash s)).
  Proof using.
    intros Hi Hm El Heq Hlk H1 H2 H3. rewrite ino_same by done. split; cbn [s_tree s_ino s_locks s_procs s_clash].
    - done.
    - intros j ks. destruct (decide (j = k)) as [->|Hj]; [rewrite upd_same; apply H1|rewrite upd_other by done; apply Hi].
    - intros j i. destruct (decide (j = k)) as [->|Hj]; [rewrite upd_same; apply H2|rewrite upd_other by done].
      intros Ej. destruct (in_trying _ Hi _ _ Ej) as (-> & b & m & Hb). split; [done|]. exists b, m. congruence.
    - intros j i rest seen. destruct (decide (j = k)) as [->|Hj]; [rewrite upd_same; intros E; by apply H3 in E|rewrite upd_other by done].
      intros E. destruct (in_working _ Hi _ _ _ _ E) as (W1 & W2 & W3 & b & m & W4 & W5).
      rewrite (Heq b m W4). split; [done|]. split; [by apply Hlk|]. split; [done|]. by exists b, m.
    - apply Hi.
  Qed.
  Lemma inv_local s k p locks : inv s ->
    (forall j, j <> k -> forall i, s_locks s !! i = Some j -> locks !! i = Some j) ->
    (forall ks, p = Making ks -> Forall (fun q => q `prefix_of` c_state_dir c /\ q <> []) ks) ->
    (forall i, p = Trying i -> i = s_ino s /\ exists b m, s_tree s !! lk = Some (File b m)) ->
    (forall i rest seen, p <> Working i rest seen) ->
    inv (mkSys (s_tree s) (s_ino s) locks (upd (s_procs s) k p) (s_clash s)).
  Proof using.
    intros Hi H0 H1 H2 H3. rewrite <- (ino_same s (s_tree s)) at 1 by done. by apply inv_move; [|apply Hi|..].
  Qed.

  Lemma inv_step s k s' : inv s -> sys_step c base name cs k s s' -> inv s'.
  Proof using Hsm Hc.
    intros Hi. destruct 1 as [s E Ex|s E Ex|s p ks mids g E Ep|s E|s b m E El|s E El Epd|s i e E El Hw|s i j E El
      |s i g rest seen E Et|s i rest seen g E Et|s i seen E|s].
    - by apply inv_local.
    - apply inv_local; try done. intros ks [= <-]. apply Forall_forall. apply inits_ok.
    - pose proof (in_making _ Hi _ _ E) as Hks. apply Forall_cons in Hks as [[Hp1 Hp2] Hks].
      destruct (mkdir_tree s p mids g Hi Hp1 Hp2 Ep) as (H1 & H2 & H3).
      apply inv_move; try done. by intros ks' [= <-].
    - by apply inv_local.
    - apply inv_local; try done. intros i [= <-]. eauto.
    - (* nobody has it open yet *)
      assert (Hno : forall j i, s_procs s j <> Trying i).
      { intros j i Ej. destruct (in_trying _ Hi _ _ Ej) as (_ & b & m & ?). congruence. }
      assert (Hnw : forall j i rest seen, s_procs s j <> Working i rest seen).
      { intros j i rest seen Ej. destruct (in_working _ Hi _ _ _ _ Ej) as (_ & _ & _ & b & m & ? & _). congruence. }
      assert (Hlkn : lk <> []) by (rewrite lock_path_eq; by destruct (c_state_dir c)).
      split; cbn [s_tree s_ino s_locks s_procs s_clash].
      + eapply mi_else; [apply Hi| |].
        * apply wf_put; [apply mirror_wf, Hi|congruence|done|done].
        * intros q Hq. rewrite lookup_insert_ne; [done|]. intros <-. by apply lock_not_owned.
      + intros j ks. destruct (decide (j = k)) as [->|Hj]; [by rewrite upd_same|rewrite upd_other by done; apply Hi].
      + intros j i. destruct (decide (j = k)) as [->|Hj].
        * rewrite upd_same. intros [= <-]. split; [done|]. rewrite lookup_insert. eauto.
        * rewrite upd_other by done. intros Ej. by apply Hno in Ej.
      + intros j i rest seen. destruct (decide (j = k)) as [->|Hj]; [by rewrite upd_same|]. rewrite upd_other by done.
        intros Ej. by apply Hnw in Ej.
      + apply Hi.
    - destruct (in_trying _ Hi _ _ E) as (-> & b & m & Hb).
      assert (Hnw : forall j i rest seen, s_procs s j <> Working i rest seen).
      { intros j i rest seen Ej. destruct (in_working _ Hi _ _ _ _ Ej) as (-> & Hl & _). congruence. }
      split; cbn [s_tree s_ino s_locks s_procs s_clash].
      + apply Hi.
      + intros j ks. destruct (decide (j = k)) as [->|Hj]; [by rewrite upd_same|rewrite upd_other by done; apply Hi].
      + intros j i. destruct (decide (j = k)) as [->|Hj]; [by rewrite upd_same|rewrite upd_other by done; apply Hi].
      + intros j i rest seen. destruct (decide (j = k)) as [->|Hj]; [rewrite upd_same|rewrite upd_other by done; intros Ej; by apply Hnw in Ej].
        intros [= <- <- <-]. split; [done|]. split; [by rewrite lookup_insert|]. split; [done|]. exists b, m. split; [done|].
        apply Forall_forall. intros g Hg. destruct (run_lock k e (s_tree s) g b m) as [R1 R2]; [apply Hi|done| |done|done].
        unfold instants. by right.
      + apply Hi.
    - by apply inv_local.
    - destruct (in_working _ Hi _ _ _ _ E) as (-> & Hl & _ & b & m & Hb & Hr). apply Forall_cons in Hr as [[Hm Hg] Hr].
      assert (Hnw : forall j i rest' seen', j <> k -> s_procs s j <> Working i rest' seen').
      { intros j i rest' seen' Hj Ej. destruct (in_working _ Hi _ _ _ _ Ej) as (-> & Hl' & _). congruence. }
      rewrite ino_same by congruence. split; cbn [s_tree s_ino s_locks s_procs s_clash].
      + done.
      + intros j ks. destruct (decide (j = k)) as [->|Hj]; [by rewrite upd_same|rewrite upd_other by done; apply Hi].
      + intros j i. destruct (decide (j = k)) as [->|Hj]; [by rewrite upd_same|rewrite upd_other by done].
        intros Ej. destruct (in_trying _ Hi _ _ Ej) as (-> & _). eauto.
      + intros j i rest' seen'. destruct (decide (j = k)) as [->|Hj]; [rewrite upd_same|rewrite upd_other by done; intros Ej; by apply Hnw in Ej].
        intros [= <- <- <-]. split; [done|]. split; [done|]. split; [done|]. by exists b, m.
      + apply Hi.
    - destruct (in_working _ Hi _ _ _ _ E) as (_ & _ & -> & _). done.
    - apply inv_local; try done. intros j Hj i'. by apply release_ne.
    - apply inv_local; try done. intros j Hj i'. by apply release_ne.
  Qed.
  Lemma inv_reach s : reach c base name cs s -> inv s.
  Proof using Hsm Hc.
    induction 1 as [f Hf|s k s' Hr IH Hs|s g Hr IH Hnw Hwf Hg].
    - by split.
    - by eapply inv_step.
    - split; cbn [s_tree s_ino s_locks s_procs s_clash].
      + eapply mi_else; [apply IH|done|]. intros p Hp. apply Hg. by left.
      + apply IH.
      + intros k i. rewrite (Hg lk) by (by right). apply IH.
      + intros k i rest seen E. by apply Hnw in E.
      + apply IH.
  Qed.
End lock.

(** ** C42 *)
(** In every interleaving of any number of processes, at most one works. *)
Theorem C42_exclusive c base name cs s j k i i' rest rest' seen seen' :
  same_mirror c base name cs -> reach c base name cs s ->
  s_procs s j = Working i rest seen -> s_procs s k = Working i' rest' seen' -> j = k.
Proof.
  intros Hsm Hr Ej Ek. pose proof (inv_reach c base name cs Hsm s Hr) as Hi.
  destruct (in_working _ _ _ _ Hi _ _ _ _ Ej) as (-> & H1 & _).
  destruct (in_working _ _ _ _ Hi _ _ _ _ Ek) as (-> & H2 & _). congruence.
Qed.
(** No process ever finds that another changed something under its hands, and
    every tree that occurs is one that runs one after the other can leave: all
    theorems about histories apply. *)
Theorem C42_sequential c base name cs s :
  same_mirror c base name cs -> reach c base name cs s ->
  s_clash s = false /\ mirror any_notif c base name (s_tree s).
Proof. intros Hsm Hr. pose proof (inv_reach c base name cs Hsm s Hr) as Hi. split; apply Hi. Qed.
(** A process that does not have the lock changes nothing but the existence of
    the state directory and of the lock file. *)
Theorem C42_waiting c base name cs s k s' p :
  same_mirror c base name cs -> reach c base name cs s -> sys_step c base name cs k s s' ->
  (forall i rest seen, s_procs s k <> Working i rest seen) ->
  s_tree s' !! p <> s_tree s !! p ->
  s_tree s !! p = None /\
  ((s_tree s' !! p = Some Dir /\ p `prefix_of` c_state_dir c) \/
   (s_tree s' !! p = Some (File "" None) /\ p = c_state_dir c ++ ["krill-sync.lock"])).
Proof.
  intros Hsm Hr Hst Hnw Hp. pose proof (inv_reach c base name cs Hsm s Hr) as Hi.
  destruct Hst as [s E Ex|s E Ex|s q ks mids g E Ep|s E|s b m E El|s E El Epd|s i e E El Hw|s i j E El
      |s i g rest seen E Et|s i rest seen g E Et|s i seen E|s]; try done; cbn in *.
  - pose proof (in_making _ _ _ _ Hi _ _ E) as Hks. apply Forall_cons in Hks as [[Hp1 Hp2] _].
    unfold op_mkdir in Ep. rewrite fs_get_nonroot in Ep by done. destruct (s_tree s !! q) as [[| |]|] eqn:Eq; try done; [by injection Ep as _ <-|].
    destruct (parent_is_dir _ _); [|done]. injection Ep as _ <-.
    destruct (decide (p = q)) as [->|Hne]; [|by rewrite lookup_insert_ne in Hp]. rewrite lookup_insert. auto.
  - destruct (decide (p = lock_path c)) as [->|Hne]; [|by rewrite lookup_insert_ne in Hp]. rewrite lookup_insert.
    rewrite lock_path_eq at 3. auto.
  - by apply Hnw in E.
  - by apply Hnw in E.
Qed.
(** and if the lock is taken, it ends without changing anything *)
Theorem C42_refused c base name cs s k i j :
  s_procs s k = Trying i -> s_locks s !! i = Some j ->
  forall s', sys_step c base name cs k s s' -> s_tree s' = s_tree s /\ s_procs s' k = Ended.
Proof.
  intros E El s' Hst.
  destruct Hst as [s E' Ex|s E' Ex|s q ks mids g E' Ep|s E'|s b m E' El'|s E' El' Epd|s i' e E' El' Hw|s i' j' E' El'
      |s i' g rest seen E' Et|s i' rest seen g E' Et|s i' seen E'|s]; cbn; try congruence.
  - split; [done|apply upd_same].
  - split; [done|apply upd_same].
Qed.

(** The program itself, when it finds the lock taken ([false]): it fails, and
    sends no request, runs no script and changes nothing but the existence of the
    state directory and of the lock file. *)
Definition prepared (c : config) (f g : fs) : Prop :=
  forall p, g !! p = f !! p \/
    (f !! p = None /\ ((g !! p = Some Dir /\ p `prefix_of` c_state_dir c) \/
                       (g !! p = Some (File "" None) /\ p = c_state_dir c ++ ["krill-sync.lock"]))).
Definition only_prepares (c : config) (f : fs) (ev : event) : Prop :=
  exists g, ev = EvFs g /\ prepared c f g.
Lemma prepared_mkdir c f g q mids fin : q `prefix_of` c_state_dir c -> q <> [] -> prepared c f g ->
  op_mkdir q g = Some (mids, fin) -> mids = [] /\ prepared c f fin.
Proof.
  intros Hq Hne Hp E. unfold op_mkdir in E. rewrite fs_get_nonroot in E by done.
  destruct (g !! q) as [[| |]|] eqn:Eq; try done; [by injection E as <- <-|].
  destruct (parent_is_dir g q); [|done]. injection E as <- <-. split; [done|]. intros p.
  destruct (decide (p = q)) as [->|Hpq]; [|rewrite lookup_insert_ne by done; apply Hp]. rewrite lookup_insert. right.
  split; [|auto]. destruct (Hp q) as [Ex|(Ex & _)]; congruence.
Qed.
Theorem C42_try_main c e f r w :
  try_main c false e (resume f) = (r, w) -> (forall u, r <> Ok u) /\ Forall (only_prepares c f) (w_trace w).
Proof.
  intros E.
  assert (H : wpt e (only_prepares c f) (try_main c false) (resume f) (fun r _ => forall u, r <> Ok u)).
  { unfold try_main. apply wpt_bind, wpt_exists, wpt_bind.
    apply (wpt_post _ _ _ _ (fun _ w' => prepared c f (w_fs w'))).
    { destruct (fs_exists _ _); cbn [unless_]; [apply wpt_ret; intros p; by left|]. unfold create_dir_all.
      assert (Hl : Forall (fun q => q `prefix_of` c_state_dir c /\ q <> []) (inits_from [] (c_state_dir c))).
      { apply Forall_forall. apply inits_ok. }
      assert (H0 : prepared c f (w_fs (resume f))) by (intros p; by left).
      revert Hl H0. generalize (inits_from [] (c_state_dir c)) (resume f). induction l as [|q l IH]; intros w0 Hl Hp; cbn [for_each].
      - by apply wpt_ret.
      - apply Forall_cons in Hl as [[Hq1 Hq2] Hl]. apply wpt_bind. unfold f_mkdir. apply wpt_fs_step; [done|].
        intros mids fin Em. destruct (prepared_mkdir c f _ q mids fin Hq1 Hq2 Hp Em) as [-> Hf]. cbn [app].
        split; [constructor; [by exists fin|constructor]|]. split; [by apply IH|]. intros j _. by rewrite take_nil. }
    intros [[]|x|] w' Hw; [|done|done]. apply wpt_bind, wpt_exists, wpt_bind.
    destruct (fs_exists (w_fs w') (lock_path c)) eqn:Ex; cbn [unless_].
    { apply wpt_ret. by apply wpt_fail. }
    unfold f_write. apply wpt_fs_step; [done|]. intros mids fin Ew. unfold op_write in Ew.
    assert (Hlkn : lock_path c <> []) by (rewrite lock_path_eq; by destruct (c_state_dir c)).
    unfold fs_exists, fs_stat in Ex. rewrite fs_get_nonroot in Ex, Ew by done.
    destruct (w_fs w' !! lock_path c) as [[| |]|] eqn:El; try done.
    destruct (parent_is_dir _ _); [|done]. cbn in Ew. injection Ew as <- <-. cbn [app].
    split; [|split; [by apply wpt_fail|done]]. constructor; [|constructor]. eexists. split; [done|]. intros p.
    destruct (decide (p = lock_path c)) as [->|Hne]; [|rewrite lookup_insert_ne by done; apply Hw].
    rewrite lookup_insert. right. rewrite <- lock_path_eq. split; [|auto].
    destruct (Hw (lock_path c)) as [Ey|(Ey & _)]; congruence. }
  destruct H as (l & H1 & H2 & H3). rewrite E in H1, H3. cbn [fst snd] in *. rewrite H1. done.
Qed.

(** a second process while the first works *)
Definition demo_procs (k : nat) : config := demo_config.
Lemma demo_same_mirror : same_mirror demo_config base name demo_procs.
Proof. split; [apply demo_cfg_ok|done|done|done]. Qed.

(** process 0 is at work, with changes to make; process 1 has opened the lock file
    and is about to be refused *)
Example C42_applies : exists s i rest seen,
  reach demo_config base name demo_procs s /\ s_procs s 0 = Working i rest seen /\ rest <> [] /\
  s_procs s 1 = Trying i /\ s_locks s !! i = Some 0.
Proof.
  set (c := demo_config). set (R := reach c base name demo_procs).
  assert (Hm : mirror any_notif c base name start_tree) by (apply (mirror3 0); lia).
  set (s0 := mkSys start_tree 0 ∅ (fun _ => Start) false).
  assert (H0 : R s0) by by apply r_init.
  set (sa := at_proc s0 0 (Making [["var"]; ["var"; "ks"]])).
  assert (Ha : R sa).
  { eapply r_step; [exact H0|]. apply (s_missing c base name demo_procs 0 s0); [done|by vm_compute]. }
  set (sb := mkSys start_tree 0 ∅ (upd (s_procs sa) 0 (Making [["var"; "ks"]])) false).
  assert (Hb : R sb).
  { eapply r_step; [exact Ha|]. apply (s_mkdir c base name demo_procs 0 sa ["var"] _ [] start_tree); [done|by vm_compute]. }
  set (f0 := <[["var"; "ks"] := Dir]> start_tree).
  set (sc := mkSys f0 0 ∅ (upd (s_procs sb) 0 (Making [])) false).
  assert (Hd : R sc).
  { eapply r_step; [exact Hb|]. apply (s_mkdir c base name demo_procs 0 sb ["var"; "ks"] _ [] f0); [done|by vm_compute]. }
  set (s1 := at_proc sc 0 Opening).
  assert (H1 : R s1) by (eapply r_step; [exact Hd|by apply s_made]).
  set (f1 := <[lock_path c := File "" None]> f0).
  set (s2 := mkSys f1 1 ∅ (upd (s_procs s1) 0 (Trying 1)) false).
  assert (H2 : R s2) by (eapply r_step; [exact H1|apply (s_create c base name demo_procs 0 s1); by vm_compute]).
  set (s3 := mkSys f1 1 {[1 := 0]} (upd (s_procs s2) 0 (Working 1 (trees (w_trace (run c (env3 0) f1).2)) f1)) false).
  assert (H3 : R s3).
  { eapply r_step; [exact H2|]. apply (s_lock c base name demo_procs 0 s2 1 (env3 0)); [done|done|]. apply env3_good. lia. }
  set (s4 := at_proc s3 1 Opening).
  assert (H4 : R s4).
  { eapply r_step; [exact H3|]. apply s_exists; [done|]. by vm_compute. }
  set (s5 := at_proc s4 1 (Trying 1)).
  assert (H5 : R s5).
  { eapply r_step; [exact H4|]. apply (s_open c base name demo_procs 1 s4 "" None); [done|]. apply lookup_insert. }
  exists s5, 1, (trees (w_trace (run c (env3 0) f1).2)), f1.
  split; [exact H5|]. split; [reflexivity|]. split; [|split; reflexivity].
  assert (Hl : Nat.ltb 0 (length (trees (w_trace (run c (env3 0) f1).2))) = true) by vme.
  intros E. rewrite E in Hl. discriminate Hl.
Qed.
Print Assumptions C42_exclusive.
Print Assumptions C42_sequential.
Print Assumptions C42_waiting.
Print Assumptions C42_refused.
Print Assumptions C42_try_main.
