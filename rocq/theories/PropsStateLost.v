(** * C81: what runs do when the state file is gone *)
From Coq Require Import ZifyN ZifyNat ZifyBool.
From Verif Require Import PropsRun RunDone PropsHistory DemoRun Refuted PropsRsync PropsSource PropsRecover.
From Verif Require Import FsWf HistoryProofs.

(** ** Specification *)
(** Runs with the directories of [c], from the tree [f] on: completed, failed or
    killed at any instant, with other options as they like, while the source
    offers only notifications that satisfy [P].  In between, others may change
    what krill-sync does not own. *)
Inductive runs_from (P : notification -> Prop) (c : config) (base name : string) (f : fs) : fs -> Prop :=
| rf_start : runs_from P c base name f f
| rf_run g c' e h : runs_from P c base name f g -> same_places c c' -> good_world c' base name e g ->
    (forall n, offers c' e g n -> P n) -> h ∈ instants c' e g -> runs_from P c base name f h
| rf_else g h : runs_from P c base name f g -> wf h -> (forall p, owned c p -> h !! p = g !! p) ->
    runs_from P c base name f h.
(** the notification lists no file that is published at, above or below [p] *)
Definition spares (c : config) (base : string) (p : path) (n : notification) : Prop :=
  forall u h rel, (u, h) ∈ refs n -> u = base +:+ rel -> apart p (public_path c rel).

(** ** Proofs *)
Lemma none_starts c base name f st : f !! rrdp_state_path c = None -> starts_from c base name f st -> st = first_state c base name.
Proof.
  intros E [[Hx _]|[_ ->]]; [|done]. unfold fs_exists, fs_stat in Hx. rewrite fs_get_nonroot, E in Hx by apply state_path_ne. done.
Qed.

Section untouched.
  Context (c : config) (base name : string) (e : env) (f : fs) (p : path).
  Context (Hs : sane c base name e f) (Hp : under (c_rrdp_dir c) p) (HN : apart p (notif_path c name)) (Ht : apart p (notif_tmp c name)).
  Context (HP : forall n, offers c e f n -> spares c base p n).
  Context (Hd : forall st, starts_from c base name f st -> drawn (spares c base p) c base st).

  Lemma lost_listed rel : listed_name (spares c base p) base rel -> apart p (public_path c rel).
  Proof using. intros (n & h & Hn & Hin). by eapply Hn. Qed.
  Lemma lost_entry st n0 n sg f1 en : at_move c base name e f st n0 n sg f1 -> en ∈ staged_entries sg -> apart p (public_path c en.1).
  Proof using Hs HP.
    intros Ha Hin. destruct (entry_ref c base name e f Hs _ _ _ _ _ _ Ha Hin) as ([Ho Hv] & _ & Hr).
    eapply (HP n0 Ho); [by eapply sav_refs|done].
  Qed.
  Lemma lost_dropped st n0 n sg f1 v st' f2 d : at_clean c base name e f st n0 n sg f1 v st' f2 -> d ∈ st_deprecated st' ->
    apart p (dp_path d).
  Proof using Hs Hd.
    intros Ha Hin. pose proof (ac_move _ _ _ _ _ _ _ _ _ _ _ _ _ Ha) as Hmv.
    pose proof (am_start _ _ _ _ _ _ _ _ _ _ Hmv) as Hst. destruct (Hd _ Hst) as [D1 D2].
    destruct (mg_deprecated _ _ _ _ (ac_merged _ _ _ _ _ _ _ _ _ _ _ _ _ Ha)) as (deps & M1 & M2 & _). rewrite M1 in Hin.
    apply elem_of_app in Hin as [Hin|Hin].
    { destruct (D1 d Hin) as (rel & H1 & ->). by apply lost_listed. }
    pose proof (start_good _ _ _ _ _ Hs _ Hst) as Hg.
    assert (Hdr : dp_path d ∈ dropped (set_validator st v) sg) by (rewrite <- M2; apply elem_of_list_fmap; by exists d).
    destruct (dropped_files c base name (set_validator st v) sg (dp_path d)) as (rel & h & H1 & ->); [by apply good_set_validator|done|].
    apply lost_listed. by eapply D2.
  Qed.

  Lemma lost_quiet : apart p (staging_dir c) /\ apart p (c_rsync_dir c) /\ apart p (rsync_state_path c) /\ apart p (rrdp_state_path c).
  Proof using Hs Hp.
    pose proof (sn_cfg _ _ _ _ _ Hs) as Hc.
    split; [|split; [|split]]; (eapply apart_sub_l; [|exact Hp]).
    - apply apart_sym, (ck_s_r _ _ _ Hc).
    - apply (ck_r_y _ _ _ Hc).
    - apply apart_sym, (ck_yp_r _ _ _ Hc).
    - apply apart_sym, (ck_sp_r _ _ _ Hc).
  Qed.
  Lemma lost_instant g : g ∈ instants c e f -> g !! p = f !! p.
  Proof using All.
    intros Hg%(instant_phase c base name e f Hs). destruct lost_quiet as (Q1 & Q2 & Q3 & Q4).
    assert (X0 : forall g, stage_tree c f g -> g !! p = f !! p).
    { intros h Hh. apply (stage_same c f h p Hh); [by apply (apart_out _ _ Q1)|]. intros Hb.
      by apply (proj2 (apart_out _ _ Q1) (staging_dir c) (under_refl _)). }
    assert (X1 : forall st n0 n sg f1 g, at_move c base name e f st n0 n sg f1 -> inside (move_area c sg) f1 g -> g !! p = f !! p).
    { intros st n0 n sg f1 h Ha HI. rewrite (move_same c sg f1 h p); [apply X0, Ha|done| |done].
      intros en Hin. by eapply lost_entry. }
    assert (X2 : forall st n0 n sg f1 v st' f2 cb g, at_clean c base name e f st n0 n sg f1 v st' f2 -> cleaning st' cb f2 g -> g !! p = f !! p).
    { intros st n0 n sg f1 v st' f2 cb h Ha HI. rewrite (clean_same st' cb f2 h p); [eapply X1; apply Ha| |done].
      intros d Hin. by eapply lost_dropped. }
    assert (X3 : forall st n0 n sg f1 v st' f2 cb st2 f3 g, at_rsync c base name e f st n0 n sg f1 v st' f2 cb st2 f3 ->
      inside (rsync_area c) f3 g -> g !! p = f !! p).
    { intros st n0 n sg f1 v st' f2 cb st2 f3 h Ha HI. rewrite (rsync_same c f3 h p) by done. eapply X2; apply Ha. }
    assert (X4 : forall st n0 n sg f1 v st' f2 cb st2 f3 f4 doc g, at_notify c base name e f st n0 n sg f1 v st' f2 cb st2 f3 f4 ->
      notifying c name doc f4 g -> g !! p = f !! p).
    { intros st n0 n sg f1 v st' f2 cb st2 f3 f4 doc h Ha Hn. rewrite (notify_same c name doc f4 h p) by done. eapply X3; apply Ha. }
    destruct Hg as [[H|st n0 n sg f1 H1 H2 _|st n0 n sg f1 v st' f2 cb H1 H2 H3|st n0 n sg f1 v st' f2 cb st2 f3 H1 H2]
      |st n0 n sg f1 v st' f2 cb st2 f3 f4 n' H1 H2 H3|st n0 n sg f1 v st' f2 cb st2 f3 f4 n' f5 H1 H2].
    - by apply X0.
    - by eapply X1.
    - by eapply X2.
    - by eapply X3.
    - by eapply X4.
    - rewrite (save_same c (state_text st2) f5 g p) by done. eapply X4; apply H1.
  Qed.
End untouched.

(** What is in the RRDP directory when krill-sync starts without a state file, and
    is not listed by the source from then on, is never changed and never removed. *)
Theorem C81_leftovers c base name f g p :
  cfg_ok c base name -> wf f -> f !! rrdp_state_path c = None ->
  under (c_rrdp_dir c) p -> apart p (notif_path c name) -> apart p (notif_tmp c name) ->
  runs_from (spares c base p) c base name f g -> g !! p = f !! p.
Proof.
  intros Hc Hwf Hnone Hp HN Ht Hr.
  enough (own_tree c base name g /\ (forall st, starts_from c base name g st -> drawn (spares c base p) c base st) /\ g !! p = f !! p) by tauto.
  induction Hr as [|g c2 e h Hr (IH1 & IH2 & IH3) Hsp [Hw1 Hw2] HP Hh|g h Hr (IH1 & IH2 & IH3) Hwf' Ho].
  - split; [by apply own_start|]. split; [|done]. intros st ->%none_starts; [apply drawn_first|done].
  - assert (Hs : sane c2 base name e g) by (split; [by eapply places_cfg|by eapply own_to|done|done]).
    assert (Ep : forall rel, public_path c2 rel = public_path c rel) by (intros; apply (places_public c c2 Hsp)).
    assert (Hsw : forall n, spares c2 base p n <-> spares c base p n).
    { intros n. split; intros H u k rel Hin Eu; [rewrite <- Ep|rewrite Ep]; by eapply H. }
    assert (Hdw : forall st, drawn (spares c2 base p) c2 base st <-> drawn (spares c base p) c base st).
    { intros st. split; intros [D1 D2]; split.
      - intros d Hin. destruct (D1 d Hin) as (rel & (n & k & H1 & H2) & H3). exists rel. rewrite <- Ep. split; [|done].
        exists n, k. by rewrite <- Hsw.
      - intros rel k Hin. destruct (D2 _ _ Hin) as (n & k' & H1 & H2). exists n, k'. by rewrite <- Hsw.
      - intros d Hin. destruct (D1 d Hin) as (rel & (n & k & H1 & H2) & H3). exists rel. rewrite Ep. split; [|done].
        exists n, k. by rewrite Hsw.
      - intros rel k Hin. destruct (D2 _ _ Hin) as (n & k' & H1 & H2). exists n, k'. by rewrite Hsw. }
    assert (HP2 : forall n, offers c2 e g n -> spares c2 base p n) by (intros n Hn; by apply Hsw, HP).
    assert (Hd2 : forall st, starts_from c2 base name g st -> drawn (spares c2 base p) c2 base st).
    { intros st Hst. apply Hdw, IH2. by apply (places_starts c c2 base name Hsp). }
    split; [|split].
    + apply (own_back c c2 base name Hsp). apply (phase_own c2 base name e g Hs). by apply instant_phase.
    + intros st Hst. apply Hdw. apply (drawn_instants (spares c2 base p) c2 base name e g Hs HP2 Hd2 h st Hh).
      by apply (places_starts c c2 base name Hsp).
    + rewrite <- IH3. destruct Hsp as (E1 & E2 & E3 & E4). apply (lost_instant c2 base name e g p Hs); try done.
      * by rewrite E3.
      * unfold notif_path. by rewrite E3.
      * unfold notif_tmp. by rewrite E3.
  - split; [eapply own_else; [exact IH1|done|]; apply Ho, owned_sp|]. split.
    + intros st Hst. apply IH2. eapply starts_plain; [|apply IH1|exact Hst]. apply Ho, owned_sp.
    + rewrite Ho; [done|]. right. by left.
Qed.

(** The first run without a state file that completes publishes the version that
    the source has, whatever was served before: with all its deltas, and no others,
    and all the files that it lists. *)
Theorem C81_starts_over c base name e f w :
  cfg_ok c base name -> wf f -> f !! rrdp_state_path c = None -> good_world c base name e f -> honest_run c e f ->
  run c e f = (Ok tt, w) ->
  exists n0 n n', takes c e f n0 n /\
    w_fs w !! notif_path c name = Some (File (x_write_notif (e_ext e) n') None) /\
    n_session n' = n_session n /\ n_serial n' = n_serial n /\
    n_snap_uri n' = n_snap_uri n /\ n_snap_hash n' = n_snap_hash n /\ n_deltas n' ≡ₚ n_deltas n /\
    forall u h, (u, h) ∈ refs n -> exists rel, u = base +:+ rel /\ published (e_ext e) c (w_fs w) (rel, h).
Proof.
  intros Hc Hwf Hnone [Hw1 Hw2] Hh E.
  assert (Hs : sane c base name e f) by (split; [done|by apply own_start|done|done]).
  destruct (ok_run c base name e f Hs w E)
    as [(_ & st & ->%none_starts & Hnn)|(st & n0 & n & sg & f1 & v & st' & f2 & cb & st2 & f3 & f4 & n' & f5 & Ha & Hsv & _ & HN & _)]; [|done|].
  { exfalso. destruct Hnn as [(src & _ & (u & m & k & hdr & b & _ & H))|(n0 & n & _ & H)]; [|done]. by apply (proj1 Hh) in H. }
  pose proof (as_notify _ _ _ _ _ _ _ _ _ _ _ _ _ _ _ _ _ _ _ Ha) as An. pose proof (an_rsync _ _ _ _ _ _ _ _ _ _ _ _ _ _ _ _ _ An) as Ar.
  pose proof (ac_move _ _ _ _ _ _ _ _ _ _ _ _ _ (ar_clean _ _ _ _ _ _ _ _ _ _ _ _ _ _ _ _ Ar)) as Am.
  pose proof (none_starts _ _ _ _ _ Hnone (am_start _ _ _ _ _ _ _ _ _ _ Am)) as ->.
  destruct (as_notif _ _ _ _ _ _ _ _ _ _ _ _ _ _ _ _ _ _ _ Ha) as (s & Es & ->).
  destruct (new_deltas c base name e f _ _ _ _ _ _ _ _ _ _ _ Ar) as [Eds Es2]. rewrite Es in Es2. injection Es2 as ->.
  pose proof (am_staged _ _ _ _ _ _ _ _ _ _ Am) as Hso. destruct (so_snap _ _ _ _ _ _ _ _ Hso) as (S1 & S2 & S3 & S4 & _).
  assert (Ek : kept (first_state c base name) sg = []) by (unfold kept; by destruct (sg_reset sg)).
  assert (Ed : (fun d => mkDI (ds_serial d) (base +:+ ds_rel d) (ds_hash d)) <$> sg_deltas sg = n_deltas n).
  { pose proof (so_deltas _ _ _ _ _ _ _ _ Hso) as Hds.
    assert (Ef : filter (fun d => delta_is_new (first_state c base name) (sg_reset sg) (di_serial d) = true) (n_deltas n) = n_deltas n).
    { clear. induction (n_deltas n) as [|d l IH]; [done|]. rewrite filter_cons_True; [by rewrite IH|]. unfold delta_is_new. cbn. by destruct (sg_reset sg). }
    rewrite Ef in Hds. clear -Hds. induction Hds as [|[a b k] ds l l' (D1 & D2 & D3 & _) Hl IH]; [done|].
    cbn. rewrite IH. cbn in *. by subst. }
  exists n0, n. eexists. split; [by apply source_takes, Hso|]. split; [exact HN|]. cbn. rewrite S1, S2, S3, S4.
  do 4 (split; [done|]). split.
  { rewrite Eds, Ek, reverse_Permutation, sort_by_key_perm. cbn. by rewrite Ed. }
  intros u h Hin.
  assert (Hen : exists rel, u = base +:+ rel /\ (rel, h) ∈ staged_entries sg).
  { unfold refs in Hin. rewrite <- S3, S4, <- Ed in Hin. apply elem_of_cons in Hin as [[= -> ->]|Hin]; [eexists; split; [done|left]|].
    apply elem_of_list_fmap in Hin as (di & [= -> ->] & Hin). apply elem_of_list_fmap in Hin as (d & -> & Hin).
    cbn. exists (ds_rel d). split; [done|]. right. apply elem_of_list_fmap. by exists d. }
  destruct Hen as (rel & -> & Hen). exists rel. split; [done|].
  destruct (entry_ref c base name e f Hs _ _ _ _ _ _ Am Hen) as (_ & Hgr & _). destruct (good_rel_apart c name rel Hgr) as [G1 G2].
  eapply published_view.
  { apply (final_view c base name e f Hs _ _ _ _ _ _ _ _ _ _ _ _ _ _ _ _ (public_under c rel) (apart_neq _ _ G1) (apart_neq _ _ G2) Ha Hsv). }
  eapply published_view; [|apply (arrives c base name e f Hs Hh _ _ _ _ _ _ _ _ _ _ _ _ (rel, h) An Hen)].
  - symmetry. apply (rsync_view c base name e f Hs); [apply public_under|apply An].
  - intros cb' t _ (stx & Hst & Hx). apply none_starts in Hst as ->; [|done].
    destruct Hx as [(d & Hin' & _)|(_ & r & k & Hin' & _)]; by apply elem_of_nil in Hin'.
Qed.

(** ** Examples *)
Lemma wf_forget f p b m : wf f -> f !! p = Some (File b m) -> wf (delete p f).
Proof.
  intros Hwf E. apply wf_delete; [done|]. intros q nd Hq Eq. destruct (decide (q = [])) as [->|Hne]; [done|].
  apply Hwf, parent_is_dir_spec in Hq as [_ Hd]. rewrite Eq in Hd. unfold fs_get in Hd. destruct p; [|by rewrite E in Hd].
  by apply Hwf, parent_is_dir_spec in E as [].
Qed.
(** serial 5 is served, and the state file is gone *)
Definition forgot : fs := delete (rrdp_state_path demo_config) (tree3 2).
(** the source has another session for a while; and the same with the state file in
    place *)
Definition later (i : nat) (t : Z) : env := run_env (docs3 i) t.
Definition forgot2 : fs := after (run demo_config (later 2 100000) forgot).
Definition forgot3 : fs := after (run demo_config (later 0 200000) forgot2).
Definition kept3 : fs := after (run demo_config (later 0 200000) (after (run demo_config (later 2 100000) (tree3 2)))).
Definition left_file : path := public_path demo_config (snap_rel uuid_A 5).
Definition spares_check (p : path) (n : notification) : bool :=
  forallb (fun r => match strip_prefix base r.1 with Some rel => bool_decide (apart p (public_path demo_config rel)) | None => true end) (refs n).
Lemma spares_check_ok p n : spares_check p n = true -> spares demo_config base p n.
Proof.
  intros H u h rel Hin ->. unfold spares_check in H. rewrite forallb_forall in H. apply elem_of_list_In in Hin.
  specialize (H _ Hin). cbn [fst] in H. rewrite strip_prefix_app in H. by apply bool_decide_eq_true in H.
Qed.
Lemma left_spared i : i <= 2 -> i <> 1 -> spares demo_config base left_file (src3 i).
Proof. intros H1 H2. apply spares_check_ok. destruct i as [|[|[|i]]]; [..|lia]; [vm_compute; reflexivity|done|vm_compute; reflexivity]. Qed.
Definition is_file (nd : option node) : bool := match nd with Some (File _ _) => true | _ => false end.
Definition forgot_b (f : fs) (r : res unit * world) (g3 k3 : fs) : bool :=
  is_file (f !! rrdp_state_path demo_config) && served_b f (served_at 2) && is_file (f !! left_file) &&
  ok_b r && served_b (w_fs r.2) (served_at 1) && is_file (g3 !! left_file) && none_b k3 left_file &&
  served_b g3 (served_at 1) && served_b k3 (served_at 1).
Lemma forgot_checked : forgot_b (tree3 2) (run demo_config (env3 0) forgot) forgot3 kept3 = true.
Proof. vme. Qed.
Lemma forgot_facts f r g3 k3 : forgot_b f r g3 k3 = true ->
  (exists b m, f !! rrdp_state_path demo_config = Some (File b m)) /\ served_b f (served_at 2) = true /\
  (exists b m, f !! left_file = Some (File b m)) /\
  (exists w, r = (Ok tt, w) /\ served_b (w_fs w) (served_at 1) = true) /\
  (exists b m, g3 !! left_file = Some (File b m)) /\ k3 !! left_file = None /\
  served_b g3 (served_at 1) = true /\ served_b k3 (served_at 1) = true.
Proof.
  unfold forgot_b. intros [[[[[[[[H1 H2]%andb_true_iff H3]%andb_true_iff H4]%andb_true_iff H5]%andb_true_iff H6]%andb_true_iff H7]%andb_true_iff H8]%andb_true_iff H9]%andb_true_iff.
  assert (Hf : forall nd, is_file nd = true -> exists b m, nd = Some (File b m)).
  { intros [[b m| |]|] Hx; try discriminate Hx. by exists b, m. }
  split; [by apply Hf|]. split; [done|]. split; [by apply Hf|]. split.
  { destruct r as [[[]|x|] w]; [|discriminate H4..]. by exists w. }
  split; [by apply Hf|]. split; [|by split]. unfold none_b in H7. by destruct (k3 !! left_file).
Qed.
Lemma later_good i t f : i <= 2 -> good_world demo_config base name (later i t) f.
Proof. intros Hi. split; [|apply safe_clean]. intros n ->%docs3_offers; [apply src3_good|done]. Qed.
Lemma forgot_runs : runs_from (spares demo_config base left_file) demo_config base name forgot forgot3.
Proof.
  eapply (rf_run _ _ _ _ _ forgot2 demo_config (later 0 200000)); [|apply same_places_refl|apply later_good; lia| |apply after_instant].
  2: { intros n ->%docs3_offers; [apply left_spared; lia|lia]. }
  eapply (rf_run _ _ _ _ _ forgot demo_config (later 2 100000)); [apply rf_start|apply same_places_refl|apply later_good; lia| |apply after_instant].
  intros n ->%docs3_offers; [apply left_spared; lia|lia].
Qed.
Lemma left_place : under (c_rrdp_dir demo_config) left_file /\ apart left_file (notif_path demo_config name) /\
  apart left_file (notif_tmp demo_config name).
Proof. split; [apply public_under|]. apply good_rel_apart. apply (bool_decide_eq_true_1 _). vm_compute. reflexivity. Qed.
Lemma forgot_wf b m : tree3 2 !! rrdp_state_path demo_config = Some (File b m) -> wf forgot.
Proof. intros E. eapply wf_forget; [|exact E]. apply (mirror_own any_notif demo_config base name _ demo_cfg_ok (mirror3 2 ltac:(lia))). Qed.
Lemma forgot_honest : honest_run demo_config (env3 0) forgot.
Proof.
  destruct (serve_honest 2 (le_n 2)) as (_ & H2 & _). split; [apply serve_no_304|]. split.
  - intros p t Hp Hx. unfold forgot in Hx. apply lookup_delete_Some in Hx as [_ Hx]. by apply (H2 p t Hp).
  - intros n ->%env3_offers; [|lia]. intros u h h' H1%listing_ref H3%listing_ref.
    destruct H1 as (a & Ha & <- & <-), H3 as (b & Hb & E & <-). by rewrite (sb_unique _ _ _ src3_stable 0 0 a b).
Qed.

Opaque run.
(** A mirror that serves serial 5, and whose state file is then removed.  A run
    completes although the source has gone back to serial 3, and serves that.  The
    snapshot of serial 5 stays for good; with the state file in place it would be
    gone by then. *)
Example C81_applies :
  cfg_ok demo_config base name /\ wf forgot /\ forgot !! rrdp_state_path demo_config = None /\
  good_world demo_config base name (env3 0) forgot /\ honest_run demo_config (env3 0) forgot /\
  (under (c_rrdp_dir demo_config) left_file /\ apart left_file (notif_path demo_config name) /\
   apart left_file (notif_tmp demo_config name)) /\
  runs_from (spares demo_config base left_file) demo_config base name forgot forgot3 /\
  served_b (tree3 2) (Some (5, [5; 4; 3]))%N = true /\
  (exists b m, tree3 2 !! left_file = Some (File b m)) /\
  (exists w, run demo_config (env3 0) forgot = (Ok tt, w) /\ served_b (w_fs w) (Some (3, [3; 2]))%N = true) /\
  (exists b m, forgot3 !! left_file = Some (File b m)) /\ kept3 !! left_file = None /\
  served_b forgot3 (Some (3, [3; 2]))%N = true /\ served_b kept3 (Some (3, [3; 2]))%N = true.
Proof.
  destruct (forgot_facts _ _ _ _ forgot_checked) as ((b & m & H1) & H2).
  split; [apply demo_cfg_ok|]. split; [exact (forgot_wf b m H1)|]. split; [apply lookup_delete|].
  split; [exact (env3_good 0 forgot (Nat.le_0_l 2))|]. split; [exact forgot_honest|]. split; [exact left_place|].
  split; [exact forgot_runs|]. exact H2.
Qed.
Transparent run.
Print Assumptions C81_leftovers.
Print Assumptions C81_starts_over.
