(** * Power failures: C75 *)
From Coq Require Import ZifyN ZifyNat ZifyBool.
From Verif Require Import ReadBack PropsRun PropsHolds PropsKill DemoRun Refuted.
From Verif Require Import FsWf HistoryProofs PropsHistory.

(** krill-sync never waits for its writes to reach the disk.  [lost_tails f g]:
    [g] is [f] after files have lost data that had not reached the disk: any
    file may be cut off anywhere.  Directories, names and links are as they were
    (the file system keeps these in order). *)
Definition lost_tails (f g : fs) : Prop :=
  forall p, g !! p = f !! p \/
    exists b r m, f !! p = Some (File (b +:+ r) m) /\ g !! p = Some (File b m).
(** the power fails at the instant [g] of a run that started on [f]: data
    written by this run may be lost *)
Definition power_failure (f g h : fs) : Prop :=
  forall p, h !! p = g !! p \/
    (g !! p <> f !! p /\ exists b r m, g !! p = Some (File (b +:+ r) m) /\ h !! p = Some (File b m)).

(** As [mirror], but data may also be lost at any time. *)
Inductive battered (c : config) (base name : string) : fs -> Prop :=
| bt_start f : wf f -> f !! rrdp_state_path c = None -> battered c base name f
| bt_run f c' e g : battered c base name f -> same_places c c' -> good_world c' base name e f ->
    g ∈ instants c' e f -> battered c base name g
| bt_else f g : battered c base name f -> wf g -> (forall p, owned c p -> g !! p = f !! p) -> battered c base name g
| bt_loss f g : battered c base name f -> lost_tails f g -> battered c base name g.

Lemma failure_loss f g h : power_failure f g h -> lost_tails g h.
Proof. intros H p. destruct (H p) as [?|(_ & ?)]; auto. Qed.

Lemma mirror_battered P c base name f : mirror P c base name f -> battered c base name f.
Proof.
  induction 1 as [f Hwf E|f c' e g Hm IH Hsp Hw _ Hg|f g Hm IH Hwf Ho];
    [by apply bt_start|by eapply (bt_run _ _ _ f c' e)|by eapply bt_else].
Qed.

(** ** What such a tree has as record *)
Lemma app_nil_s (b : string) : b +:+ "" = b.
Proof. induction b as [|a b IH]; [done|]. change (String a (b +:+ "") = String a b). by rewrite IH. Qed.
Lemma app_assoc_s (a b d : string) : (a +:+ b) +:+ d = a +:+ (b +:+ d).
Proof. induction a as [|x a IH]; [done|]. change (String x ((a +:+ b) +:+ d) = String x (a +:+ (b +:+ d))). by rewrite IH. Qed.
Lemma app_eq_empty_r (a b : string) : a +:+ b = a -> b = "".
Proof.
  induction a as [|x a IH]; intros H; [done|]. apply IH. change (String x (a +:+ b) = String x a) in H. by injection H.
Qed.

(** the state file is missing, or a beginning of a saved state *)
Definition state_text_at (c : config) (f : fs) : Prop :=
  f !! rrdp_state_path c = None \/
  exists st b, clean_state st /\ f !! rrdp_state_path c = Some (File b None) /\ str_pre b (state_text st).

Lemma loss_wf f g : wf f -> lost_tails f g -> wf g.
Proof.
  intros Hwf Hl p nd E. assert (Hd : forall q, fs_get f q = Some Dir -> fs_get g q = Some Dir).
  { intros q Hq. destruct q as [|a q]; [done|]. cbn [fs_get] in *.
    destruct (Hl (a :: q)) as [E'|(b & r & m & E' & _)]; [by rewrite E'|congruence]. }
  assert (Hf : exists nd', f !! p = Some nd').
  { destruct (Hl p) as [E'|(b & r & m & E' & _)]; [rewrite <- E'; eauto|eauto]. }
  destruct Hf as [nd' Hf]. apply Hwf in Hf. apply parent_is_dir_spec in Hf as [H1 H2]. apply parent_is_dir_spec. auto.
Qed.

(** after a loss the same state is recorded, or none can be read *)
Lemma loss_record c base name f g st : state_text_at c f -> lost_tails f g -> starts_from c base name g st ->
  g !! rrdp_state_path c = f !! rrdp_state_path c.
Proof.
  intros Ht Hl Hst. destruct (Hl (rrdp_state_path c)) as [E|(b & r & m & E1 & E2)]; [done|].
  destruct Ht as [E|(st0 & b0 & _ & E & (r0 & Hr0))]; [congruence|]. rewrite E in E1. injection E1 as -> <-.
  destruct (read_file_at _ _ _ _ (state_path_ne c) E2) as [Hr Hx].
  destruct Hst as [[_ (b' & Hb' & Hp)]|[Hf _]]; [|congruence]. rewrite Hr in Hb'. injection Hb' as <-.
  destruct (decide (r = "")) as [->|Hne]; [by rewrite E2, E, app_nil_s|]. exfalso.
  rewrite app_assoc_s in Hr0. rewrite (state_prefix st0 b (r +:+ r0)) in Hp; [done|by rewrite <- Hr0|].
  destruct r; [done|]. done.
Qed.

Section own.
  Context (c : config) (base name : string) (Hc : cfg_ok c base name).

  Lemma battered_inv f : battered c base name f -> own_tree c base name f /\ state_text_at c f.
  Proof using Hc.
    induction 1 as [f Hwf E|f c' e g Hm [IH1 IH2] Hsp [Hw1 Hw2] Hg|f g Hm [IH1 IH2] Hwf Ho|f g Hm [IH1 IH2] Hl].
    - split; [by apply own_start|by left].
    - assert (Hs : sane c' base name e f) by (split; [by eapply places_cfg|by eapply own_to|done|done]).
      split.
      + apply (own_back c c' base name Hsp). apply (phase_own c' base name e f Hs). by apply instant_phase.
      + assert (Hk : g !! rrdp_state_path c' = f !! rrdp_state_path c' -> state_text_at c g).
        { intros E. rewrite (places_sp c c' Hsp) in E. unfold state_text_at. by rewrite E. }
        destruct (instant_state_file c' base name e f Hs g) as [E|(st2 & b & _ & Hc2 & E & Hb)]; [|done|by apply Hk|].
        { intros st Hst. apply (places_starts c c' base name Hsp) in Hst. destruct IH2 as [E|(st0 & b0 & H1 & H2 & H3)].
          - destruct Hst as [[Hex _]|[_ ->]]; [|done].
            unfold fs_exists, fs_stat in Hex. rewrite fs_get_nonroot in Hex by apply state_path_ne. by rewrite E in Hex.
          - destruct (prefix_starts c base name f st0 b0 st H1 H2 H3 Hst) as [_ ->]. cbn. apply clean_check_norm. apply H1. }
        right. exists st2, b. by rewrite <- (places_sp c c' Hsp).
    - pose proof (Ho _ (owned_sp c)) as E. split; [by eapply own_else|]. unfold state_text_at. by rewrite E.
    - destruct IH1 as (O1 & O2 & O3). split; [split; [by eapply loss_wf|split]|].
      + intros t E. destruct (Hl (rrdp_state_path c)) as [E'|(b & r & m & _ & E2)]; [by apply (O2 t); rewrite <- E'|congruence].
      + intros st Hst. assert (Hsf : starts_from c base name g st).
        { left. split; [|done]. destruct Hst as (b & Hb & _). unfold op_read in Hb. unfold fs_exists. by destruct (fs_stat g _). }
        pose proof (loss_record c base name f g st IH2 Hl Hsf) as E. apply O3. destruct Hst as (b & Hb & Hp). exists b.
        by rewrite <- (read_plain f g _ E O2).
      + destruct (Hl (rrdp_state_path c)) as [E|(b & r & m & E1 & E2)]; [unfold state_text_at; by rewrite E|].
        destruct IH2 as [E|(st0 & b0 & Hcl & E & (r0 & Hr0))]; [congruence|]. rewrite E in E1. injection E1 as -> <-.
        right. exists st0, b. split; [done|]. split; [done|]. exists (r +:+ r0). by rewrite <- Hr0, app_assoc_s.
  Qed.
  Lemma battered_sane c' e f : battered c base name f -> same_places c c' -> good_world c' base name e f -> sane c' base name e f.
  Proof using Hc. intros [H _]%battered_inv Hsp [H1 H2]. split; [by eapply places_cfg|by eapply own_to|done|done]. Qed.
End own.

(** ** C75 *)
(** A mirror to which this happens can go on from a state that it saved, or no
    run will ever get anywhere (until the state file is removed). *)
Theorem C75_record c base name f : cfg_ok c base name -> battered c base name f ->
  usable c base name f \/ unusable c f.
Proof.
  intros Hc Hb. destruct (battered_inv c base name Hc f Hb) as [(_ & Hl & _) [E|(st & b & H1 & H2 & H3)]].
  - left. exists (first_state c base name). right. split; [|done].
    unfold fs_exists, fs_stat. rewrite fs_get_nonroot by apply state_path_ne. by rewrite E.
  - destruct (str_pre_split _ _ H3) as [->|(r & Er & Hne)].
    + left. exists (norm_state st). by apply text_starts.
    + right. apply torn_unusable. by exists st, b, r.
Qed.

(** What is new in the RRDP directory has been verified by the run that puts it
    there, whatever was lost before: in the staging directory, too. *)
Theorem C75_verified c base name e f g p b m :
  cfg_ok c base name -> battered c base name f -> good_world c base name e f ->
  honest_run c e f -> ~ may_copy e -> g ∈ instants c e f ->
  under (c_rrdp_dir c) p -> p <> notif_path c name -> p <> notif_tmp c name ->
  g !! p = Some (File b m) -> f !! p <> Some (File b m) ->
  exists n rel h, offers c e f n /\ (base +:+ rel, h) ∈ refs n /\ p = public_path c rel /\ x_hash (e_ext e) b = h.
Proof.
  intros Hc Hb Hw Hh Hcp Hg Hp HN Ht E Hne. pose proof (battered_sane c base name Hc c e f Hb (same_places_refl c) Hw) as Hs.
  pose proof (instant_phase c base name e f Hs g Hg) as Hph.
  destruct (phase_fate c base name e f Hs Hh g p Hp HN Ht Hph)
    as [H|[(n0 & n & rel & h & [Ho Hsv] & Hr & Hgr & -> & Hpb)|[H _]]].
  - destruct Hne. apply view_file. rewrite <- H. by apply view_file.
  - exists n0, rel, h. split; [done|]. split; [by eapply sav_refs|]. split; [done|].
    destruct Hpb as [(b' & m' & E' & Hb')|[? _]]; [|done]. cbn in E', Hb'. rewrite E in E'. by injection E' as -> ->.
  - apply view_file in E. congruence.
Qed.

(** After a completed run each file that the notification lists is there as it
    should be, or it was listed before, and then it is as it was before: nothing
    that was damaged is repaired.  (Provided that no record of this file having
    been dropped expires in the run, see C15, and that the source does not
    announce a file a second time with another hash.) *)
Theorem C75_not_repaired c base name e f w st :
  cfg_ok c base name -> battered c base name f -> good_world c base name e f ->
  honest_run c e f -> starts_from c base name f st ->
  (forall n rel h h', offers c e f n -> (rel, h) ∈ state_files st -> (base +:+ rel, h') ∈ refs n -> h' = h) ->
  run c e f = (Ok tt, w) ->
  w_fs w = f \/
  exists n, w_fs w !! notif_path c name = Some (File (x_write_notif (e_ext e) n) None) /\
    forall u h, (u, h) ∈ refs n -> exists rel, u = base +:+ rel /\
      ((forall t k, recorded_at c base name e f (public_path c rel) t -> (wrap64 (e_clock e k - c_cleanup_after c) < t)%Z) ->
       published (e_ext e) c (w_fs w) (rel, h) \/
       ((rel, h) ∈ state_files st /\
        forall b m, w_fs w !! public_path c rel = Some (File b m) <-> f !! public_path c rel = Some (File b m))).
Proof.
  intros Hcf Hb Hw Hh Hst Hsame Hrun. pose proof (battered_sane c base name Hcf c e f Hb (same_places_refl c) Hw) as Hs.
  destruct (ok_run c base name e f Hs w Hrun)
    as [[H _]|(st0 & n0 & n & sg & f1 & v & st' & f2 & cb & st2 & f3 & f4 & n' & f5 & Ha & Hsv & Hg & HN & H2)]; [by left|right].
  exists n'. split; [done|]. intros u h Hin. rewrite (refs_of base st2 n' (as_notif _ _ _ _ _ _ _ _ _ _ _ _ _ _ _ _ _ _ _ Ha)) in Hin.
  apply elem_of_list_fmap in Hin as ([rel h'] & [= -> ->] & Hin). exists rel. split; [done|]. intros Hno.
  assert (Hgr : good_rel name rel) by (by eapply state_files_good).
  destruct (good_rel_apart c name rel Hgr) as [Ha1 Ha2].
  pose proof (as_notify _ _ _ _ _ _ _ _ _ _ _ _ _ _ _ _ _ _ _ Ha) as Hn.
  pose proof (an_rsync _ _ _ _ _ _ _ _ _ _ _ _ _ _ _ _ _ Hn) as Hr.
  pose proof (am_start _ _ _ _ _ _ _ _ _ _ (ac_move _ _ _ _ _ _ _ _ _ _ _ _ _ (ar_clean _ _ _ _ _ _ _ _ _ _ _ _ _ _ _ _ Hr))) as Hst0.
  rewrite (starts_unique _ _ _ _ _ _ Hst0 Hst) in *. clear Hst0 st0.
  assert (Hno' : forall cb t, clean_time c e cb -> recorded_at c base name e f (public_path c rel) t -> (cb < t)%Z).
  { intros cb' t [k ->] Ht. by apply Hno. }
  assert (Hfin : view (w_fs w) (public_path c rel) = view f3 (public_path c rel)).
  { apply (final_view c base name e f Hs _ _ _ _ _ _ _ _ _ _ _ _ _ _ _ _ (public_under c rel)
      (apart_neq _ _ Ha1) (apart_neq _ _ Ha2) Ha Hsv). }
  destruct (decide ((rel, h') ∈ staged_entries sg)) as [Hen|Hnen].
  { left. eapply published_view; [exact Hfin|]. apply (published_view _ _ f4).
    - cbn. symmetry. apply (rsync_view c base name e f Hs); [apply public_under|apply Hn].
    - by apply (arrives c base name e f Hs Hh _ _ _ _ _ _ _ _ _ _ _ _ (rel, h') Hn). }
  assert (Hold : (rel, h') ∈ state_files st).
  { unfold state_files in Hin. destruct (new_deltas c base name e f _ _ _ _ _ _ _ _ _ _ _ Hr) as [_ Esn]. rewrite Esn in Hin. cbn in Hin.
    apply elem_of_cons in Hin as [E|Hin]; [destruct Hnen; rewrite E; constructor|].
    apply elem_of_list_fmap in Hin as (d & E & Hd).
    apply (new_delta_in c base name e f _ _ _ _ _ _ _ _ _ _ _ d Hr) in Hd as [Hd|Hd].
    - apply elem_of_app. right. rewrite E. apply elem_of_list_fmap. exists d. split; [done|]. apply (kept_gone st sg). by left.
    - destruct Hnen. rewrite E. right. apply elem_of_list_fmap. by exists d. }
  destruct (clean_view _ _ _ _ (public_path c rel) (ar_tree _ _ _ _ _ _ _ _ _ _ _ _ _ _ _ _ Hr)) as [E|[Hx _]].
  2: { exfalso. destruct (expired_recorded c base name e f Hs _ _ _ _ _ _ _ _ _ _ (ar_clean _ _ _ _ _ _ _ _ _ _ _ _ _ _ _ _ Hr) Hx) as (t & Ht & Hle).
    specialize (Hno' cb t (ar_time _ _ _ _ _ _ _ _ _ _ _ _ _ _ _ _ Hr) Ht). lia. }
  pose proof (ar_clean _ _ _ _ _ _ _ _ _ _ _ _ _ _ _ _ Hr) as A1.
  destruct (ac_files _ _ _ _ _ _ _ _ _ _ _ _ _ A1) as [Hmv Hall].
  { eapply (run_honest c base name e f Hs Hh). apply A1. }
  pose proof (ac_move _ _ _ _ _ _ _ _ _ _ _ _ _ A1) as Am.
  destruct (decide (Exists (fun en => public_path c rel = public_path c en.1) (staged_entries sg))) as [([rel' h2] & Hen & Ep)%Exists_exists|Hnx].
  - apply public_path_inj in Ep. cbn in Ep. subst rel'. destruct Hnen.
    destruct (entry_ref c base name e f Hs _ _ _ _ _ _ Am Hen) as ([Ho Hs'] & _ & Hrf).
    by rewrite <- (Hsame _ rel h' h2 Ho Hold ltac:(by eapply sav_refs)).
  - right. split; [done|].
    assert (Hv : view (w_fs w) (public_path c rel) = view f (public_path c rel)); [|intros b m; by rewrite <- !view_file, Hv].
    rewrite Hfin, E.
    rewrite <- (stage_view c f f1 (public_path c rel) (am_tree _ _ _ _ _ _ _ _ _ _ Am)).
    2: { intros Hu. by apply (apart_disjoint _ _ _ (ck_s_r _ _ _ (sn_cfg _ _ _ _ _ Hs)) Hu), public_under. }
    destruct Hmv as [_ Hm _ _]. apply (view_mods _ _ _ _ _ Hm).
    intros (en & Hen & [Eq|Eq]); [|by destruct Hnx; apply Exists_exists; exists en].
    destruct (entry_ref c base name e f Hs _ _ _ _ _ _ Am Hen) as (_ & (Hcl & _) & _).
    apply (apart_disjoint _ _ (staging_path c en.1) (ck_s_r _ _ _ (sn_cfg _ _ _ _ _ Hs))); [by apply staging_path_under|].
    rewrite <- Eq. apply public_under.
Qed.

(** The power fails at the instant [g] of a run.  The notification is the one
    from before, or a beginning of the new one.  A file that was served before
    is as it was, unless the source announces it in this very run, or a record
    of its having been dropped has expired. *)
Theorem C75_failure c base name e f g h :
  cfg_ok c base name -> battered c base name f -> good_world c base name e f ->
  honest_run c e f -> g ∈ instants c e f -> power_failure f g h ->
  (h !! notif_path c name = f !! notif_path c name \/
   exists n b r, h !! notif_path c name = Some (File b None) /\ b +:+ r = x_write_notif (e_ext e) n) /\
  forall p b m, under (c_rrdp_dir c) p -> p <> notif_path c name -> p <> notif_tmp c name -> f !! p = Some (File b m) ->
    h !! p = Some (File b m) \/
    (exists n rel ha, offers c e f n /\ (base +:+ rel, ha) ∈ refs n /\ p = public_path c rel) \/
    exists t k, recorded_at c base name e f p t /\ (t <= wrap64 (e_clock e k - c_cleanup_after c))%Z.
Proof.
  intros Hc Hb Hw Hh Hg Hpf. pose proof (battered_sane c base name Hc c e f Hb (same_places_refl c) Hw) as Hs.
  pose proof (instant_phase c base name e f Hs g Hg) as Hph. split.
  - assert (Hn : g !! notif_path c name = f !! notif_path c name \/
      exists n, g !! notif_path c name = Some (File (x_write_notif (e_ext e) n) None)).
    { destruct (instant_notif c base name e f g Hs Hg) as [H|(st & n0 & n & sg & f1 & v & st' & f2 & cb & st2 & f3 & f4 & n' & H1 & H2 & H3)]; eauto. }
    destruct (Hpf (notif_path c name)) as [E|(Hne & b & r & m & E1 & E2)].
    + rewrite E. destruct Hn as [Hn|[n Hn]]; [by left|right]. exists n, (x_write_notif (e_ext e) n), "". by rewrite app_nil_s.
    + destruct Hn as [Hn|[n Hn]]; [done|]. right. rewrite Hn in E1. injection E1 as E1 <-. by exists n, b, r.
  - intros p b m Hp HN Ht E.
    destruct (phase_fate c base name e f Hs Hh g p Hp HN Ht Hph)
      as [H|[(n0 & n & rel & ha & [Ho Hsv] & Hr & Hgr & -> & _)|[_ (cb & t & [k ->] & H1 & H2)]]].
    + left. apply view_file in E. rewrite <- H in E. apply view_file in E.
      assert (Ef : g !! p = f !! p). { rewrite E. symmetry. apply view_file. rewrite <- H. by apply view_file. }
      destruct (Hpf p) as [E'|[Hne _]]; [congruence|done].
    + right. left. exists n0, rel, ha. split; [done|]. split; [by eapply sav_refs|done].
    + right. right. by exists t, k.
Qed.

(** ** Examples *)
(** the file at [p] is lost, but for its name *)
Definition emptied (p : path) (f : fs) : fs := <[p := File "" None]> f.
Lemma emptied_failure f g p b : g !! p = Some (File b None) -> g !! p <> f !! p -> power_failure f g (emptied p g).
Proof.
  intros E Hne q. unfold emptied. destruct (decide (q = p)) as [->|Hq].
  - right. split; [done|]. exists "", b, None. by rewrite lookup_insert.
  - left. by rewrite lookup_insert_ne.
Qed.
Lemma failure_battered c base name c' e f g h : battered c base name f -> same_places c c' -> good_world c' base name e f ->
  g ∈ instants c' e f -> power_failure f g h -> battered c base name h.
Proof. intros H1 H2 H3 H4 H5. eapply bt_loss; [|by eapply failure_loss]. by eapply bt_run. Qed.

Definition plain_b (g : fs) (p : path) : bool := match g !! p with Some (File b None) => negb (String.eqb b "") | _ => false end.
Lemma plain_ok g p : plain_b g p = true -> exists b, g !! p = Some (File b None) /\ b <> "".
Proof. unfold plain_b. destruct (g !! p) as [[b [m|]| |]|]; try done. intros H. exists b. split; [done|]. by intros ->. Qed.

Definition lost_notif : fs := emptied (notif_path demo_config name) t3_1.
Definition lost_state : fs := emptied (rrdp_state_path demo_config) t3_1.
Definition old_delta : path := public_path demo_config (delta_rel uuid_A 3).
Definition lost_delta : fs := emptied old_delta t3_1.
Definition power_check : bool :=
  let r1 := run demo_config (env3 0) lost_notif in
  let r2 := run demo_config (env3 1) lost_delta in
  ok_b (run demo_config (env3 0) start_tree) &&
  plain_b t3_1 (notif_path demo_config name) && plain_b t3_1 (rrdp_state_path demo_config) && plain_b t3_1 old_delta &&
  ok_b r1 && at_b (after r1) (notif_path demo_config name) (Some (File "" None)) &&
  ok_b r2 && at_b (after r2) old_delta (Some (File "" None)) &&
  at_b (after r2) (notif_path demo_config name) (Some (File (x_write_notif safe_ext (src3 1)) None)).
Lemma power_checked : power_check = true.
Proof. vme. Qed.
Record power_facts : Prop := {
  pw_ran : exists w, run demo_config (env3 0) start_tree = (Ok tt, w) /\ w_fs w = t3_1;
  pw_notif : exists b, t3_1 !! notif_path demo_config name = Some (File b None) /\ b <> "";
  pw_state : exists b, t3_1 !! rrdp_state_path demo_config = Some (File b None) /\ b <> "";
  pw_delta : exists b, t3_1 !! old_delta = Some (File b None) /\ b <> "";
  pw_again : exists w, run demo_config (env3 0) lost_notif = (Ok tt, w) /\
    w_fs w !! notif_path demo_config name = Some (File "" None);
  pw_next : exists w, run demo_config (env3 1) lost_delta = (Ok tt, w) /\ w_fs w !! old_delta = Some (File "" None) /\
    w_fs w !! notif_path demo_config name = Some (File (x_write_notif safe_ext (src3 1)) None) }.
Lemma ok_b_ran c e f : ok_b (run c e f) = true -> exists w, run c e f = (Ok tt, w) /\ w_fs w = after (run c e f).
Proof. unfold ok_b, after. destruct (run c e f) as [[[]| |] w]; cbn [fst snd]; [|done|done]. intros _. by exists w. Qed.
Lemma power_ok : power_facts.
Proof.
  pose proof power_checked as H. unfold power_check in H. cbv zeta in H.
  apply andb_true_iff in H as [H H9]. apply andb_true_iff in H as [H H8]. apply andb_true_iff in H as [H H7].
  apply andb_true_iff in H as [H H6]. apply andb_true_iff in H as [H H5]. apply andb_true_iff in H as [H H4].
  apply andb_true_iff in H as [H H3]. apply andb_true_iff in H as [H1 H2].
  split.
  - exact (ok_b_ran _ _ _ H1).
  - exact (plain_ok _ _ H2).
  - exact (plain_ok _ _ H3).
  - exact (plain_ok _ _ H4).
  - destruct (ok_b_ran _ _ _ H5) as (w & E & Ew). exists w. split; [exact E|]. rewrite Ew. exact (at_ok _ _ _ H6).
  - destruct (ok_b_ran _ _ _ H7) as (w & E & Ew). exists w. split; [exact E|]. rewrite Ew.
    exact (conj (at_ok _ _ _ H8) (at_ok _ _ _ H9)).
Qed.
Lemma lost_failure p b : start_tree !! p = None -> t3_1 !! p = Some (File b None) -> power_failure start_tree t3_1 (emptied p t3_1).
Proof. intros E0 E. apply (emptied_failure start_tree t3_1 p b E). rewrite E, E0. discriminate. Qed.

Lemma env3_no_faults i : no_faults (env3 i).
Proof. done. Qed.

(** A run completes, and the power fails right after it: the notification that
    clients are served is empty, and the next run does nothing about it. *)
Theorem C75_notification_refuted : exists c base name e f w h w',
  setting c base name e f /\ no_faults e /\ run c e f = (Ok tt, w) /\ power_failure f (w_fs w) h /\
  run c e h = (Ok tt, w') /\ w_fs w' !! notif_path c name = Some (File "" None) /\ x_parse_notif (e_ext e) "" = None.
Proof.
  destruct power_ok as [(w & Hw & Ew) (b & Hb & _) _ _ (w' & Hw' & Hn) _].
  exists demo_config, base, name, (env3 0), start_tree, w, lost_notif, w'.
  split; [exact (setting3 0 (Nat.le_0_l 2))|]. split; [apply env3_no_faults|]. split; [exact Hw|]. split.
  - rewrite Ew. exact (lost_failure (notif_path demo_config name) b eq_refl Hb).
  - split; [exact Hw'|]. split; [exact Hn|]. reflexivity.
Qed.

(** A delta is lost that way: a later run, which completes, announces it all the
    same. *)
Theorem C75_delta_refuted : exists c base name e f w h e' w' n d rel b m,
  setting c base name e f /\ no_faults e /\ run c e f = (Ok tt, w) /\ power_failure f (w_fs w) h /\
  no_faults e' /\ run c e' h = (Ok tt, w') /\
  w_fs w' !! notif_path c name = Some (File (x_write_notif (e_ext e') n) None) /\
  d ∈ n_deltas n /\ di_uri d = base +:+ rel /\
  w_fs w' !! public_path c rel = Some (File b m) /\ x_hash (e_ext e') b <> di_hash d.
Proof.
  destruct power_ok as [(w & Hw & Ew) _ _ (b & Hb & _) _ (w' & Hw' & Hd & Hn)].
  exists demo_config, base, name, (env3 0), start_tree, w, lost_delta, (env3 1), w', (src3 1).
  exists (mkDI 3 (base +:+ delta_rel uuid_A 3) (demo_hash (delta_doc uuid_A 3))), (delta_rel uuid_A 3), "", None.
  split; [exact (setting3 0 (Nat.le_0_l 2))|]. split; [apply env3_no_faults|]. split; [exact Hw|]. split.
  { rewrite Ew. exact (lost_failure old_delta b eq_refl Hb). }
  split; [apply env3_no_faults|]. split; [exact Hw'|]. split; [exact Hn|]. split; [right; right; left|]. split; [reflexivity|]. split; [exact Hd|].
  apply (bool_decide_unpack _). vm_compute. reflexivity.
Qed.

Lemma lost_battered p b : start_tree !! p = None -> t3_1 !! p = Some (File b None) ->
  battered demo_config base name (emptied p t3_1).
Proof.
  intros H1 H2. apply (failure_battered demo_config base name demo_config (env3 0) start_tree t3_1).
  - apply (mirror_battered any_notif). exact (mirror3 0 (Nat.le_0_l 3)).
  - apply same_places_refl.
  - exact (env3_good 0 start_tree (Nat.le_0_l 2)).
  - apply after_instant.
  - by apply (lost_failure p b).
Qed.
Lemma lost_state_unusable b : t3_1 !! rrdp_state_path demo_config = Some (File b None) -> unusable demo_config lost_state.
Proof.
  intros Hb. destruct (C75_record demo_config base name lost_state demo_cfg_ok (lost_battered (rrdp_state_path demo_config) b eq_refl Hb)) as [[st H]|H]; [exfalso|exact H].
  assert (E : lost_state !! rrdp_state_path demo_config = Some (File "" None)) by (unfold lost_state, emptied; by rewrite lookup_insert).
  destruct (read_file_at _ _ _ _ (state_path_ne demo_config) E) as [Hr Hx].
  destruct H as [[_ (b' & Hb' & Hp)]|[Hf _]]; [|congruence]. rewrite Hr in Hb'. injection Hb' as <-. discriminate Hp.
Qed.

(** The state file is lost that way: no run gets anywhere any more. *)
Theorem C75_state_refuted : exists c base name e f w h,
  setting c base name e f /\ no_faults e /\ run c e f = (Ok tt, w) /\ power_failure f (w_fs w) h /\ unusable c h.
Proof.
  destruct power_ok as [(w & Hw & Ew) _ (b & Hb & _) _ _ _].
  exists demo_config, base, name, (env3 0), start_tree, w, lost_state.
  split; [exact (setting3 0 (Nat.le_0_l 2))|]. split; [apply env3_no_faults|]. split; [exact Hw|]. split.
  { rewrite Ew. exact (lost_failure (rrdp_state_path demo_config) b eq_refl Hb). }
  exact (lost_state_unusable b Hb).
Qed.

(** the hypotheses of the theorems above are met by these trees *)
Lemma lost_honest : honest_run demo_config (env3 1) lost_delta.
Proof.
  destruct (serve_honest 1 (le_S _ _ (le_n 1))) as (H1 & H2 & H3). split; [exact H1|]. split.
  - intros p t Hp. unfold lost_delta, emptied. destruct (decide (p = old_delta)) as [->|Hne].
    + rewrite lookup_insert. discriminate.
    + rewrite lookup_insert_ne by exact (not_eq_sym Hne). exact (H2 p t Hp).
  - intros n Hn. apply env3_offers in Hn; [|exact (le_S _ _ (le_n 1))]. subst n. intros u h h' [a (Ha & <- & <-)]%listing_ref [b (Hb & E & <-)]%listing_ref.
    by rewrite (sb_unique _ _ _ src3_stable 1 1 a b).
Qed.
Example C75_applies :
  cfg_ok demo_config base name /\ battered demo_config base name lost_delta /\ good_world demo_config base name (env3 1) lost_delta /\
  honest_run demo_config (env3 1) lost_delta /\ ~ may_copy (env3 1) /\
  (exists w, run demo_config (env3 1) lost_delta = (Ok tt, w) /\ w_fs w <> lost_delta) /\
  usable demo_config base name lost_delta /\ unusable demo_config lost_state /\ battered demo_config base name lost_state.
Proof.
  destruct power_ok as [_ _ (bs & Hbs & Hs0) (b & Hb & _) _ (w & Hw & _ & Hn)].
  assert (Hbt : battered demo_config base name lost_delta) by exact (lost_battered old_delta b eq_refl Hb).
  assert (Hbt' : battered demo_config base name lost_state) by exact (lost_battered (rrdp_state_path demo_config) bs eq_refl Hbs).
  split; [exact demo_cfg_ok|]. split; [exact Hbt|]. split; [exact (env3_good 1 lost_delta (le_S _ _ (le_n 1)))|].
  split; [exact lost_honest|]. split; [apply serve_no_copy|].
  split.
  { exists w. split; [exact Hw|]. intros E. rewrite E in Hn. unfold lost_delta, emptied in Hn.
    rewrite lookup_insert_ne in Hn by (vm_compute; discriminate).
    assert (Hd : at_b t3_1 (notif_path demo_config name) (Some (File (x_write_notif safe_ext (src3 1)) None)) = false) by (vm_cast_no_check (eq_refl false)).
    unfold at_b in Hd. apply bool_decide_eq_false in Hd. exact (Hd Hn). }
  split.
  { destruct (C75_record demo_config base name lost_delta demo_cfg_ok Hbt) as [H|H]; [exact H|exfalso].
    destruct (H demo_config (env3 1) eq_refl) as [[x Hx] _]. rewrite Hw in Hx. discriminate Hx. }
  exact (conj (lost_state_unusable bs Hbs) Hbt').
Qed.

Print Assumptions C75_record.
Print Assumptions C75_verified.
Print Assumptions C75_not_repaired.
Print Assumptions C75_failure.
Print Assumptions C75_notification_refuted.
Print Assumptions C75_delta_refuted.
Print Assumptions C75_state_refuted.
