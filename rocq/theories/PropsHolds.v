(** * What holds of the properties that the code violates *)
From Coq Require Import ZifyN ZifyNat ZifyBool.
From Verif Require Import PropsRun PropsClean PropsRsync RunDone DemoRun Refuted.
From Verif Require Import FsWf.

(** ** C15 *)
(** If no record of a listed file expires during the run, every file that the
    notification published by the run lists is there, with the listed hash:
    provided that the files served before were there, and that the source does
    not announce one of them with another hash. *)
Theorem C15_served c base name e f w st :
  setting c base name e f -> honest_run c e f -> starts_from c base name f st ->
  (forall rel h, (rel, h) ∈ state_files st -> published (e_ext e) c f (rel, h)) ->
  (forall n rel h h', offers c e f n -> (rel, h) ∈ state_files st -> (base +:+ rel, h') ∈ refs n -> h' = h) ->
  run c e f = (Ok tt, w) ->
  w_fs w = f \/
  exists n, w_fs w !! notif_path c name = Some (File (x_write_notif (e_ext e) n) None) /\
    forall u h, (u, h) ∈ refs n -> exists rel, u = base +:+ rel /\
      ((forall t k, recorded_at c base name e f (public_path c rel) t -> (wrap64 (e_clock e k - c_cleanup_after c) < t)%Z) ->
       published (e_ext e) c (w_fs w) (rel, h)).
Proof.
  intros Hset Hh Hst Hpub Hsame Hrun. pose proof Hset as Hs%setting_sane.
  destruct (ok_run c base name e f Hs w Hrun)
    as [[H _]|(st0 & n0 & n & sg & f1 & v & st' & f2 & cb & st2 & f3 & f4 & n' & f5 & Ha & Hsv & Hg & HN & H2)]; [by left|right].
  exists n'. split; [done|]. intros u h Hin. rewrite (refs_of base st2 n' (as_notif _ _ _ _ _ _ _ _ _ _ _ _ _ _ _ _ _ _ _ Ha)) in Hin.
  apply elem_of_list_fmap in Hin as ([rel h'] & [= -> ->] & Hin). exists rel. split; [done|]. intros Hno.
  assert (Hgr : good_rel name rel) by (by eapply state_files_good).
  destruct (good_rel_apart c name rel Hgr) as [Ha1 Ha2].
  pose proof (as_notify _ _ _ _ _ _ _ _ _ _ _ _ _ _ _ _ _ _ _ Ha) as Hn.
  pose proof (an_rsync _ _ _ _ _ _ _ _ _ _ _ _ _ _ _ _ _ Hn) as Hr.
  pose proof (am_start _ _ _ _ _ _ _ _ _ _ (ac_move _ _ _ _ _ _ _ _ _ _ _ _ _ (ar_clean _ _ _ _ _ _ _ _ _ _ _ _ _ _ _ _ Hr))) as Hst0.
  rewrite (starts_unique _ _ _ _ _ _ Hst0 Hst) in *. clear Hst0 st0.
  assert (Hno' : forall cb t, clean_time c e cb -> recorded_at c base name e f (public_path c rel) t -> (cb < t)%Z).
  { intros cb' t [k ->] Ht. by apply Hno. }
  assert (Hfin : view (w_fs w) (public_path c rel) = view f3 (public_path c rel)).
  { apply (final_view c base name e f Hs _ _ _ _ _ _ _ _ _ _ _ _ _ _ _ _ (public_under c rel)
      (apart_neq _ _ Ha1) (apart_neq _ _ Ha2) Ha Hsv). }
  destruct (decide ((rel, h') ∈ staged_entries sg)) as [Hen|Hnen].
  { eapply published_view; [exact Hfin|]. apply (published_view _ _ f4).
    - cbn. symmetry. apply (rsync_view c base name e f Hs); [apply public_under|apply Hn].
    - by apply (arrives c base name e f Hs Hh _ _ _ _ _ _ _ _ _ _ _ _ (rel, h') Hn). }
  assert (Hold : (rel, h') ∈ state_files st).
  { unfold state_files in Hin. destruct (new_deltas c base name e f _ _ _ _ _ _ _ _ _ _ _ Hr) as [_ Esn]. rewrite Esn in Hin. cbn in Hin.
    apply elem_of_cons in Hin as [E|Hin]; [destruct Hnen; rewrite E; constructor|].
    apply elem_of_list_fmap in Hin as (d & E & Hd).
    apply (new_delta_in c base name e f _ _ _ _ _ _ _ _ _ _ _ d Hr) in Hd as [Hd|Hd].
    - apply elem_of_app. right. rewrite E. apply elem_of_list_fmap. exists d. split; [done|]. apply (kept_gone st sg). by left.
    - destruct Hnen. rewrite E. right. apply elem_of_list_fmap. by exists d. }
  specialize (Hpub _ _ Hold).
  eapply published_view; [exact Hfin|].
  destruct (clean_view _ _ _ _ (public_path c rel) (ar_tree _ _ _ _ _ _ _ _ _ _ _ _ _ _ _ _ Hr)) as [E|[Hx _]].
  2: { exfalso. destruct (expired_recorded c base name e f Hs _ _ _ _ _ _ _ _ _ _ (ar_clean _ _ _ _ _ _ _ _ _ _ _ _ _ _ _ _ Hr) Hx) as (t & Ht & Hle).
    specialize (Hno' cb t (ar_time _ _ _ _ _ _ _ _ _ _ _ _ _ _ _ _ Hr) Ht). lia. }
  eapply published_view; [exact E|].
  pose proof (ar_clean _ _ _ _ _ _ _ _ _ _ _ _ _ _ _ _ Hr) as A1.
  destruct (ac_files _ _ _ _ _ _ _ _ _ _ _ _ _ A1) as [Hmv Hall].
  { eapply (run_honest c base name e f Hs Hh). apply A1. }
  pose proof (ac_move _ _ _ _ _ _ _ _ _ _ _ _ _ A1) as Am.
  destruct (decide (Exists (fun en => public_path c rel = public_path c en.1) (staged_entries sg))) as [([rel' h2] & Hen & Ep)%Exists_exists|Hnx].
  - apply public_path_inj in Ep. cbn in Ep. subst rel'.
    destruct (entry_ref c base name e f Hs _ _ _ _ _ _ Am Hen) as ([Ho Hs'] & _ & Hrf).
    rewrite Forall_forall in Hall. rewrite <- (Hsame _ rel h' h2 Ho Hold ltac:(by eapply sav_refs)). by apply Hall.
  - eapply published_view; [|exact Hpub]. cbn.
    rewrite <- (stage_view c f f1 (public_path c rel) (am_tree _ _ _ _ _ _ _ _ _ _ Am)).
    2: { intros Hu. by apply (apart_disjoint _ _ _ (ck_s_r _ _ _ (sn_cfg _ _ _ _ _ Hs)) Hu), public_under. }
    destruct Hmv as [_ Hm _ _]. apply (view_mods _ _ _ _ _ Hm).
    intros (en & Hen & [Eq|Eq]); [|by destruct Hnx; apply Exists_exists; exists en].
    destruct (entry_ref c base name e f Hs _ _ _ _ _ _ Am Hen) as (_ & (Hcl & _) & _).
    apply (apart_disjoint _ _ (staging_path c en.1) (ck_s_r _ _ _ (sn_cfg _ _ _ _ _ Hs))); [by apply staging_path_under|].
    rewrite <- Eq. apply public_under.
Qed.
(** the second run of the demonstration: the hypotheses of the theorem hold, and
    no record expires *)
Definition served_check (f : fs) (n : notification) : bool :=
  match state_of demo_config f with
  | Some st => forallb (fun r =>
      match f !! public_path demo_config r.1 with Some (File b _) => String.eqb (x_hash safe_ext b) r.2 | _ => false end &&
      forallb (fun q => implb (String.eqb q.1 (base +:+ r.1)) (String.eqb q.2 r.2)) (refs n)) (state_files st) &&
      match st_deprecated st with [] => true | _ => false end
  | None => false
  end.
Lemma served_check_ok f n : served_check f n = true -> exists st, starts_from demo_config base name f st /\
  (forall rel h, (rel, h) ∈ state_files st -> published safe_ext demo_config f (rel, h)) /\
  (forall rel h h', (rel, h) ∈ state_files st -> (base +:+ rel, h') ∈ refs n -> h' = h) /\
  st_deprecated st = [].
Proof.
  unfold served_check. destruct (state_of demo_config f) as [st|] eqn:E; [|intros H; discriminate H].
  intros [H1 H2]%andb_true_iff. exists st. split; [by apply state_of_starts|]. rewrite forallb_forall in H1.
  split; [|split].
  - intros rel h Hin%elem_of_list_In. apply H1, andb_true_iff in Hin as [Hin _]. unfold published. cbn in *.
    destruct (f !! _) as [[b m| |]|]; [|discriminate Hin..]. exists b, m. split; [reflexivity|]. by apply String.eqb_eq.
  - intros rel h h' Hin%elem_of_list_In Hr%elem_of_list_In. apply H1, andb_true_iff in Hin as [_ Hin].
    rewrite forallb_forall in Hin. specialize (Hin _ Hr). cbn in Hin. rewrite String.eqb_refl in Hin. by apply String.eqb_eq.
  - destruct (st_deprecated st); [reflexivity|discriminate H2].
Qed.
Lemma served_check3 : served_check t3_1 (src3 1) = true.
Proof. vm_cast_no_check (eq_refl true). Qed.
Opaque run t3_1 t3_2 t3_3 start_tree.
Example C15_applies : exists st w,
  setting demo_config base name (env3 1) (tree3 1) /\ honest_run demo_config (env3 1) (tree3 1) /\
  starts_from demo_config base name (tree3 1) st /\ st_snap st <> None /\
  (forall rel h, (rel, h) ∈ state_files st -> published safe_ext demo_config (tree3 1) (rel, h)) /\
  (forall n rel h h', offers demo_config (env3 1) (tree3 1) n -> (rel, h) ∈ state_files st -> (base +:+ rel, h') ∈ refs n -> h' = h) /\
  run demo_config (env3 1) (tree3 1) = (Ok tt, w) /\ w_fs w <> tree3 1 /\
  (forall p t k, recorded_at demo_config base name (env3 1) (tree3 1) p t ->
     (wrap64 (e_clock (env3 1) k - c_cleanup_after demo_config) < t)%Z).
Proof.
  destruct (served_check_ok _ _ served_check3) as (st & S1 & S2 & S3 & S4).
  pose proof (tree_at_eq 1 ltac:(lia)) as E. cbn [tree_at] in E. rewrite E in S1, S2. clear E.
  destruct (ran_changed3 1) as (w & H1 & H2); [lia|].
  exists st, w. split; [apply setting3; lia|]. split; [apply serve_honest; lia|].
  split; [exact S1|]. split.
  { destruct (state3 1 ltac:(lia) ltac:(lia)) as (st' & T1 & T2). apply (state_of_starts _ base name) in T1.
    rewrite (starts_unique _ _ _ _ _ _ S1 T1). intros Hn. unfold summary in T2. rewrite Hn in T2. discriminate T2. }
  split; [exact S2|]. split; [|split; [exact H1|split; [exact H2|]]].
  - intros n rel h h' Hof Hin Hr. apply env3_offers in Hof; [|lia]. subst n. exact (S3 _ _ _ Hin Hr).
  - intros p t k (st' & T1 & T2). rewrite (starts_unique _ _ _ _ _ _ T1 S1) in T2. destruct T2 as [(d & Hd & _)|[[k' ->] _]].
    + rewrite S4 in Hd. exact (False_ind _ (proj1 (elem_of_nil _) Hd)).
    + clear. vm_compute. reflexivity.
Qed.
Transparent run t3_1 t3_2 t3_3 start_tree.
Print Assumptions C15_served.

(** ** C47 *)
(** the state accounts for the path: it lists it as published or as unused *)
Definition accounts (c : config) (st : rrdp_state) (p : path) : Prop :=
  (exists rel h, (rel, h) ∈ state_files st /\ p = public_path c rel) \/
  (exists d, d ∈ st_deprecated st /\ dp_path d = p).
Lemma file_at_view f p b m : f !! p = Some (File b m) -> p <> [] -> fs_exists f p = true.
Proof. intros E Hp. unfold fs_exists, fs_stat. rewrite fs_get_nonroot by done. by rewrite E. Qed.
(** If the files in the RRDP directory are accounted for before a completed run,
    they are afterwards; in particular the files that the run added are. *)
Theorem C47_accounted c base name e f w st st' p b m :
  setting c base name e f -> honest_run c e f -> run c e f = (Ok tt, w) ->
  starts_from c base name f st -> starts_from c base name (w_fs w) st' ->
  under (c_rrdp_dir c) p -> p <> notif_path c name -> p <> notif_tmp c name ->
  (forall b0 m0, f !! p = Some (File b0 m0) -> accounts c st p) ->
  w_fs w !! p = Some (File b m) -> accounts c st' p.
Proof.
  intros Hset Hh Hrun Hst Hst' Hp HN Ht Hacc E. pose proof Hset as Hs%setting_sane. pose proof (sn_cfg _ _ _ _ _ Hs) as Hc.
  destruct (ok_run c base name e f Hs w Hrun)
    as [(H & _)|(st0 & n0 & n & sg & f1 & v & st1 & f2 & cb & st2 & f3 & f4 & n' & f5 & Ha & Hsv & Hg & _ & H2)].
  { rewrite H in Hst', E. rewrite (starts_unique _ _ _ _ _ _ Hst' Hst). by eapply Hacc. }
  destruct (H2 _ Hst') as [v' ->]. clear H2.
  assert (Hpn : p <> []).
  { intros ->. apply prefix_nil_inv in Hp. by apply (rrdp_ne c _ _ Hc). }
  pose proof (an_rsync _ _ _ _ _ _ _ _ _ _ _ _ _ _ _ _ _ (as_notify _ _ _ _ _ _ _ _ _ _ _ _ _ _ _ _ _ _ _ Ha)) as Hr.
  pose proof (ar_clean _ _ _ _ _ _ _ _ _ _ _ _ _ _ _ _ Hr) as Hcl.
  pose proof (ac_move _ _ _ _ _ _ _ _ _ _ _ _ _ Hcl) as Hmv.
  pose proof (am_start _ _ _ _ _ _ _ _ _ _ Hmv) as Hst0.
  rewrite (starts_unique _ _ _ _ _ _ Hst0 Hst) in *. clear Hst0 st0.
  destruct (mg_deprecated _ _ _ _ (ac_merged _ _ _ _ _ _ _ _ _ _ _ _ _ Hcl)) as (deps & M1 & M2 & M3).
  cbn in M1. destruct (new_deltas c base name e f _ _ _ _ _ _ _ _ _ _ _ Hr) as [_ Esn].
  apply view_file in E. rewrite (final_view c base name e f Hs _ _ _ _ _ _ _ _ _ _ _ _ _ _ _ _ Hp HN Ht Ha Hsv) in E.
  assert (Hdep : forall d, d ∈ st_deprecated st ++ deps -> dp_path d = p -> accounts c (set_validator st2 v') p).
  { intros d Hd Ed. right. exists d. split; [|done]. cbn.
    rewrite (ar_cleaned _ _ _ _ _ _ _ _ _ _ _ _ _ _ _ _ Hr). cbn. rewrite M1. apply elem_of_list_filter. split; [|done].
    destruct (Z.lt_ge_cases cb (dp_since d)) as [|Hge]; [done|]. exfalso.
    assert (Hx : expired st1 cb p) by (exists d; by rewrite M1).
    pose proof (ar_gone _ _ _ _ _ _ _ _ _ _ _ _ _ _ _ _ Hr _ Hx) as Hno.
    apply view_file in E. by rewrite (file_at_view _ _ _ _ E Hpn) in Hno. }
  destruct (clean_view _ _ _ _ p (ar_tree _ _ _ _ _ _ _ _ _ _ _ _ _ _ _ _ Hr)) as [Ev|[_ Ev]]; [|congruence].
  rewrite E in Ev. symmetry in Ev.
  destruct (ac_files _ _ _ _ _ _ _ _ _ _ _ _ _ Hcl (run_honest c base name e f Hs Hh _ _ _ _ _ Hmv)) as [[_ Mm _ _] _].
  assert (Hold : (exists en, en ∈ staged_entries sg /\ p = public_path c en.1) \/ view f p = view f2 p).
  { destruct (Mm p) as [E'|[(en & Hen & [-> | ->])|(_ & E2 & E3)]].
    - right. rewrite (view_eq _ _ _ E'). symmetry. apply (stage_view c); [apply Hmv|].
      intros Hu. by apply (apart_disjoint _ _ p (ck_s_r _ _ _ Hc)).
    - exfalso. destruct (entry_ref c base name e f Hs _ _ _ _ _ _ Hmv Hen) as (_ & (Hcln & _) & _).
      apply (apart_disjoint _ _ (staging_path c en.1) (ck_s_r _ _ _ Hc)); [by apply staging_path_under|done].
    - left. by exists en.
    - apply view_file in Ev. destruct E3; congruence. }
  destruct Hold as [([rel h] & Hen & ->)|Ef].
  { left. exists rel, h. split; [|done]. unfold state_files. cbn. rewrite Esn. cbn.
    unfold staged_entries in Hen. apply elem_of_cons in Hen as [->|Hen]; [constructor|]. right.
    apply elem_of_list_fmap in Hen as (d & [= -> ->] & Hd). apply elem_of_list_fmap. exists d. split; [done|].
    apply (new_delta_in c base name e f _ _ _ _ _ _ _ _ _ _ _ d Hr). by right. }
  rewrite Ev in Ef. apply view_file in Ef. destruct (Hacc _ _ Ef) as [(rel & h & Hin & ->)|(d & Hd & Ed)].
  - destruct (decide (Exists (fun d => ds_rel d = rel) (kept st sg))) as [Hk|Hk].
    + apply Exists_exists in Hk as (d & Hd & Er). left. exists rel, (ds_hash d). split; [|done].
      unfold state_files. cbn. apply elem_of_app. right. apply elem_of_list_fmap. exists d. split; [by rewrite Er|].
      apply (new_delta_in c base name e f _ _ _ _ _ _ _ _ _ _ _ d Hr). by left.
    + assert (Hd : public_path c rel ∈ dropped st sg).
      { apply (dropped_spec c base name st sg rel h); [by eapply start_good|done|]. intros d Hd Er.
        apply Hk, Exists_exists. by exists d. }
      change (dropped st sg) with (dropped (set_validator st v) sg) in Hd. rewrite <- M2 in Hd.
      apply elem_of_list_fmap in Hd as (d & Ed & Hd).
      apply (Hdep d); [apply elem_of_app; by right|done].
  - apply (Hdep d); [apply elem_of_app; by left|done].
Qed.
(** the trees that completed runs lead to, if the RRDP directory has no files
    at first *)
Inductive completed_runs (c : config) (base name : string) : fs -> Prop :=
| cr_start f : wf f -> f !! rrdp_state_path c = None ->
    (forall p b m, under (c_rrdp_dir c) p -> f !! p <> Some (File b m)) -> completed_runs c base name f
| cr_run f e w : completed_runs c base name f -> good_world c base name e f -> honest_run c e f ->
    run c e f = (Ok tt, w) -> completed_runs c base name (w_fs w).
Lemma completed_mirror c base name f : completed_runs c base name f -> mirror any_notif c base name f.
Proof.
  induction 1 as [f H1 H2 _|f e w _ IH Hw _ Hrun]; [by apply mi_start|].
  eapply (mi_run _ _ _ _ f c e); [done|done|done|done|].
  assert (E : w_fs w = after (run c e f)) by (unfold after; by rewrite Hrun). rewrite E. apply after_instant.
Qed.
(** Between completed runs every file in the RRDP directory is accounted for. *)
Theorem C47_history c base name f st p b m :
  cfg_ok c base name -> completed_runs c base name f -> starts_from c base name f st ->
  under (c_rrdp_dir c) p -> p <> notif_path c name -> p <> notif_tmp c name ->
  f !! p = Some (File b m) -> accounts c st p.
Proof.
  intros Hc Hf Hst Hp HN Ht. revert st b m Hst.
  induction Hf as [f H1 H2 H3|f e w Hf IH Hw Hh Hrun]; intros st b m Hst E; [by apply H3 in E|].
  assert (Hset : setting c base name e f) by (split; [done|by apply completed_mirror|done]).
  pose proof Hset as Hs%setting_sane.
  assert (exists st0, starts_from c base name f st0) as [st0 Hst0].
  { destruct (ok_run c base name e f Hs w Hrun)
      as [(_ & st0 & H & _)|(st0 & n0 & n & sg & f1 & v & st1 & f2 & cb & st2 & f3 & f4 & n' & f5 & Ha & _)]; [by exists st0|].
    exists st0. apply Ha. }
  eapply (C47_accounted c base name e f w st0 st p); eauto.
Qed.
(** the trees of the demonstration *)
Lemma start_empty : (forall p b m, under (c_rrdp_dir demo_config) p -> start_tree !! p <> Some (File b m)) /\
  start_tree !! rrdp_state_path demo_config = None.
Proof.
  split; [|vm_compute; reflexivity]. intros p b m Hp E.
  assert (H : forallb (fun x => implb (bool_decide (prefix (c_rrdp_dir demo_config) x.1))
                (match x.2 with File _ _ => false | _ => true end)) (map_to_list start_tree) = true) by (vm_compute; reflexivity).
  rewrite forallb_forall in H. apply elem_of_map_to_list, elem_of_list_In in E. apply H in E. cbn [fst snd] in E.
  rewrite (bool_decide_true _ Hp) in E. discriminate E.
Qed.
Opaque run t3_1 t3_2 t3_3 start_tree.
Example C47_applies : completed_runs demo_config base name (tree3 2) /\
  (exists st, starts_from demo_config base name (tree3 2) st /\ st_deprecated st <> []) /\
  exists b m, tree3 2 !! public_path demo_config (snap_rel uuid_A 3) = Some (File b m).
Proof.
  split; [|split; [|apply file3; by left]].
  - assert (H : forall i, i <= 2 -> completed_runs demo_config base name (tree3 i)).
    { induction i as [|i IH]; intros Hi.
      - destruct start_empty as [H1 H2]. apply cr_start; [apply start_wf|exact H2|exact H1].
      - destruct (ran3 i ltac:(lia)) as (w & Hw & <-). apply (cr_run _ _ _ (tree3 i) (env3 i)); [apply IH; lia|
          apply env3_good; lia|apply serve_honest; lia|exact Hw]. }
    apply H. lia.
  - destruct (state3 2 ltac:(lia) ltac:(lia)) as (st & T1 & T2). exists st. split; [exact (state_of_starts _ _ _ _ _ T1)|].
    intros Hn. unfold summary in T2. rewrite Hn in T2. destruct (st_snap st); discriminate T2.
Qed.
Transparent run t3_1 t3_2 t3_3 start_tree.
Print Assumptions C47_accounted.
Print Assumptions C47_history.
