(** * Completed runs *)
From Coq Require Import ZifyN ZifyNat ZifyBool.
From Verif Require Export Tracks HistoryProofs.

Section done.
  Context (c : config) (base name : string) (e : env) (f : fs) (Hs : sane c base name e f).
  Let Hc : cfg_ok c base name := sn_cfg _ _ _ _ _ Hs.

  Lemma ok_run w : run c e f = (Ok tt, w) ->
    (w_fs w = f /\ exists st, starts_from c base name f st /\ no_news e c f st) \/
    exists st n0 n sg f1 v st' f2 cb st2 f3 f4 n' f5,
      at_save c base name e f st n0 n sg f1 v st' f2 cb st2 f3 f4 n' f5 /\
      saving c (state_text st2) f5 (w_fs w) /\ good_state c base name st2 /\
      w_fs w !! notif_path c name = Some (File (x_write_notif (e_ext e) n') None) /\
      (forall stx, starts_from c base name (w_fs w) stx -> exists v', stx = set_validator st2 v').
  Proof using Hs.
    intros E. destruct (run_story c base name e f Hs _ w E)
      as [[_ H]|(st & n0 & n & sg & f1 & v & st' & f2 & cb & st2 & f3 & f4 & n' & H1 & H2 & _ & H)].
    - left. by apply H.
    - right. destruct (H eq_refl) as (f5 & H3 & H4 & H5).
      pose proof (save_good c base name e f Hs _ _ _ _ _ _ _ _ _ _ _ _ H1) as Hg.
      exists st, n0, n, sg, f1, v, st', f2, cb, st2, f3, f4, n', f5.
      split; [done|]. split; [done|]. split; [done|]. split.
      { rewrite (save_N c base name Hc _ _ _ H4). apply H3. }
      intros stx Hst. destruct (read_file_at _ _ _ _ (state_path_ne c) H5) as [Hr Hx].
      destruct Hst as [[_ (b' & Hb' & Hp)]|[Hf _]]; [|congruence]. rewrite Hr in Hb'. injection Hb' as <-.
      destruct (good_clean c base name Hc _ Hg) as [G1 G2]. by eapply state_parse_core.
  Qed.

  (** the list of records after a completed change *)
  Lemma records st n0 n sg f1 v st' f2 cb st2 f3 : at_rsync c base name e f st n0 n sg f1 v st' f2 cb st2 f3 ->
    exists deps, st_deprecated st2 = filter (fun d => (cb < dp_since d)%Z) (st_deprecated st ++ deps) /\
      dp_path <$> deps = dropped st sg /\ Forall (fun d => run_clock e (dp_since d)) deps.
  Proof using.
    intros [A1 A2 A3 A4 A5]. destruct (mg_deprecated _ _ _ _ (ac_merged _ _ _ _ _ _ _ _ _ _ _ _ _ A1)) as (deps & M1 & M2 & M3).
    exists deps. split; [|split; [|done]].
    - rewrite A3. cbn. by rewrite M1.
    - rewrite M2. done.
  Qed.
  Lemma dropped_spec st sg rel h : good_state c base name st -> (rel, h) ∈ state_files st ->
    (forall d, d ∈ kept st sg -> ds_rel d <> rel) -> public_path c rel ∈ dropped st sg.
  Proof using.
    intros Hg Hin Hk. unfold dropped. unfold state_files in Hin. apply elem_of_app in Hin as [H|H].
    - destruct (st_snap st) as [s|] eqn:Es; cbn in H; [|by apply elem_of_nil in H].
      apply elem_of_list_singleton in H as [= -> ->]. apply elem_of_app. left.
      unfold snapshot_path. rewrite Es. cbn. apply elem_of_list_singleton. symmetry.
      eapply public_mp; [done|]. by apply (gs_snap _ _ _ _ Hg).
    - apply elem_of_list_fmap in H as (d & [= -> ->] & Hd). apply elem_of_app. right.
      apply (kept_gone st sg) in Hd as Hd'. destruct Hd' as [Hd'|Hd']; [by destruct (Hk d Hd')|].
      apply elem_of_list_fmap. exists d. split; [|done]. symmetry.
      eapply public_mp; [done|]. by apply (gs_deltas _ _ _ _ Hg).
  Qed.
  Lemma new_deltas st n0 n sg f1 v st' f2 cb st2 f3 : at_rsync c base name e f st n0 n sg f1 v st' f2 cb st2 f3 ->
    st_deltas st2 = reverse (sort_by_key ds_serial (kept st sg ++ sg_deltas sg)) /\ st_snap st2 = Some (sg_snap sg).
  Proof using.
    intros [A1 A2 A3 A4 A5]. destruct (ac_merged _ _ _ _ _ _ _ _ _ _ _ _ _ A1) as [M1 M2 M3 M4 M5 M6].
    rewrite A3. cbn. done.
  Qed.
  Lemma new_delta_in st n0 n sg f1 v st' f2 cb st2 f3 d : at_rsync c base name e f st n0 n sg f1 v st' f2 cb st2 f3 ->
    d ∈ st_deltas st2 <-> d ∈ kept st sg \/ d ∈ sg_deltas sg.
  Proof using.
    intros Ha. destruct (new_deltas _ _ _ _ _ _ _ _ _ _ _ Ha) as [-> _].
    by rewrite elem_of_reverse, sort_by_key_perm, elem_of_app.
  Qed.

  (** the content of the RRDP directory after a completed change *)
  Lemma final_view st n0 n sg f1 v st' f2 cb st2 f3 f4 n' f5 g p : under (c_rrdp_dir c) p ->
    p <> notif_path c name -> p <> notif_tmp c name ->
    at_save c base name e f st n0 n sg f1 v st' f2 cb st2 f3 f4 n' f5 -> saving c (state_text st2) f5 g ->
    view g p = view f3 p.
  Proof using Hs.
    intros Hp HN Ht [[A1 A2] A3 A4 A5] Hsv.
    rewrite (save_view c base name e f Hs _ _ _ p Hp Hsv), (notify_view c name _ _ _ p HN Ht A4).
    by apply (rsync_view c base name e f Hs).
  Qed.
End done.
