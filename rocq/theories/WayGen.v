(** * What runs leave behind is not in the way of later runs: any way of
    switching to a new revision *)
From Coq Require Import ZifyN ZifyNat ZifyBool.
From Verif Require Export LiveRest PropsRsync PropsLive.
From Verif Require Import Live FsWf.

Section way.
  (** [T]: the places of files, [D]: the places of directories; [way]: what is
      kept, [way']: what holds after the switch to the new revision *)
  Context (c : config) (base name : string) (e : env) (f0 : fs) (T D : path -> Prop) (way way' : fs -> Prop).
  Context (Hs : sane c base name e f0) (Hh : honest_run c e f0).
  Context (Tne : forall t, T t -> t <> []) (Tanti : forall t, T t -> ~ dirs T D t).
  Context (Dup : forall d d', D d -> below d' d -> D d').
  Context (Drev : forall r, D (rev_path c r)).
  Context (way_room : forall g, way g -> room T D g) (way_mk : mk_ok way (dirs T D)).
  Context (way_put : forall g t b m, way g -> T t -> parent_is_dir g t = true -> way (<[t := File b m]> g)).
  Context (way_del : forall g p, way g -> wf (delete p g) -> (forall r, p <> rev_path c r) -> way (delete p g)).
  Context (way'_way : forall g, way' g -> way g) (way'_sub : forall f g, way' f -> wf g -> g ⊆ f -> way' g).
  Context (way_turn : forall r rs w, way (w_fs w) -> w_fs w !! rev_path c r = Some Dir ->
    wpt e (on_fs way) (if use_symlinks c then symlink_current r c else rename_new_revision r rs c) w
      (fun x w' => way (w_fs w') /\ (x = Ok tt -> way' (w_fs w')))).
  Context (Tlist : forall p, p ∈ [staging_dir c ++ [name]; notif_path c name; notif_tmp c name; rrdp_state_path c; rsync_state_path c] -> T p).
  Context (Trefs : forall n0 u h rel, offers c e f0 n0 -> (u, h) ∈ refs n0 -> u = base +:+ rel -> T (staging_path c rel) /\ T (public_path c rel)).
  Context (Tbook : forall st p, starts_from c base name f0 st -> booked c st p -> T p).
  Context (Tobj : forall n0 b u o, offers c e f0 n0 -> x_hash (e_ext e) b = n_snap_hash n0 -> (u, o) ∈ (x_snapshot (e_ext e) b).1 ->
     T (object_path (c_include_host c) (rev_path c (mkRev (n_session n0) (n_serial n0))) u)).
  Let Hc : cfg_ok c base name := sn_cfg _ _ _ _ _ Hs.
  Let Tname : T (staging_dir c ++ [name]) := Tlist _ (elem_of_list_here _ _).

  Lemma way_wf g : way g -> wf g.
  Proof using way_room. by intros [? _]%way_room. Qed.

  Lemma rev_not_T r : ~ T (rev_path c r).
  Proof using All. intros H. apply (Tanti _ H). right. apply Drev. Qed.
  Lemma way_wr t b : T t -> wr_ok way t b.
  Proof using All. intros Ht g b' Hg _ _ _ Hp. by apply way_put. Qed.
  Lemma way_rmf p : T p -> rmf_ok way p.
  Proof using All.
    intros Hp g nd Hg Hne E Hd. apply way_del; [done|eapply (wf_rmf p); [by apply way_wf|done|exact E|done]|].
    intros r ->. by apply (rev_not_T r).
  Qed.
  Lemma way_mv o t : T o -> T t -> mv_ok way o t.
  Proof using All.
    intros Ho Ht g b m Hg Hone Htne Eo Ed Hp. apply way_put; [by apply (way_rmf o Ho g (File b m))|done|].
    apply parent_is_dir_spec in Hp as [_ Hp]. apply parent_is_dir_spec. split; [done|].
    destruct (removelast t) as [|s q] eqn:El; [done|]. cbn [fs_get] in *.
    rewrite lookup_delete_ne; [done|]. intros Ex. rewrite Ex in Eo. congruence.
  Qed.
  Lemma T_parents t q : T t -> below q t -> q <> [] -> dirs T D q.
  Proof using All. intros Ht Hq _. left. eauto. Qed.
  Lemma T_stat g t b : way g -> T t -> op_read g t = Some b -> exists m, g !! t = Some (File b m).
  Proof using All.
    intros (_ & H & _)%way_room Ht. pose proof (Tne _ Ht). unfold op_read, fs_stat. rewrite fs_get_nonroot by done.
    destruct (H _ Ht) as [->|(b' & m & ->)]; [done|]. intros [= <-]. by exists m.
  Qed.

  (** ** Operations on places of files *)
  Lemma ky_create_path p : T p -> keeps e way (create_path_for_file p).
  Proof using All.
    intros HP w HI. eapply (w_create_path_for_file e way); [done|exact way_mk| |auto]. intros q Hq Hn. by eapply T_parents.
  Qed.
  Lemma ky_write p b : T p -> keeps e way (f_write p b).
  Proof using All. intros HP w HI. eapply (w_write e way); [done|by apply way_wr|auto|auto]. Qed.
  Lemma ky_write_buf p b : T p -> keeps e way (write_buf p b).
  Proof using All.
    intros HP. unfold write_buf. apply keeps_bind; [by apply ky_create_path|]. intros _. by apply ky_write.
  Qed.
  Lemma ky_remove_file p : T p -> keeps e way (f_remove_file p).
  Proof using All.
    intros HP w HI. eapply (w_remove_file e way); [done|by apply way_rmf| |auto]. intros x w' ->. done.
  Qed.
  Lemma ky_copy o t : T t -> keeps e way (f_copy o t).
  Proof using All.
    intros HP w HI. destruct (op_read (w_fs w) o) as [b|] eqn:E.
    - eapply (w_copy e way); [done|exact E| |auto|auto]. intros _. by apply way_wr.
    - unfold f_copy. apply wpt_fs_inv; [done| |done|]; unfold op_copy; rewrite E; [done|]. by intros.
  Qed.
  Lemma ky_rename o t : T o -> T t -> keeps e way (f_rename o t).
  Proof using All.
    intros Ho Ht. unfold f_rename. apply keeps_step. intros g mids fin Hg E. unfold op_rename in E.
    pose proof (Tne _ Ho) as Hone. pose proof (Tne _ Ht) as Htne.
    rewrite !fs_get_nonroot in E by done. destruct o as [|o0 o']; [done|]. set (o := o0 :: o') in *.
    rewrite (fs_get_nonroot g o) in E by done. pose proof (way_room _ Hg) as (_ & HT & _).
    destruct (HT _ Ho) as [Eo|(b & m & Eo)]; rewrite Eo in E; [done|].
    destruct (parent_is_dir g t) eqn:Hpd; [|done].
    destruct (HT _ Ht) as [Et|(b' & m' & Et)]; rewrite Et in E; injection E as <- <-; (split; [constructor|]);
      apply (way_mv o t); try done; congruence.
  Qed.
  Lemma ky_set_mtime p t : T p -> keeps e way (f_set_mtime p t).
  Proof using All.
    intros HP. unfold f_set_mtime. apply keeps_step. intros g mids fin HI E. unfold op_set_mtime in E.
    rewrite fs_get_nonroot in E by (by apply Tne). destruct (g !! p) as [[b m| |]|] eqn:Ep; try done.
    injection E as <- <-. split; [constructor|]. apply way_put; [done|done|].
    by apply (way_wf _ HI p (File b m)).
  Qed.
  Lemma ky_move_file src dst rel :
    T (path_join src rel) -> T (path_join dst rel) -> keeps e way (move_file src dst rel).
  Proof using All.
    intros Ho Ht. unfold move_file. cbv zeta. apply keeps_bind; [by apply ky_create_path|]. intros _.
    apply keeps_bind; [apply keeps_exists|]. intros ex. destruct (negb ex); [apply keeps_fail|].
    apply keeps_bind; [apply keeps_catch; by apply ky_rename|]. intros [|]; [apply keeps_ret|].
    apply keeps_bind; [by apply ky_copy|]. intros _. by apply ky_remove_file.
  Qed.
  Lemma ky_fetch s h t p : T p -> keeps e way (fetch s h t (Some p)).
  Proof using All.
    intros Hp. pose proof (fun b => ky_write_buf p b Hp). unfold fetch. quiet_tac; auto.
  Qed.
  Lemma ky_retrieve f u h p : T p -> keeps e way (retrieve_file f u h p).
  Proof using All.
    intros Hp. pose proof (fun s h t => ky_fetch s h t p Hp). unfold retrieve_file.
    apply keeps_bind; [apply keeps_getext|]. intros x. apply keeps_bind; [apply keeps_catch, q_read_file|].
    assert (Hg : keeps e way (src ← resolve_source f u; _ ← fetch src (Some h) None (Some p); mret tt)).
    { apply keeps_bind; [apply q_resolve_source|]. intros s. apply keeps_bind; [done|]. intros _. apply keeps_ret. }
    intros [b|]; [|done]. destruct (hash_matches x h b); [apply keeps_ret|done].
  Qed.

  (** ** Staging *)
  Lemma ky_deltas_stage st reset f l : mp_base (st_map st) = base ->
    (forall d rel, d ∈ l -> di_uri d = base +:+ rel -> T (staging_path c rel)) ->
    keeps e way (deltas_stage st reset f c l).
  Proof using All.
    intros Hb. induction l as [|d l IH]; intros Hl; cbn [deltas_stage]; [apply keeps_ret|].
    assert (Hl' : forall d' rel, d' ∈ l -> di_uri d' = base +:+ rel -> T (staging_path c rel)) by (intros; eapply Hl; [by right|done]).
    destruct (delta_is_new st reset (di_serial d)); [|by apply IH].
    intros w HI. wp1. unfold mp_relative at 1. wp1; [|done]. rewrite Hb in H. apply strip_prefix_spec in H. rename a into rel.
    eapply (wpt_keeps e way); [|exact HI|by intros].
    apply keeps_bind; [apply ky_retrieve; eapply Hl; [by left|done]|]. intros _.
    apply keeps_bind; [unfold mp_relative; apply keeps_of_option|]. intros rel'.
    apply keeps_bind; [apply q_time_now|]. intros now. apply keeps_bind; [by apply IH|]. intros r. apply keeps_ret.
  Qed.
  Lemma w_way_staged st w :
    mp_base (st_map st) = base -> ns_name (st_source st) = name ->
    (forall n0 u h rel, offers c e (w_fs w) n0 -> (u, h) ∈ refs n0 -> u = base +:+ rel -> T (staging_path c rel)) ->
    way (w_fs w) -> wpt e (on_fs way) (update_staged st c) w (fun _ w' => way (w_fs w')).
  Proof using All.
    intros Hb Hn Hrefs HI. unfold update_staged. cbv zeta. wp1. unfold notif_source_fetch. wp1.
    apply w_read_notification; [by intros [| ] _| |intros w1 src E1 _ _; wp1; wp1; by rewrite E1|intros w1 x E1; by rewrite E1].
    intros w1 src b n0 t E1 Hloc Hsrc Hpn. wp1. wp1. wp1.
    assert (Hoff : offers c e (w_fs w) n0) by (exists src, b; done).
    destruct (sort_and_verify (e_ext e) (c_max_deltas c) n0) as [[n fine]|] eqn:Hsv; [|wp1; by rewrite E1].
    destruct fine; cbn [negb]; [|wp1; by rewrite E1].
    destruct (compare_version st n) as [reset| |]; [|wp1; by rewrite E1..].
    assert (Hr : forall u h rel, (u, h) ∈ refs n -> u = base +:+ rel -> T (staging_path c rel)).
    { intros u h rel Hin. eapply Hrefs; [exact Hoff|]. by eapply sav_refs. }
    assert (HI1 : way (w_fs w1)) by (by rewrite E1).
    eapply (wpt_keeps e way); [|exact HI1|by intros].
    apply keeps_bind.
    { apply ky_write_buf. rewrite Hn. unfold staging_path. rewrite path_join_name by apply (ck_name _ _ _ Hc). done. }
    intros _. apply keeps_bind.
    { unfold snapshot_stage. intros w2 HI2. wp1. unfold mp_relative at 1. wp1; [|done]. rewrite Hb in H. apply strip_prefix_spec in H.
      eapply (wpt_keeps e way); [|exact HI2|by intros].
      apply keeps_bind; [apply ky_retrieve; eapply Hr; [by left|done]|]. intros _.
      apply keeps_bind; [unfold mp_relative; apply keeps_of_option|]. intros rel'.
      apply keeps_bind; [apply q_time_now|]. intros now. apply keeps_ret. }
    intros snap. apply keeps_bind; [|intros; apply keeps_ret]. apply ky_deltas_stage; [done|].
    intros d rel Hd Hu. eapply (Hr _ (di_hash d)); [|exact Hu]. right. apply elem_of_list_fmap. by exists d.
  Qed.

  (** ** Cleaning *)
  Lemma way_rmd (P : path -> Prop) : (forall q r, P q -> q <> rev_path c r) -> rmd_ok way P.
  Proof using All.
    intros HP g q Hg Hq Hne Hd Hch. apply way_del; [done| |].
    - by apply (wf_rmd (fun _ => True)); [apply way_wf|..].
    - intros r. by apply HP.
  Qed.
  Lemma public_not_rev rel q r : q `prefix_of` public_path c rel -> q <> rev_path c r.
  Proof using All.
    intros Hq ->. destruct (ck_r_y _ _ _ Hc) as [H1 H2].
    assert (Hy : c_rsync_dir c `prefix_of` public_path c rel).
    { etransitivity; [|exact Hq]. rewrite rev_path_eq. by eexists. }
    assert (Hr : c_rrdp_dir c `prefix_of` public_path c rel) by (by eexists).
    destruct (prefix_weak_total _ _ _ Hy Hr); [by apply H2|by apply H1].
  Qed.
  Lemma w_way_clean st w : good_state c base name st -> (forall d, d ∈ st_deprecated st -> T (dp_path d)) ->
    way (w_fs w) -> wpt e (on_fs way) (clean st c) w (fun _ w' => way (w_fs w')).
  Proof using All.
    intros Hg HT HI. apply (w_clean e c way (fun q => exists rel, q `prefix_of` public_path c rel) way_wf); [done| | |done|done].
    - apply way_rmd. intros q r (rel & Hq). by eapply public_not_rev.
    - intros d Hd _. split; [by apply Tne, HT|]. split; [by apply way_rmf, HT|]. intros q Hq _.
      destruct (gs_deprecated _ _ _ _ Hg _ Hd) as (rel & _ & E). exists rel. by rewrite <- E.
  Qed.

  (** ** The rsync step *)
  Lemma ky_create_out r : keeps e way (create_out_path_if_missing (rev_path c r)).
  Proof using All.
    unfold create_out_path_if_missing. apply keeps_bind; [apply keeps_exists|]. intros b. apply keeps_unless.
    intros w HI. eapply (w_create_dir_all e way); [done|exact way_mk| |auto]. intros q Hq Hne.
    destruct (decide (q = rev_path c r)) as [->|Hn]; [right; apply Drev|]. right. eapply Dup; [apply (Drev r)|by split].
  Qed.
  Lemma ky_publish h out u o : T (object_path h out u) -> keeps e way (publish h out u o).
  Proof using All.
    intros Hu. unfold publish. cbv zeta. apply keeps_bind; [apply keeps_of_option|]. intros b.
    apply keeps_bind; [by apply ky_write_buf|]. intros _. unfold fix_since.
    apply keeps_bind; [apply keeps_getext|]. intros x. destruct (object_time _ _ _); [|apply keeps_ret].
    apply keeps_bind; [|intros; apply keeps_ret]. apply keeps_catch. by apply ky_set_mtime.
  Qed.

  Lemma keeps_and {B} (I J : fs -> Prop) (m : M B) : keeps e I m -> keeps e J m -> keeps e (fun g => I g /\ J g) m.
  Proof using All.
    intros H1 H2 w [HI HJ]. eapply wpt_conseq; [exact (wpt_and _ _ _ _ _ _ _ (H1 w HI) (H2 w HJ))| |done]. by intros [].
  Qed.
  (** making directories and writing files leaves directories alone *)
  Lemma dir_mkdir q p : keeps e (fun g => g !! q = Some Dir) (f_mkdir p).
  Proof using All.
    unfold f_mkdir. apply keeps_step. intros g mids fin Hg E. unfold op_mkdir in E.
    destruct (fs_get g p) as [[| |]|] eqn:G; try done; [by injection E as <- <-|].
    destruct (parent_is_dir g p) eqn:Hp; [|done]. injection E as <- <-. split; [constructor|].
    destruct (decide (q = p)) as [->|]; [apply lookup_insert|by rewrite lookup_insert_ne].
  Qed.
  Lemma dir_write q p b : keeps e (fun g => g !! q = Some Dir) (f_write p b).
  Proof using All.
    unfold f_write. apply keeps_step. intros g mids fin Hg E. unfold op_write in E.
    destruct (decide (q = p)) as [->|Hne].
    { assert (Hp : fs_get g p = Some Dir) by (by destruct p). by rewrite Hp in E. }
    destruct (fs_get g p) as [[| |]|]; try done; (destruct (parent_is_dir g p); [|done]); injection E as <- <-;
      (split; [apply Forall_fmap, Forall_forall; intros b' _; cbn|]); by rewrite lookup_insert_ne.
  Qed.
  Lemma dir_set_mtime q p t : keeps e (fun g => g !! q = Some Dir) (f_set_mtime p t).
  Proof using All.
    unfold f_set_mtime. apply keeps_step. intros g mids fin Hg E. unfold op_set_mtime in E.
    destruct (fs_get g p) as [[b m| |]|] eqn:G; try done. injection E as <- <-. split; [constructor|].
    destruct (decide (q = p)) as [->|]; [|by rewrite lookup_insert_ne]. destruct p; [done|]. cbn in G. congruence.
  Qed.
  Lemma file_mkdir q b m p : keeps e (fun g => g !! q = Some (File b m)) (f_mkdir p).
  Proof using All.
    unfold f_mkdir. apply keeps_step. intros g mids fin Hg E. unfold op_mkdir in E.
    destruct (fs_get g p) as [[| |]|] eqn:G; try done; [by injection E as <- <-|].
    destruct (parent_is_dir g p) eqn:Hp; [|done]. injection E as <- <-. split; [constructor|].
    destruct (decide (q = p)) as [->|]; [|by rewrite lookup_insert_ne]. destruct p; [done|]. cbn in G. congruence.
  Qed.
  Lemma none_mkdir q p : ~ q `prefix_of` p -> keeps e (fun g => g !! q = None) (create_dir_all p).
  Proof using All.
    intros Hq w HI. eapply (w_create_dir_all e (fun g => g !! q = None) (fun k => k <> q)); [done| | |auto].
    - intros g k Hg Hk _ _ _. by rewrite lookup_insert_ne.
    - intros k Hk _ ->. done.
  Qed.
  Lemma dir_publish q h out u o : keeps e (fun g => g !! q = Some Dir) (publish h out u o).
  Proof using All.
    unfold publish. cbv zeta. apply keeps_bind; [apply keeps_of_option|]. intros b.
    apply keeps_bind.
    { unfold write_buf, create_path_for_file, create_dir_all. apply keeps_bind; [|intros; apply dir_write].
      apply keeps_bind; [apply keeps_of_option|]. intros d. apply keeps_for_each. intros p _. apply dir_mkdir. }
    intros _. unfold fix_since.
    apply keeps_bind; [apply keeps_getext|]. intros x. destruct (object_time _ _ _); [|apply keeps_ret].
    apply keeps_bind; [|intros; apply keeps_ret]. apply keeps_catch, dir_set_mtime.
  Qed.

  Lemma delete_seq_sub ks : forall f g : fs, f ⊆ g -> Forall (fun h : fs => h ⊆ g) (delete_seq ks f).
  Proof using All.
    induction ks as [|k ks IH]; intros f g Hf; cbn; [constructor|].
    assert (Hd : delete k f ⊆ g) by (etrans; [apply delete_subseteq|done]). constructor; [done|]. by apply IH.
  Qed.
  Lemma ky_remove_dir_all p : p <> [] -> keeps e way' (f_remove_dir_all p).
  Proof using All.
    intros Hp w HI.
    assert (Hk : keeps e (inside (fun q => q <> []) (w_fs w)) (f_remove_dir_all p)).
    { apply (k_remove_dir_all e (fun q => q <> []) (w_fs w) (fun q => q <> [])); [|done].
      intros a b Ha [k ->]. by destruct a. }
    assert (Hsb : keeps e (fun g => g ⊆ w_fs w) (f_remove_dir_all p)).
    { unfold f_remove_dir_all. apply keeps_step. intros g mids fin Hg E. unfold op_remove_dir_all in E.
      destruct p as [|p0 p']; [done|]. destruct (fs_get g (p0 :: p')) as [[| |]|]; try done. injection E as <- <-.
      pose proof (delete_seq_sub (below_keys (p0 :: p') g) g (w_fs w) Hg) as HF. split; [done|].
      etrans; [apply delete_subseteq|]. destruct (delete_seq (below_keys (p0 :: p') g) g) as [|x l] eqn:El; [done|].
      assert (Hin : In (List.last (x :: l) g) (x :: l)).
      { clear. revert x. induction l as [|y l IH]; intros x; [by left|]. right. apply IH. }
      rewrite Forall_forall in HF. apply HF. by apply elem_of_list_In. }
    assert (Hw : wf (w_fs w)) by (by apply way_wf, way'_way).
    eapply wpt_conseq; [exact (wpt_and _ _ _ _ _ _ _ (Hk w (conj Hw (mods_refl _ _ _))) (Hsb w (reflexivity _)))| |].
    - intros []; cbn; auto. intros [[H1 _] H2]. by eapply way'_sub.
    - intros r w' [[H1 _] H2]. by eapply way'_sub.
  Qed.
  Lemma ky_clean_old rs : keeps e way' (clean_old rs c).
  Proof using All.
    unfold clean_old. apply keeps_bind; [apply q_seconds_ago|]. intros cb.
    apply keeps_bind; [|intros; apply keeps_ret]. apply keeps_for_each. intros o _.
    apply keeps_bind; [apply keeps_exists|]. intros b. apply keeps_when, ky_remove_dir_all.
    rewrite rev_path_eq. by destruct (c_rsync_dir c).
  Qed.

  Lemma Trec : T (rsync_state_path c).
  Proof using Tlist. apply Tlist. do 4 right. by left. Qed.
  Lemma w_way_rsync st snap w : st_snap st = Some snap ->
    let p := mp_path (st_map st) (ss_rel snap) in
    T p ->
    (forall b u o, op_read (w_fs w) p = Some b -> (u, o) ∈ (x_snapshot (e_ext e) b).1 ->
       T (object_path (c_include_host c) (rev_path c (mkRev (ss_session snap) (ss_serial snap))) u)) ->
    way (w_fs w) -> wpt e (on_fs way) (update_from_rrdp_state st c) w (fun _ w' => way (w_fs w')).
  Proof using All.
    intros Hsn p HT Hobj HI. unfold update_from_rrdp_state. rewrite Hsn. cbv zeta. fold p.
    set (r := mkRev (ss_session snap) (ss_serial snap)) in *. set (out := rev_path c r) in *.
    wp1. eapply (wpt_quiet e _ (rsync_recover c) w (fun _ => True)); [intros; apply q_rsync_recover|apply wpt_triv; intros; apply q_rsync_recover|done|].
    intros [rs|x|] w1 E1 _; [|by rewrite E1..]. rewrite <- E1 in HI, Hobj. clear E1. wp1.
    assert (Hone : out <> []) by (unfold out; rewrite rev_path_eq; by destruct (c_rsync_dir c)).
    eapply wpt_post with (Q := fun x w2 => way (w_fs w2) /\ (x = Ok tt -> w_fs w2 !! out = Some Dir /\
      forall b, op_read (w_fs w2) p = Some b -> op_read (w_fs w1) p = Some b)).
    { assert (Hd : wpt e anyev (create_out_path_if_missing out) w1 (fun x w2 =>
        grow (fun q => q `prefix_of` out) (w_fs w1) (w_fs w2) /\ (x = Ok tt -> fs_exists (w_fs w2) out = true))).
      { unfold create_out_path_if_missing. wp1. wp1. wp1; [|split; [apply grow_refl|done]].
        apply w_create_dir_is_dir; [by apply way_wf|]. intros x w2 _ H1 _ H2. split; [done|]. intros Hx.
        unfold fs_exists, fs_stat. rewrite fs_get_nonroot by done. by rewrite (H2 Hx Hone). }
      eapply wpt_conseq; [exact (wpt_strengthen _ _ _ _ _ _ _ (ky_create_out r w1 HI) Hd)|done|].
      intros x w2 [HI2 [Hgr Hx]]. split; [done|]. intros ->. specialize (Hx eq_refl). split.
      - apply way_room in HI2. destruct HI2 as (_ & _ & HD). unfold fs_exists, fs_stat in Hx. rewrite fs_get_nonroot in Hx by done.
        destruct (HD out) as [E|E]; [right; apply Drev|done|by rewrite E in Hx|done].
      - intros b Hb. destruct (T_stat _ _ _ HI2 HT Hb) as (m & Em).
        destruct (Hgr p) as [E|(_ & _ & E)]; [|congruence]. unfold op_read, fs_stat. rewrite fs_get_nonroot by (by apply Tne).
        by rewrite <- E, Em. }
    intros [[]|x|] w2 [HI2 Hx2]; [|done..]. destruct (Hx2 eq_refl) as [Hd2 Hrd]. clear Hx2. wp1.
    eapply wpt_post with (Q := fun x w3 => way (w_fs w3) /\ w_fs w3 !! out = Some Dir).
    { assert (HK : wpt e (on_fs (fun g => way g /\ g !! out = Some Dir)) (for_snapshot_path (c_include_host c) out p) w2
        (fun _ w3 => way (w_fs w3) /\ w_fs w3 !! out = Some Dir)).
      { unfold for_snapshot_path. wp1. wp1; [|done]. rename H into Hb. wp1. wp1.
        destruct (x_snapshot (e_ext e) b) as [els fine] eqn:Ex.
        apply wpt_keeps; [|done|done]. apply keeps_bind; [|intros _; destruct fine; [apply keeps_ret|apply keeps_fail]].
        apply keeps_for_each. intros [u o] Hin. apply keeps_and; [|apply dir_publish]. apply ky_publish.
        apply (Hobj b u o); [by apply Hrd|]. by rewrite Ex. }
      eapply wpt_conseq; [exact HK| |done]. by intros []; cbn; auto; intros []. }
    intros [[]|x|] w3 [HI3 Hd3]; [|done..]. wp1. 
    eapply wpt_post; [by apply way_turn|]. cbn beta. intros [[]|x|] w4 [HI4 HI4']; [|done..]. specialize (HI4' eq_refl).
    assert (Hend : forall A (m : rsync_state -> M A) w0, way' (w_fs w0) -> (forall rs', keeps e way (m rs')) ->
      wpt e (on_fs way) (rs1 ← update_current rs r; rs2 ← clean_old rs1 c; m rs2) w0 (fun _ w' => way (w_fs w'))).
    { intros A m w0 H0 Hm. wp1. eapply wpt_conseq; [by apply (q_update_current e way')|by intros []; cbn; auto|].
      intros [rs1|x|] w5 HI5; [|by apply way'_way..]. cbn beta. wp1.
      eapply wpt_conseq; [by apply (ky_clean_old rs1)|by intros []; cbn; auto|].
      intros [rs2|x|] w6 HI6; [|by apply way'_way..]. cbn beta. by apply Hm, way'_way. }
    apply Hend; [done|]. intros rs'. unfold rsync_persist. quiet_tac. apply ky_write_buf, Trec.
  Qed.

  (** ** A run *)
  Lemma w_way_prepare : way f0 -> wpt e (on_fs way) (prepare c) (resume f0) (fun _ w' => way (w_fs w')).
  Proof using All.
    intros HI. unfold prepare. wp1. eapply (w_load_state c base name Hc); [|intros w1 x E1; by rewrite E1].
    intros w1 st E1 Hst. cbn [resume w_fs] in E1, Hst. wp1.
    pose proof (start_good _ _ _ _ _ Hs _ Hst) as Hg.
    eapply wpt_post.
    { eapply w_way_staged; try done.
      - by rewrite (gs_map _ _ _ _ Hg).
      - by rewrite (gs_source _ _ _ _ Hg).
      - intros n0 u h rel Hoff Hin Eu. rewrite E1 in Hoff. by eapply Trefs.
      - by rewrite E1. }
    intros [[sg|]|x|] w2 HI2; [|by wp1|done..]. cbn beta in HI2.
    apply (wpt_keeps e way); [|done|done].
    apply keeps_bind; [apply q_pre_validate|]. intros st1. apply keeps_bind; [apply q_scripts|]. intros _. apply keeps_ret.
  Qed.

  Lemma snap_booked st : starts_from c base name f0 st -> forall v, forall p sg, p ∈ dropped (set_validator st v) sg -> T p.
  Proof using All.
    intros Hst v p sg Hp. pose proof (start_good _ _ _ _ _ Hs _ Hst) as Hg. apply (Tbook st p Hst). right.
    unfold dropped in Hp. apply elem_of_app in Hp as [Hp|Hp].
    - unfold snapshot_path in Hp. cbn [st_snap set_validator st_map] in Hp. destruct (st_snap st) as [s|] eqn:Es; [|by apply elem_of_nil in Hp].
      cbn in Hp. apply elem_of_list_singleton in Hp as ->. exists (ss_rel s), (ss_hash s). split.
      + unfold state_files. rewrite Es. by left.
      + rewrite (gs_map _ _ _ _ Hg). unfold mp_path. cbn. rewrite path_join_clean; [done|]. by apply (gs_snap _ _ _ _ Hg).
    - apply elem_of_list_fmap in Hp as (d & -> & Hd).
      assert (Hin : d ∈ st_deltas st).
      { unfold gone in Hd. destruct (sg_reset sg); [done|]. rewrite <- (split_before_app (sg_cutoff sg)). apply elem_of_app. by right. }
      exists (ds_rel d), (ds_hash d). split.
      + unfold state_files. apply elem_of_app. right. apply elem_of_list_fmap. by exists d.
      + cbn [st_map set_validator]. rewrite (gs_map _ _ _ _ Hg). unfold mp_path. cbn. rewrite path_join_clean; [done|]. by apply (gs_deltas _ _ _ _ Hg).
  Qed.

  Lemma w_way_front : way f0 -> wpt e (on_fs way) (front c) (resume f0) (fun r w' => way (w_fs w') /\
    forall st2, r = Ok (Some st2) -> good_state c base name st2).
  Proof using All.
    intros HI0. unfold front. wp1.
    eapply wpt_post; [exact (wpt_strengthen _ _ _ _ _ _ _ (w_way_prepare HI0) (w_prepare c base name e f0 Hs))|].
    intros [[[st1 sg]|]|x|] w4 (HI4 & HS4 & _ & HM); cbn [publish1]; [|wp1; by split|by split..].
    destruct (HM _ _ eq_refl) as (st & v & n0 & n & -> & Hmv & Hck). clear HM.
    assert (Hhs : honest c e f0 sg) by (by eapply run_honest).
    pose proof (am_start _ _ _ _ _ _ _ _ _ _ Hmv) as Hst. pose proof (start_good _ _ _ _ _ Hs _ Hst) as Hg0.
    assert (Hsrc : from_source c e f0 n0 n) by apply Hmv.
    assert (Hent : forall en, en ∈ staged_entries sg -> good_rel name en.1) by (intros; by eapply staged_good).
    assert (HTe : forall en, en ∈ staged_entries sg -> T (staging_path c en.1) /\ T (public_path c en.1)).
    { intros en Hen. destruct (entry_ref _ _ _ _ _ Hs _ _ _ _ _ _ Hmv Hen) as ([Hoff Hsv] & _ & Hin).
      eapply (Trefs n0); [exact Hoff| |done]. by eapply sav_refs. }
    pose (f1 := w_fs w4). assert (E4 : w_fs w4 = f1) by done. rewrite E4 in Hmv.
    wp1. unfold apply_staged_changed. eapply wpt_ext; [apply bind_assoc_run|]. fold (moves c sg). wp1.
    assert (Hkm : keeps e way (moves c sg)).
    { assert (Hm : forall en, en ∈ staged_entries sg -> keeps e way (move_file (staging_dir c) (c_rrdp_dir c) en.1)).
      { intros en Hin. pose proof (Hent _ Hin) as [Hcl _]. destruct (HTe _ Hin) as [H1 H2].
        apply ky_move_file; try done. by rewrite path_join_clean. }
      unfold moves. apply keeps_bind.
      - apply (Hm (ss_rel (sg_snap sg), ss_hash (sg_snap sg))). constructor.
      - intros _. apply keeps_for_each. intros d Hd. apply (Hm (ds_rel d, ds_hash d)). right.
        apply elem_of_list_fmap. by exists d. }
    assert (Hka : wpt e (on_fs (inside (move_area c sg) f1)) (moves c sg) w4 (fun _ w' => inside (move_area c sg) f1 (w_fs w'))).
    { eapply (k_moves c base name Hc e sg f1 Hent). rewrite E4. split; [apply HS4|apply mods_refl]. }
    assert (Hkp : wpt e anyev (moves c sg) w4 (fun r w' => moving e c sg f1 (w_fs w') /\
           (r = Ok tt -> Forall (published (e_ext e) c (w_fs w')) (staged_entries sg)))).
    { eapply wpt_conseq; [|intros; exact I|intros r w' H; exact H].
      apply (w_moves c base name Hc e sg f1 Hent); [apply HS4|by apply Hmv|apply Hhs|done| |].
      - intros x w' H. by split.
      - intros w' H1 H2. by split. }
    eapply wpt_post; [exact (wpt_strengthen _ _ _ _ _ _ _ (wpt_strengthen _ _ _ _ _ _ _ (Hkm w4 HI4) Hka) Hkp)|].
    intros [[]|x|] w5 ((HI5 & HA5) & HM5 & HP5); [|by split..]. specialize (HP5 eq_refl).
    apply (w_apply_memory e (on_fs way) ltac:(done) (set_validator st v) sg (fun st' => clean st' c)).
    intros w6 st' E6 Hmg.
    assert (Hcl : at_clean c base name e f0 st n0 n sg f1 v st' (w_fs w5)).
    { split; try done. }
    assert (Hg' : good_state c base name st') by (by eapply merged_good).
    assert (HTd : forall d, d ∈ st_deprecated st' -> T (dp_path d)).
    { intros d Hd. destruct (mg_deprecated _ _ _ _ Hmg) as (deps & Ed & Hdeps & _). rewrite Ed in Hd. apply elem_of_app in Hd as [Hd|Hd].
      - apply (Tbook st); [done|]. left. by exists d.
      - eapply (snap_booked st Hst v _ sg). rewrite <- Hdeps. apply elem_of_list_fmap. by exists d. }
    set (cb := wrap64 (e_clock e (w_n w6) - c_cleanup_after c)).
    eapply wpt_post; [eapply wpt_strengthen; [eapply w_way_clean; try done; by rewrite E6|
       eapply (w_cleaning e c st' w6 (fun r w' => cleaning st' cb (w_fs w5) (w_fs w') /\ r <> Panic /\
         forall st2, r = Ok st2 -> cleaned cb st' st2))]|].
    { rewrite E6. by eapply way_wf. } { intros d Hd. by apply Tne, HTd. }
    { rewrite E6. intros x w' H. split; [done|]. split; done. }
    { rewrite E6. intros w' st2 H1 H2 H3. split; [done|]. split; [done|]. by intros st2' [= <-]. }
    intros [st2|x|] w7 (HI7 & HC7 & HP7 & HO7); [|by split..]. specialize (HO7 _ eq_refl).
    assert (Hg2 : good_state c base name st2) by (by eapply good_cleaned).
    wp1. eapply wpt_post with (Q := fun _ w8 => way (w_fs w8)).
    { destruct (rsync_enabled c); cbn [when_]; [|by wp1].
      assert (Esn : st_snap st2 = Some (sg_snap sg)) by (rewrite HO7; apply (mg_snap _ _ _ _ Hmg)).
      assert (Hse : (ss_rel (sg_snap sg), ss_hash (sg_snap sg)) ∈ staged_entries sg) by constructor.
      assert (Ep : mp_path (st_map st2) (ss_rel (sg_snap sg)) = public_path c (ss_rel (sg_snap sg))).
      { rewrite (gs_map _ _ _ _ Hg2). unfold mp_path. cbn. rewrite path_join_clean; [done|]. by apply (Hent _ Hse). }
      eapply w_way_rsync; try done.
      - rewrite Ep. by apply (HTe _ Hse).
      - intros b u o Hb Hin. rewrite Ep in Hb.
        destruct (am_staged _ _ _ _ _ _ _ _ _ _ Hmv) as [_ _ (A1 & A2 & A3 & A4 & _) _ _]. destruct Hsrc as [Hoff Hsv].
        destruct (sav_same _ _ _ _ _ Hsv) as (B1 & B2 & B3 & B4). rewrite A1, A2, B1, B2.
        apply (Tobj n0 b u o Hoff); [|done].
        rewrite Forall_forall in HP5. destruct (HP5 _ Hse) as (b' & m' & Eb & Ehb). cbn [fst snd] in Eb, Ehb.
        destruct (T_stat _ _ _ HI7 (proj2 (HTe _ Hse)) Hb) as (m & Em). cbn [fst] in Em.
        pose proof (lookup_weaken _ _ _ _ Em (cl_sub _ _ _ _ HC7)) as E'. rewrite Eb in E'. injection E' as -> _. congruence. }
    intros [[]|x|] w8 HI8; [|by split..]. wp1. split; [done|]. by intros st2' [= <-].
  Qed.

  Lemma w_way_back st2 w : good_state c base name st2 -> way (w_fs w) ->
    wpt e (on_fs way) (back c (Some st2)) w (fun _ w' => way (w_fs w')).
  Proof using All.
    intros Hg HI. apply (wpt_keeps e way); [|done|done]. cbn [back].
    assert (HN : T (notif_path c name)) by (apply Tlist; right; by left).
    assert (Ht : T (notif_tmp c name)) by (apply Tlist; do 2 right; by left).
    assert (Hsp : T (rrdp_state_path c)) by (apply Tlist; do 3 right; by left).
    apply keeps_bind; [|intros _; unfold persist; by apply ky_write_buf].
    unfold write_notification. cbv zeta. rewrite (gs_map _ _ _ _ Hg), (gs_source _ _ _ _ Hg). unfold mp_path, tmp_name. cbn [mp_dir ns_name].
    rewrite (path_join_name _ name) by apply (ck_name _ _ _ Hc).
    rewrite (path_join_name _ (name +:+ ".tmp")) by (by eapply ends_with_tmp_noslash).
    fold (notif_path c name) (notif_tmp c name).
    apply keeps_bind; [quiet_tac|]. intros _. apply keeps_bind; [quiet_tac|]. intros n.
    apply keeps_bind; [apply keeps_getext|]. intros x. apply keeps_bind; [by apply ky_write_buf|]. intros _. by apply ky_rename.
  Qed.

  Theorem way_instants : way f0 -> forall g, g ∈ instants c e f0 -> way g.
  Proof using All.
    intros HI g. unfold instants, run. rewrite process_front. rewrite elem_of_cons. intros [->|Hg]; [done|].
    assert (HP : wpt e (on_fs way) (front c ≫= back c) (resume f0) (fun _ _ => True)).
    { apply wpt_bind. eapply wpt_post; [by apply w_way_front|]. intros [[st2|]|x|] w1 [H1 H2]; try done.
      - eapply wpt_post; [apply w_way_back; [by apply H2|done]|]. done.
      - cbn [back]. by wp1. }
    destruct HP as (l & Ht & Hl & _). cbn [resume w_trace app] in Ht. rewrite Ht in Hg. apply trees_in in Hg.
    rewrite Forall_forall in Hl. by apply (Hl _ Hg).
  Qed.
End way.
