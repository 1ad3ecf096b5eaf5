(** * A run that nothing stands in the way of: the steps up to the rsync tree *)
From Coq Require Import ZifyN ZifyNat ZifyBool.
From Verif Require Export Live PropsSource.
From Verif Require Import FsWf.

(** every request for this URI brings [b]; a file is there and not among the
    staged ones *)
Definition delivers (c : config) (e : env) (f : fs) (u : https) (b : string) : Prop :=
  match located (e_ext e) (config_fetcher c) u with
  | Some (SUri u' m) => forall k etag, exists hdr, e_http e k u' m etag = HReply 200 hdr (Some b) /\ hdr <> Some None
  | Some (SFile p) => p <> [] /\ ~ under (staging_dir c) p /\ exists m, f !! p = Some (File b m)
  | None => False
  end.

Section live.
  Context (c : config) (base name : string) (Hc : cfg_ok c base name) (e : env) (He : no_faults e).
  Context (T D : path -> Prop).
  Context (Tne : forall t, T t -> t <> []) (Tanti : forall t, T t -> ~ dirs T D t).
  Context (Dup : forall d d', D d -> below d' d -> D d').
  Notation room := (room T D).
  Notation frame := (frame T D).
  Notation X := (e_ext e).
  Notation staged_at g rel h := (exists b m, g !! staging_path c rel = Some (File b m) /\ x_hash X b = h).

  Lemma delivers_later f g u b : delivers c e f u b -> frame (under (staging_dir c)) f g -> delivers c e g u b.
  Proof using.
    unfold delivers. destruct (located _ _ _) as [[p|u' m]|]; [|done..]. intros (H1 & H2 & m & H3) HF.
    split; [done|]. split; [done|]. exists m. by eapply frame_file.
  Qed.
  Lemma tot_fetch_raw u b w (Q : fetch_response -> world -> Prop) src etag :
    located X (config_fetcher c) u = Some src -> delivers c e (w_fs w) u b ->
    (forall w' t, w_fs w' = w_fs w -> Q (FData b t) w') -> tot e (fetch_raw src etag) w Q.
  Proof using He.
    unfold delivers. intros ->. destruct src as [p|u' m].
    - intros (H1 & H2 & m & H3) HQ. unfold fetch_raw. apply tot_bind. apply (tot_read e He _ b).
      + unfold op_read, fs_stat. by rewrite fs_get_nonroot, H3.
      + intros w' E. apply tot_ret. by apply HQ.
    - intros H HQ. unfold fetch_raw. apply tot_bind. unfold http_get. eexists _, _. split; [reflexivity|]. cbv beta.
      destruct (H (w_n w) etag) as (hdr & -> & Hh). cbn [N.eqb]. apply tot_bind.
      change (200 =? 200)%N with true. cbv iota.
      destruct hdr as [[v|]|]; [|done|].
      + apply tot_ret. apply tot_ret. by apply HQ.
      + apply tot_ret. apply tot_ret. by apply HQ.
  Qed.
  Lemma tot_resolve u src w (Q : fetch_source -> world -> Prop) :
    located X (config_fetcher c) u = Some src -> Q src w -> tot e (resolve_source (config_fetcher c) u) w Q.
  Proof using. intros H HQ. exists src, w. split; [|done]. by apply (resolve_ok X). Qed.

  Lemma tot_retrieve u h b t w (Q : unit -> world -> Prop) :
    room (w_fs w) -> T t -> delivers c e (w_fs w) u b -> x_hash X b = h ->
    (forall w', room (w_fs w') -> (exists b' m, w_fs w' !! t = Some (File b' m) /\ x_hash X b' = h) ->
       frame (eq t) (w_fs w) (w_fs w') -> Q tt w') ->
    tot e (retrieve_file (config_fetcher c) u h t) w Q.
  Proof using He Tne Tanti Dup.
    intros Hr Ht Hd Hh HQ. unfold retrieve_file. apply tot_bind, tot_getext, tot_bind, tot_catch.
    destruct (located X (config_fetcher c) u) as [src|] eqn:Hl; [|unfold delivers in Hd; by rewrite Hl in Hd].
    assert (Hget : forall w1, w_fs w1 = w_fs w ->
      tot e (src ← resolve_source (config_fetcher c) u; _ ← fetch src (Some h) None (Some t); mret tt) w1 Q).
    { intros w1 E1. apply tot_bind, (tot_resolve _ src); [done|]. apply tot_bind. unfold fetch. apply tot_bind.
      apply (tot_fetch_raw u b); [done|by rewrite E1|]. intros w2 et E2. apply tot_bind, tot_getext. apply tot_bind.
      assert (hash_matches X h b = true) as -> by (by apply String.eqb_eq). apply tot_ret. apply tot_bind.
      apply (tot_write_buf e He T D Tne Tanti Dup); [by rewrite E2, E1|done|]. intros w3 R3 E3 F3. apply tot_ret, tot_ret, HQ.
      - done.
      - by exists b, None.
      - by rewrite <- E1, <- E2. }
    unfold read_file. apply wpt_read.
    - intros b' Hb'. destruct (hash_matches X h b') eqn:Hm; [|by apply Hget]. apply tot_ret, HQ.
      + done.
      + cbn. unfold op_read, fs_stat in Hb'. pose proof (Tne t Ht). rewrite fs_get_nonroot in Hb' by done.
        destruct (proj1 (proj2 Hr) t Ht) as [E|(b2 & m2 & E)]; rewrite E in Hb'; [done|]. injection Hb' as ->.
        exists b', m2. split; [done|]. by apply String.eqb_eq in Hm.
      + apply frame_refl.
    - by apply Hget.
  Qed.

  Lemma tot_relative st u rel w (Q : string -> world -> Prop) : mp_base (st_map st) = base -> u = base +:+ rel ->
    Q rel w -> tot e (mp_relative (st_map st) u) w Q.
  Proof using. intros Hb -> HQ. unfold mp_relative. apply (tot_of_option _ _ _ rel); [|done]. by rewrite Hb, strip_prefix_app. Qed.

  (** what a listed file needs *)
  Definition obtainable (f : fs) (u : https) (h : hash) : Prop :=
    exists rel b, u = base +:+ rel /\ clean_rel rel /\ T (staging_path c rel) /\ delivers c e f u b /\ x_hash X b = h.

  Lemma tot_deltas_stage st reset f0 l : mp_base (st_map st) = base -> forall w (Q : list delta_state -> world -> Prop),
    room (w_fs w) -> frame (under (staging_dir c)) f0 (w_fs w) ->
    Forall (fun d => obtainable f0 (di_uri d) (di_hash d)) l -> NoDup (di_uri <$> l) ->
    (forall w' ds, room (w_fs w') -> frame (under (staging_dir c)) f0 (w_fs w') ->
       frame (fun p => exists d rel, d ∈ l /\ di_uri d = base +:+ rel /\ p = staging_path c rel) (w_fs w) (w_fs w') ->
       Forall (fun d => staged_at (w_fs w') (ds_rel d) (ds_hash d)) ds ->
       Forall2 (fun di d => di_uri di = base +:+ ds_rel d /\ ds_hash d = di_hash di)
         (filter (fun d => delta_is_new st reset (di_serial d) = true) l) ds -> Q ds w') ->
    tot e (deltas_stage st reset (config_fetcher c) c l) w Q.
  Proof using Hc He Tne Tanti Dup.
    intros Hb. induction l as [|d l IH]; intros w Q Hr Hf Hall Hnd HQ; cbn [deltas_stage].
    { apply tot_ret, HQ; [done|done|apply frame_refl|constructor..]. }
    apply Forall_cons in Hall as [(rel & b & Hu & Hcl & HT & Hdel & Hh) Hall]. apply NoDup_cons in Hnd as [Hnin Hnd].
    destruct (delta_is_new st reset (di_serial d)) eqn:Hnew.
    - apply tot_bind, (tot_relative _ _ rel); [done|done|]. apply tot_bind.
      apply (tot_retrieve _ _ b); [done|done|by eapply delivers_later|done|]. intros w1 R1 P1 F1.
      apply tot_bind, (tot_relative _ _ rel); [done|done|]. apply tot_bind, tot_clock. intros now w2 E2. apply tot_bind.
      apply IH; [by rewrite E2| |done|done|].
      { rewrite E2. eapply frame_trans; [done|]. eapply frame_weaken; [|exact F1]. intros p <-. by apply staging_path_under. }
      intros w3 ds R3 F3 G3 S3 D3. apply tot_ret, HQ; [done|done| | |].
      + eapply frame_trans.
        * eapply frame_weaken; [|exact F1]. intros p <-. exists d, rel. split; [constructor|]. done.
        * rewrite <- E2. eapply frame_weaken; [|exact G3]. intros p (d' & rel' & H1 & H2 & H3). exists d', rel'. split; [by constructor|done].
      + constructor; [|done]. cbn. destruct P1 as (b' & m' & Eb & Hb'). exists b', m'. split; [|done].
        eapply frame_file; [exact G3| |by rewrite E2]. intros (d' & rel' & Hd' & Hu' & Ep).
        assert (rel' = rel) as ->.
        { rewrite Forall_forall in Hall. destruct (Hall _ Hd') as (r2 & b2 & Hu2 & Hc2 & _).
          rewrite Hu2 in Hu'. apply sapp_inv_head in Hu' as ->.
          rewrite !staging_path_clean in Ep by done. apply app_inv_head in Ep. symmetry. by eapply split_on_inj. }
        apply Hnin. rewrite Hu, <- Hu'. apply elem_of_list_fmap. by exists d'.
      + cbn. rewrite decide_True by done. by constructor.
    - apply IH; [done|done|done|done|]. intros w3 ds R3 F3 G3 S3 D3. apply HQ; [done|done| |done|].
      + eapply frame_weaken; [|exact G3]. intros p (d' & rel' & H1 & H2 & H3). exists d', rel'. split; [by constructor|done].
      + cbn. rewrite decide_False by congruence. done.
  Qed.

  (** the source has a newer version, and all its files *)
  Lemma tot_update_staged st f0 doc n0 n reset w (Q : option staged_changes -> world -> Prop) :
    good_state c base name st -> w_fs w = f0 -> room f0 -> T (staging_dir c ++ [name]) ->
    source_says c e f0 doc -> x_parse_notif X doc = Some n0 ->
    sort_and_verify X (c_max_deltas c) n0 = Some (n, true) -> compare_version st n = VUpdate reset ->
    Forall (fun r => obtainable f0 r.1 r.2) (refs n) -> NoDup (refs n).*1 ->
    (forall u h rel, (u, h) ∈ refs n -> u = base +:+ rel -> staging_path c rel <> staging_dir c ++ [name]) ->
    (forall w' sg, room (w_fs w') -> frame (under (staging_dir c)) f0 (w_fs w') ->
       w_fs w' !! (staging_dir c ++ [name]) = Some (File (x_write_notif X n) None) ->
       Forall (fun en => staged_at (w_fs w') en.1 en.2) (staged_entries sg) ->
       sg_reset sg = reset -> sg_cutoff sg = cutoff_of n ->
       n_snap_uri n = base +:+ ss_rel (sg_snap sg) -> ss_hash (sg_snap sg) = n_snap_hash n ->
       ss_session (sg_snap sg) = n_session n -> ss_serial (sg_snap sg) = n_serial n ->
       Forall2 (fun di d => di_uri di = base +:+ ds_rel d /\ ds_hash d = di_hash di)
         (filter (fun d => delta_is_new st reset (di_serial d) = true) (n_deltas n)) (sg_deltas sg) ->
       Q (Some sg) w') ->
    tot e (update_staged st c) w Q.
  Proof using Hc He Tne Tanti Dup.
    intros Hg Ew Hr HTn Hsay Hpn Hsv Hcv Hall Hnd Hnn HQ. unfold update_staged. cbv zeta.
    apply tot_bind. destruct (fetch_says c e w (st_source st) doc n0) as (w1 & et & E1 & F1 & _); [by rewrite Ew|exact (fun k => He k ORead)|done|].
    exists (Some (n0, et)), w1. split; [exact E1|]. cbv beta iota. apply tot_bind, tot_getext. rewrite Hsv. cbn [negb]. rewrite Hcv.
    rewrite (gs_source _ _ _ _ Hg). cbn [ns_name].
    assert (Hnp : staging_path c name = staging_dir c ++ [name]) by (apply path_join_name, (ck_name _ _ _ Hc)).
    rewrite Hnp. apply tot_bind, (tot_write_buf e He T D Tne Tanti Dup); [by rewrite F1, Ew|done|]. intros w2 R2 E2 G2.
    rewrite F1, Ew in G2.
    assert (Hf2 : frame (under (staging_dir c)) f0 (w_fs w2)).
    { eapply frame_weaken; [|exact G2]. intros p <-. apply under_app. }
    unfold refs in Hall, Hnd, Hnn. cbn in Hnd. rewrite <- list_fmap_compose in Hnd. apply NoDup_cons in Hnd as [Hnin Hnd].
    apply Forall_cons in Hall as [(rel & b & Hu & Hcl & HT & Hdel & Hh) Hall]. cbn [fst snd] in *.
    assert (Hb : mp_base (st_map st) = base) by (by rewrite (gs_map _ _ _ _ Hg)).
    apply tot_bind. unfold snapshot_stage. apply tot_bind, (tot_relative _ _ rel); [done|done|]. apply tot_bind.
    apply (tot_retrieve _ _ b); [done|done|by eapply delivers_later|done|]. intros w3 R3 P3 G3.
    assert (Hf3 : frame (under (staging_dir c)) f0 (w_fs w3)).
    { eapply frame_trans; [exact Hf2|]. eapply frame_weaken; [|exact G3]. intros p <-. by apply staging_path_under. }
    apply tot_bind, (tot_relative _ _ rel); [done|done|]. apply tot_bind, tot_clock. intros now w4 E4. apply tot_ret.
    apply (proj1 (Forall_fmap _ (fun r : https * hash => obtainable f0 r.1 r.2) _)) in Hall. cbn in Hall.
    apply tot_bind, (tot_deltas_stage st reset f0); [done|by rewrite E4|by rewrite E4|exact Hall|exact Hnd|].
    intros w5 ds R5 F5 G5 S5 D5. apply tot_ret, HQ; try done.
    { eapply frame_file; [exact G5| |rewrite E4; eapply frame_file; [exact G3| |exact E2]].
      - intros (d & rel' & Hd & Hu' & Ep). symmetry in Ep. revert Ep. eapply (Hnn _ (di_hash d)); [|exact Hu'].
        right. apply elem_of_list_fmap. by exists d.
      - eapply (Hnn _ (n_snap_hash n)); [|exact Hu]. by left. }
    unfold staged_entries. cbn. constructor.
    - cbn. destruct P3 as (b' & m' & Eb & Hb'). exists b', m'. split; [|done].
      eapply frame_file; [exact G5| |by rewrite E4]. intros (d' & rel' & Hd' & Hu' & Ep).
      assert (rel' = rel) as ->.
      { rewrite Forall_forall in Hall. destruct (Hall _ Hd') as (r2 & b2 & Hu2 & Hc2 & _). cbn in Hu2.
        rewrite Hu2 in Hu'. apply sapp_inv_head in Hu' as ->.
        rewrite !staging_path_clean in Ep by done. apply app_inv_head in Ep. symmetry. by eapply split_on_inj. }
      apply Hnin. rewrite Hu, <- Hu'. apply elem_of_list_fmap. by exists d'.
    - apply Forall_fmap. exact S5.
  Qed.

  (** moving the staged files *)
  Lemma tot_moves sg w (Q : unit -> world -> Prop) :
    room (w_fs w) ->
    Forall (fun en => clean_rel en.1 /\ T (staging_path c en.1) /\ T (public_path c en.1)) (staged_entries sg) ->
    NoDup (staged_entries sg).*1 ->
    Forall (fun en => staged_at (w_fs w) en.1 en.2) (staged_entries sg) ->
    (forall w', room (w_fs w') -> 
       (forall b m, w_fs w !! staging_path c (ss_rel (sg_snap sg)) = Some (File b m) ->
          w_fs w' !! public_path c (ss_rel (sg_snap sg)) = Some (File b m)) ->
       frame (fun p => exists en, en ∈ staged_entries sg /\ (p = staging_path c en.1 \/ p = public_path c en.1)) (w_fs w) (w_fs w') -> Q tt w') ->
    tot e (moves c sg) w Q.
  Proof using Hc He Tne Tanti Dup.
    intros Hr HT Hnd Hst HQ. unfold moves, staged_entries in *. cbn in Hnd. rewrite <- list_fmap_compose in Hnd.
    apply NoDup_cons in Hnd as [Hnin Hnd]. apply Forall_cons in HT as [(Hcl & HT1 & HT2) HT]. apply Forall_cons in Hst as [Hs1 Hst].
    apply Forall_fmap in HT. apply (proj1 (Forall_fmap _ (fun en : string * hash => staged_at (w_fs w) en.1 en.2) _)) in Hst.
    cbn in HT, Hst, Hs1, Hcl, HT1, HT2, Hnin, Hnd.
    assert (Hpub : forall rel, clean_rel rel -> path_join (c_rrdp_dir c) rel = public_path c rel) by (intros; by apply path_join_clean).
    assert (Hsp : forall rel rel', clean_rel rel -> clean_rel rel' -> staging_path c rel <> public_path c rel').
    { intros rel rel' H H' E. apply (apart_disjoint _ _ (public_path c rel') (ck_s_r _ _ _ Hc)); [|apply public_under].
      rewrite <- E. by apply staging_path_under. }
    assert (Hss : forall rel rel', clean_rel rel -> clean_rel rel' -> staging_path c rel = staging_path c rel' -> rel = rel').
    { intros rel rel' H H' E. rewrite !staging_path_clean in E by done. apply app_inv_head in E. by eapply split_on_inj. }
    destruct Hs1 as (b & m & Eb & Hb).
    apply tot_bind, (tot_move_file e He T D Tne Tanti Dup _ _ _ b m); rewrite ?Hpub by done; fold (staging_path c (ss_rel (sg_snap sg))).
    { done. } { done. } { done. } { by apply Hsp. } { done. }
    intros w1 R1 E1 N1 F1.
    set (s := ss_rel (sg_snap sg)) in *.
    apply (tot_for_each _ _ _ _ (fun l w' => room (w_fs w') /\ (exists pre, sg_deltas sg = pre ++ l) /\
      w_fs w' !! public_path c s = Some (File b m) /\
      Forall (fun d => staged_at (w_fs w') (ds_rel d) (ds_hash d)) l /\
      frame (fun p => exists en, en ∈ ((s, ss_hash (sg_snap sg)) :: ((fun d => (ds_rel d, ds_hash d)) <$> sg_deltas sg)) /\
        (p = staging_path c en.1 \/ p = public_path c en.1)) (w_fs w) (w_fs w'))).
    - split; [done|]. split; [by exists []|]. split; [done|]. split.
      + rewrite Forall_forall in *. intros d Hd. destruct (Hst d Hd) as (b' & m' & E' & Hh'). exists b', m'. split; [|done].
        eapply frame_file; [exact F1| |done]. intros [Ex|Ex].
        * apply Hss in Ex; [|by apply HT|done]. apply Hnin. rewrite <- Ex. apply elem_of_list_fmap. by exists d.
        * revert Ex. apply Hsp; [by apply HT|done].
      + eapply frame_weaken; [|exact F1]. intros p Hp. exists (s, ss_hash (sg_snap sg)). split; [constructor|]. done.
    - intros d l w2 (R2 & (pre & Epre) & E2 & S2 & F2). apply Forall_cons in S2 as [(b2 & m2 & Eb2 & Hh2) S2].
      assert (Hd : d ∈ sg_deltas sg) by (rewrite Epre; apply elem_of_app; right; constructor).
      rewrite Forall_forall in HT. destruct (HT d Hd) as (Hcd & Hd1 & Hd2).
      assert (Hds : ds_rel d <> s).
      { intros Ex. apply Hnin. rewrite <- Ex. apply elem_of_list_fmap. by exists d. }
      apply (tot_move_file e He T D Tne Tanti Dup _ _ _ b2 m2); rewrite ?Hpub by done; fold (staging_path c (ds_rel d)).
      { done. } { done. } { done. } { by apply Hsp. } { done. }
      intros w3 R3 E3 N3 F3. split; [done|]. split; [exists (pre ++ [d]); by rewrite <- app_assoc|]. split; [|split].
      + eapply frame_file; [exact F3| |done]. intros [Ex|Ex]; [symmetry in Ex; by apply Hsp in Ex|]. by apply public_path_inj in Ex.
      + rewrite Forall_forall in *. intros d' Hd'. destruct (S2 d' Hd') as (b' & m' & E' & Hh'). exists b', m'. split; [|done].
        assert (Hin' : d' ∈ sg_deltas sg) by (rewrite Epre; apply elem_of_app; right; by constructor).
        eapply frame_file; [exact F3| |done]. intros [Ex|Ex].
        * apply Hss in Ex; [|by apply HT|done]. clear Hnin. rewrite Epre, fmap_app in Hnd.
          apply NoDup_app in Hnd as (_ & _ & Hnd). cbn in Hnd. apply NoDup_cons in Hnd as [Hn _]. apply Hn.
          apply elem_of_list_fmap. exists d'. split; [by cbn; rewrite Ex|done].
        * revert Ex. apply Hsp; [by apply HT|done].
      + eapply frame_trans; [exact F2|]. eapply frame_weaken; [|exact F3]. intros p Hp. exists (ds_rel d, ds_hash d). split; [|done].
        right. apply elem_of_list_fmap. by exists d.
    - intros w2 (R2 & _ & E2 & _ & F2). apply HQ; [done| |done]. intros b' m' E'. rewrite Eb in E'. by injection E' as <- <-.
  Qed.
End live.
