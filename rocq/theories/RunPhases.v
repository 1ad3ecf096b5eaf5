(** * The phases of a run *)
From Coq Require Import ZifyN ZifyNat ZifyBool.
From Verif Require Export RunCoarse.

(** a fact that depends on a side condition, next to one that does not *)
Lemma wpt_and_impl {B} e (J J' : event -> Prop) (P : Prop) (m : M B) w (Q Q' : res B -> world -> Prop) :
  wpt e J m w Q -> (P -> wpt e J' m w Q') ->
  wpt e (fun ev => J ev /\ (P -> J' ev)) m w (fun r w' => Q r w' /\ (P -> Q' r w')).
Proof.
  intros (l & Ht & Hl & Hq) H. exists l. split; [done|].
  assert (HP : P -> Forall J' l /\ Q' (m e w).1 (m e w).2).
  { intros HP. destruct (H HP) as (l' & Ht' & Hl' & Hq'). rewrite Ht in Ht'. apply app_inv_head in Ht'.
    by subst l'. }
  split; [|split; [done|intros HP'; by apply HP]].
  apply Forall_forall. intros ev Hev. rewrite Forall_forall in Hl. split; [by apply Hl|]. intros HP'.
  destruct (HP HP') as [Hf _]. rewrite Forall_forall in Hf. by apply Hf.
Qed.

(** ** Staging *)
(** only the staging directory differs from [f0]; directories above it may have
    been created *)
Definition staging_only (c : config) (f0 g : fs) : Prop :=
  wf g /\ forall p, under (staging_dir c) p \/ g !! p = f0 !! p \/
    (below p (staging_dir c) /\ f0 !! p = None /\ g !! p = Some Dir).

Lemma so_refl c f0 : wf f0 -> staging_only c f0 f0.
Proof. intros H. split; [done|]. auto. Qed.
Lemma so_mk c f0 : mk_ok (staging_only c f0) (stage_paths c).
Proof.
  intros f q [Hw H] Hq Hne Hn Hp. split; [by apply (wf_mk (fun _ => True))|]. intros p.
  destruct (decide (p = q)) as [->|Hpq]; [|by rewrite lookup_insert_ne].
  destruct Hq as [Hq|Hq]; [by left|]. rewrite lookup_insert. destruct (H q) as [?|[E|(_ & _ & E)]]; [by left| |congruence].
  right. right. by rewrite <- E.
Qed.
Lemma so_wr c f0 p b : under (staging_dir c) p -> wr_ok (staging_only c f0) p b.
Proof.
  intros Hu f b' [Hw H] Hb Hne Hf Hp. split; [by eapply (wf_wr p b)|]. intros q.
  destruct (decide (q = p)) as [->|Hpq]; [by left|by rewrite lookup_insert_ne].
Qed.
Lemma so_inside c f0 g : staging_only c f0 g -> inside (under (staging_dir c)) f0 g.
Proof.
  intros [Hw H]. split; [done|]. intros p. destruct (H p) as [?|[?|(H1 & H2 & H3)]]; [tauto|tauto|].
  right. right. split; [exists (staging_dir c); split; [apply under_refl|done]|]. auto.
Qed.

(** links do not appear in the staging directory *)
Definition stage_tree (c : config) (f0 g : fs) : Prop :=
  staging_only c f0 g /\ (no_links (staging_dir c) f0 -> no_links (staging_dir c) g).
Lemma st_refl c f0 : wf f0 -> stage_tree c f0 f0.
Proof. intros H. split; [by apply so_refl|done]. Qed.
Lemma st_mk c f0 : mk_ok (stage_tree c f0) (stage_paths c).
Proof.
  intros f q [H1 H2] Hq Hne Hn Hp. split; [by apply (so_mk c f0 f q)|]. intros H p t Hu.
  destruct (decide (p = q)) as [->|Hpq]; [by rewrite lookup_insert|]. rewrite lookup_insert_ne by done. by apply H2.
Qed.
Lemma st_wr c f0 p b : under (staging_dir c) p -> wr_ok (stage_tree c f0) p b.
Proof.
  intros Hu f b' [H1 H2] Hb Hne Hf Hp. split; [by eapply (so_wr c f0 p b)|]. intros H q t Hq.
  destruct (decide (q = p)) as [->|Hpq]; [by rewrite lookup_insert|]. rewrite lookup_insert_ne by done. by apply H2.
Qed.

(** ** Moving the staged files *)
Definition move_area (c : config) (sg : staged_changes) (p : path) : Prop :=
  under (staging_dir c) p \/ exists rel h, (rel, h) ∈ staged_entries sg /\ under (public_path c rel) p.
(** renaming fails for a reason that is not visible in the tree (such as
    another file system): the file is copied *)
Definition may_copy (e : env) : Prop := exists n, e_fault e n ORename <> None.
(** the file is published with the listed hash *)
Definition published (x : ext) (c : config) (g : fs) (en : string * hash) : Prop :=
  exists b m, g !! public_path c en.1 = Some (File b m) /\ x_hash x b = en.2.

(** the file is published, or a part of it that a copy has written so far *)
Definition cut_short (x : ext) (c : config) (g : fs) (en : string * hash) : Prop :=
  exists b m rest, g !! public_path c en.1 = Some (File b m) /\ x_hash x (b +:+ rest) = en.2.

Record moving (e : env) (c : config) (sg : staged_changes) (f1 g : fs) : Prop := {
  mo_wf : wf g;
  mo_mods : mods (fun q => exists en, en ∈ staged_entries sg /\ (q = staging_path c en.1 \/ q = public_path c en.1))
                 (fun q => exists en, en ∈ staged_entries sg /\ below q (public_path c en.1)) f1 g;
  mo_staged : forall en, en ∈ staged_entries sg ->
    g !! staging_path c en.1 = None \/ in_place (e_ext e) c g en;
  mo_public : forall en, en ∈ staged_entries sg ->
    g !! public_path c en.1 = f1 !! public_path c en.1 \/ published (e_ext e) c g en \/
    (may_copy e /\ cut_short (e_ext e) c g en) }.

Section move.
  Context (c : config) (base name : string) (Hc : cfg_ok c base name) (e : env) (sg : staged_changes) (f1 : fs).
  Context (Hent : forall en, en ∈ staged_entries sg -> good_rel name en.1).
  Notation L := (staged_entries sg).

  (** *** without assumptions about what is staged *)
  Lemma area_up p q : move_area c sg p -> under p q -> move_area c sg q.
  Proof using.
    intros [H|(rel & h & Hin & H)] Hu; [left; by eapply under_trans|]. right. exists rel, h. split; [done|].
    by eapply under_trans.
  Qed.
  Lemma area_root : ~ move_area c sg [].
  Proof using Hc.
    intros [H|(rel & h & Hin & H)].
    - apply (staging_ne c). by apply prefix_nil_inv in H.
    - apply prefix_nil_inv in H. unfold public_path in H. apply app_eq_nil in H as [H _].
      by apply (rrdp_ne c _ _ Hc).
  Qed.
  Definition moves : M unit :=
    move_file (staging_dir c) (c_rrdp_dir c) (ss_rel (sg_snap sg)) ;;
    for_each (sg_deltas sg) (fun d => move_file (staging_dir c) (c_rrdp_dir c) (ds_rel d)).
  Lemma k_moves : keeps e (inside (move_area c sg) f1) moves.
  Proof using Hc Hent.
    assert (Hm : forall en, en ∈ L -> keeps e (inside (move_area c sg) f1) (move_file (staging_dir c) (c_rrdp_dir c) en.1)).
    { intros [rel h] Hin. pose proof (Hent _ Hin) as [Hcl _]. cbn in *.
      apply (k_move_file e _ f1 (move_area c sg) area_up area_root); rewrite path_join_clean by done.
      - left. apply under_app.
      - right. exists rel, h. split; [done|]. apply under_refl. }
    unfold moves. apply keeps_bind.
    - apply (Hm (ss_rel (sg_snap sg), ss_hash (sg_snap sg))). constructor.
    - intros _. apply keeps_for_each. intros d Hd. apply (Hm (ds_rel d, ds_hash d)). right.
      apply elem_of_list_fmap. by exists d.
  Qed.

  (** *** with the right files staged *)
  Context (Hwf1 : wf f1) (Hin1 : Forall (in_place (e_ext e) c f1) L) (Hone : all_one L).

  Lemma stage_eq en : en ∈ L -> staging_path c en.1 = staging_dir c ++ split_on slash en.1.
  Proof using Hent. intros H. apply staging_path_clean, (Hent _ H). Qed.
  Lemma stage_not_public en q : en ∈ L -> under (c_rrdp_dir c) q -> staging_path c en.1 <> q.
  Proof using Hc Hent.
    intros H Hq E. apply (apart_disjoint _ _ q (ck_s_r _ _ _ Hc)); [|done]. rewrite <- E, stage_eq by done.
    apply under_app.
  Qed.
  Lemma stage_not_above en en' q : en ∈ L -> en' ∈ L -> below q (public_path c en'.1) -> staging_path c en.1 <> q.
  Proof using Hc Hent.
    intros H H' Hq E. destruct (below_split _ _ _ (public_under c en'.1) Hq) as [Hb|Hu].
    - apply (apart_below _ _ _ (apart_sym _ _ (ck_s_r _ _ _ Hc)) Hb). rewrite <- E, stage_eq by done. apply under_app.
    - by apply (stage_not_public en q).
  Qed.
  Lemma entries_apart en en' : en ∈ L -> en' ∈ L -> ~ below (public_path c en.1) (public_path c en'.1).
  Proof using Hent Hwf1 Hin1.
    intros H H' [[k Hk] Hne]. unfold public_path in *. rewrite <- app_assoc in Hk. apply app_inv_head in Hk.
    rewrite Forall_forall in Hin1. destruct (Hin1 _ H) as (b & m & E & _). destruct (Hin1 _ H') as (b' & m' & E' & _).
    rewrite stage_eq in E, E' by done.
    assert (Hb : below (staging_dir c ++ split_on slash en.1) (staging_dir c ++ split_on slash en'.1)).
    { split; [exists k; by rewrite Hk, app_assoc|]. intros Ee. apply app_inv_head in Ee. apply Hne. by rewrite Ee. }
    assert (Hd := wf_below _ _ _ _ Hwf1 E' Hb). rewrite E in Hd.
    enough (Some (File b m) = Some Dir) by done. apply Hd. intros Ex. apply app_eq_nil in Ex as [Ex _].
    by apply (staging_ne c).
  Qed.
  Lemma public_inj en en' : en ∈ L -> en' ∈ L -> public_path c en.1 = public_path c en'.1 -> en = en'.
  Proof using Hone.
    intros H H' E. apply public_path_inj in E. destruct en as [r h], en' as [r' h']. cbn in E. subst r'.
    f_equal. by apply (Hone r).
  Qed.

  Notation I := (moving e c sg f1).
  Definition above_public (q : path) : Prop := exists en, en ∈ L /\ below q (public_path c en.1).

  Lemma moving_start : I f1.
  Proof using Hwf1 Hin1.
    split; [done|apply mods_refl| |by left]. intros en H. right. rewrite Forall_forall in Hin1. by apply Hin1.
  Qed.
  Lemma moving_mk : mk_ok I above_public.
  Proof using Hc Hent Hwf1 Hin1.
    intros f q [M1 M2 M3 M4] (en0 & Hen0 & Hq) Hne Hn Hp.
    assert (Hst : forall en, en ∈ L -> staging_path c en.1 <> q) by (intros; by apply (stage_not_above _ en0)).
    assert (Hpb : forall en, en ∈ L -> public_path c en.1 <> q).
    { intros en H <-. by apply (entries_apart en en0). }
    split.
    - by apply (wf_mk (fun _ => True)).
    - apply mods_mkdir; [left; by exists en0|done|done].
    - intros en H. destruct (M3 en H) as [E|(b & m & E & Eh)]; [left|right; exists b, m].
      + rewrite lookup_insert_ne by (by apply not_eq_sym, Hst). done.
      + rewrite lookup_insert_ne by (by apply not_eq_sym, Hst). done.
    - intros en H. unfold published, cut_short. rewrite lookup_insert_ne by (by apply not_eq_sym, Hpb). by apply M4.
  Qed.
  Lemma moving_mv en : en ∈ L -> mv_ok I (staging_path c en.1) (public_path c en.1).
  Proof using Hc Hent Hone.
    intros Hen f b m [M1 M2 M3 M4] Ho Ht E Ed Hp.
    assert (Hot : forall en', en' ∈ L -> staging_path c en'.1 <> public_path c en.1).
    { intros en' H. apply stage_not_public; [done|apply public_under]. }
    assert (Hto : forall en', en' ∈ L -> staging_path c en.1 <> public_path c en'.1).
    { intros en' H. apply stage_not_public; [done|apply public_under]. }
    split.
    - by apply (wf_mv (staging_path c en.1) (public_path c en.1)).
    - apply mods_insert; [exists en; auto|]. apply mods_delete; [exists en; auto|done].
    - intros en' H. unfold in_place. rewrite lookup_insert_ne by (by apply not_eq_sym, Hot).
      destruct (decide (staging_path c en.1 = staging_path c en'.1)) as [<-|Hs]; [left; apply lookup_delete|].
      rewrite lookup_delete_ne by done. by apply M3.
    - intros en' H. unfold published, cut_short. destruct (decide (public_path c en.1 = public_path c en'.1)) as [Ep|Hne].
      + rewrite <- (public_inj _ _ Hen H Ep). rewrite lookup_insert. right. left. exists b, m. split; [done|].
        destruct (M3 en Hen) as [En|(b' & m' & E' & Eh)]; congruence.
      + rewrite lookup_insert_ne by done. rewrite lookup_delete_ne by (by apply Hto). by apply M4.
  Qed.
  Lemma moving_cp en b : en ∈ L -> x_hash (e_ext e) b = en.2 -> cp_ok e I (staging_path c en.1) (public_path c en.1) b.
  Proof using Hc Hent Hone.
    intros Hen Hb Hcopy. split.
    - intros f b' [M1 M2 M3 M4] Hb' Ht Ed Hp.
      assert (Hot : forall en', en' ∈ L -> staging_path c en'.1 <> public_path c en.1).
      { intros en' H. apply stage_not_public; [done|apply public_under]. }
      split.
      + by eapply (wf_wr (public_path c en.1)).
      + apply mods_insert; [exists en; auto|done].
      + intros en' H. unfold in_place. rewrite lookup_insert_ne by (by apply not_eq_sym, Hot). by apply M3.
      + intros en' H. unfold published, cut_short. destruct (decide (public_path c en.1 = public_path c en'.1)) as [Ep|Hne].
        * rewrite <- Ep, lookup_insert. right. right. split; [done|]. rewrite <- (public_inj _ _ Hen H Ep).
          destruct Hb' as [rest Hr]. exists b', None, rest. by rewrite Hr.
        * rewrite lookup_insert_ne by done. by apply M4.
    - intros f nd [M1 M2 M3 M4] Ho E Hnd.
      assert (Hto : forall en', en' ∈ L -> staging_path c en.1 <> public_path c en'.1).
      { intros en' H. apply stage_not_public; [done|apply public_under]. }
      split.
      + by eapply (wf_rmf (staging_path c en.1)).
      + apply mods_delete; [exists en; auto|done].
      + intros en' H. unfold in_place.
        destruct (decide (staging_path c en.1 = staging_path c en'.1)) as [<-|Hs]; [left; apply lookup_delete|].
        rewrite lookup_delete_ne by done. by apply M3.
      + intros en' H. unfold published, cut_short. rewrite lookup_delete_ne by (by apply Hto). by apply M4.
  Qed.

  (** nothing to move any more *)
  Lemma w_move_missing en w (Q : res unit -> world -> Prop) :
    en ∈ L -> I (w_fs w) -> w_fs w !! staging_path c en.1 = None ->
    (forall x w', I (w_fs w') -> Q (Err x) w') ->
    wpt e (on_fs I) (move_file (staging_dir c) (c_rrdp_dir c) en.1) w Q.
  Proof using Hc Hent Hwf1 Hin1.
    intros Hen HI En HE. unfold move_file. cbv zeta.
    pose proof (Hent _ Hen) as [Hcl _].
    assert (Epub : path_join (c_rrdp_dir c) en.1 = public_path c en.1) by (by apply path_join_clean).
    rewrite Epub. fold (staging_path c en.1).
    set (I' := fun g => I g /\ g !! staging_path c en.1 = None).
    wp1.
    eapply wpt_conseq; [apply (w_create_path_for_file e I' (fun q => above_public q /\ staging_path c en.1 <> q)
       (public_path c en.1) w (fun r w' => I' (w_fs w') /\ r <> Panic))| |].
    - by split.
    - intros f q [H1 H2] [Hq Hs] Hne Hn Hp. split; [by apply moving_mk|]. by rewrite lookup_insert_ne.
    - intros q Hq _. split; [by exists en|]. by apply (stage_not_above _ en).
    - intros r w' H1 H2. done.
    - intros []; cbn; auto. by intros [].
    - intros [[]|x|] w1 [[H1 H2] H3]; [|by apply HE|done]. wp1. wp1.
      assert (Hx : fs_exists (w_fs w1) (staging_path c en.1) = false).
      { unfold fs_exists, fs_stat. rewrite fs_get_nonroot; [by rewrite H2|]. rewrite stage_eq by done.
        intros Ex. apply app_eq_nil in Ex as [Ex _]. by apply (staging_ne c). }
      rewrite Hx. cbn [negb]. wp1. by apply HE.
  Qed.

  Lemma w_move_one en w (Q : res unit -> world -> Prop) :
    en ∈ L -> I (w_fs w) ->
    (forall x w', I (w_fs w') -> Q (Err x) w') ->
    (forall w', I (w_fs w') -> published (e_ext e) c (w_fs w') en ->
       (forall en', en' ∈ L -> published (e_ext e) c (w_fs w) en' -> published (e_ext e) c (w_fs w') en') -> Q (Ok tt) w') ->
    wpt e (on_fs I) (move_file (staging_dir c) (c_rrdp_dir c) en.1) w Q.
  Proof using Hc Hent Hwf1 Hin1 Hone.
    intros Hen HI HE HQ. pose proof (Hent _ Hen) as [Hcl _].
    destruct (mo_staged _ _ _ _ _ HI en Hen) as [En|(b & m & E & Eh)]; [by eapply w_move_missing|].
    assert (Epub : path_join (c_rrdp_dir c) en.1 = public_path c en.1) by (by apply path_join_clean).
    assert (Est : path_join (staging_dir c) en.1 = staging_path c en.1) by done.
    apply (w_move_file e I above_public (staging_dir c) (c_rrdp_dir c) en.1 b m); rewrite ?Epub, ?Est.
    - done.
    - apply moving_mk.
    - intros q Hq _. by exists en.
    - rewrite stage_eq by done. intros Ex. apply app_eq_nil in Ex as [Ex _]. by apply (staging_ne c).
    - done.
    - apply stage_not_public; [done|apply public_under].
    - by apply moving_mv.
    - by apply moving_cp.
    - done.
    - intros w' HI' Eo (m' & Et) Hm. apply HQ; [done|by exists b, m'|].
      intros en' Hen' (b2 & m2 & E2 & Eh2).
      destruct (decide (public_path c en.1 = public_path c en'.1)) as [Ep|Hne].
      + rewrite <- (public_inj _ _ Hen Hen' Ep). by exists b, m'.
      + exists b2, m2. split; [|done]. eapply mods_file; [exact Hm| |done|exact E2].
        intros [Ex|Ex]; [|congruence]. symmetry in Ex. revert Ex. apply stage_not_public; [done|apply public_under].
  Qed.

  Lemma w_moves w (Q : res unit -> world -> Prop) :
    w_fs w = f1 ->
    (forall x w', I (w_fs w') -> Q (Err x) w') ->
    (forall w', I (w_fs w') -> Forall (published (e_ext e) c (w_fs w')) L -> Q (Ok tt) w') ->
    wpt e (on_fs I) moves w Q.
  Proof using Hc Hent Hwf1 Hin1 Hone.
    intros E1 HE HQ. unfold moves. wp1.
    apply (w_move_one (ss_rel (sg_snap sg), ss_hash (sg_snap sg))); [constructor|rewrite E1; apply moving_start|done|].
    intros w1 HI1 Hp1 _.
    apply (wpt_for_each _ _ _ _ _ (fun l w' => I (w_fs w') /\ exists pre, sg_deltas sg = pre ++ l /\
      published (e_ext e) c (w_fs w') (ss_rel (sg_snap sg), ss_hash (sg_snap sg)) /\
      Forall (fun d => published (e_ext e) c (w_fs w') (ds_rel d, ds_hash d)) pre)).
    - split; [done|]. exists []. done.
    - intros d l w2 (HI2 & pre & Epre & Hs2 & Hpre).
      assert (Hd : forall d', d' ∈ pre ++ d :: l -> (ds_rel d', ds_hash d') ∈ L).
      { intros d' Hd'. unfold staged_entries. right. apply elem_of_list_fmap. exists d'. split; [done|]. by rewrite Epre. }
      apply (w_move_one (ds_rel d, ds_hash d)); [apply Hd; apply elem_of_app; right; constructor|done|done|].
      intros w3 HI3 Hp3 Hmono. split; [done|]. exists (pre ++ [d]). rewrite <- app_assoc. split; [done|].
      split; [apply Hmono; [constructor|done]|]. apply Forall_app. split; [|by constructor].
      rewrite Forall_forall in *. intros d' Hd'. apply Hmono; [|by apply Hpre]. apply Hd. apply elem_of_app. by left.
    - intros w2 (HI2 & pre & Epre & Hs2 & Hpre). rewrite app_nil_r in Epre. apply HQ; [done|].
      unfold staged_entries. constructor; [done|]. rewrite Forall_fmap, Epre. exact Hpre.
  Qed.
End move.
