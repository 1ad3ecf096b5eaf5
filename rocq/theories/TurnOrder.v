(** * Before and after the rsync link is turned, in one run *)
From Coq Require Import ZifyN ZifyNat ZifyBool.
From Verif Require Import RsyncRun PropsRsync.
From Verif Require Import FsWf.

Lemma apart_up (d p q : path) : apart p d -> under p q -> apart q d.
Proof. intros H Hu. by eapply apart_sub_l. Qed.
(** what happens away from [d] leaves the tree at [d] as it is *)
Lemma inside_apart d f g p : inside (fun q => apart q d) f g -> under d p -> g !! p = f !! p.
Proof.
  intros H Hp. apply (inside_same _ _ _ _ H).
  - intros [_ H']. by apply H'.
  - intros (q & [_ H'] & [Hb _]). apply H'. by eapply under_trans.
Qed.
Lemma inside_mono (A B : path -> Prop) f g : (forall p, A p -> B p) -> inside A f g -> inside B f g.
Proof.
  intros H [Hw Hm]. split; [done|]. eapply mods_weaken; [exact H| |exact Hm].
  intros p (q & Hq & Hb). left. exists q. auto.
Qed.

Section order.
  Context (c : config) (base name : string) (e : env) (f : fs) (Hs : sane c base name e f) (Hpl : plain_record c f).
  Context (r : revision).
  Context (Hlater : forall rs olds cb o, recorded_rsync c f rs -> retired e rs olds -> clean_time c e cb ->
             o ∈ olds -> or_rev o = r -> (cb < or_since o)%Z).
  Let Hc : cfg_ok c base name := sn_cfg _ _ _ _ _ Hs.
  Notation yp := (rsync_state_path c).

  (** the run up to the link *)
  Definition publish_tree (o : option (rrdp_state * staged_changes)) : M (option (rrdp_state * option (rsync_state * revision))) :=
    match o with
    | None => mret None
    | Some (st1, sg) =>
        st2 ← apply_staged_changed st1 sg c;
        match st_snap st2 with
        | None => mret (Some (st2, None))
        | Some snap =>
            let snap_path := mp_path (st_map st2) (ss_rel snap) in
            rs ← rsync_recover c;
            let rv := mkRev (ss_session snap) (ss_serial snap) in
            let out := rev_path c rv in
            create_out_path_if_missing out ;;
            for_snapshot_path (c_include_host c) out snap_path ;;
            mret (Some (st2, Some (rs, rv)))
        end
    end.
  (** the link, and what follows *)
  Definition turn (o : option (rrdp_state * option (rsync_state * revision))) : M unit :=
    match o with
    | None => mret tt
    | Some (st2, y) =>
        match y with
        | None => mret tt
        | Some (rs, rv) =>
            symlink_current rv c ;;
            rs1 ← update_current rs rv;
            rs2 ← clean_old rs1 c;
            rsync_persist rs2 c
        end ;;
        write_notification st2 (c_notify_delay c) ;;
        persist st2 (rrdp_state_path c)
    end.
  Lemma process_turn w : rsync_enabled c = true -> use_symlinks c = true ->
    process c e w = ((prepare c ≫= publish_tree) ≫= turn) e w.
  Proof using.
    intros Hen Hsy. rewrite process_front. unfold front, publish1, publish_tree, update_from_rrdp_state, mbind, M_bind.
    rewrite Hen, Hsy. cbn [when_].
    destruct (prepare c e w) as [[[[st1 sg]|]| |] w1]; [|done..].
    unfold M_bind. destruct (apply_staged_changed st1 sg c e w1) as [[st2| |] w2]; [|done..].
    destruct (st_snap st2) as [snap|]; [|done].
    destruct (rsync_recover c e w2) as [[rs| |] w3]; [|done..].
    destruct (create_out_path_if_missing _ e w3) as [[[]| |] w4]; [|done..].
    destruct (for_snapshot_path _ _ _ e w4) as [[[]| |] w5]; [|done..].
    cbn. unfold mbind, M_bind.
    destruct (symlink_current _ c e w5) as [[[]| |] w6]; [|done..].
    destruct (update_current _ _ e w6) as [[rs1| |] w7]; [|done..].
    destruct (clean_old _ _ e w7) as [[rs2| |] w8]; [|done..].
    by destruct (rsync_persist _ _ e w8) as [[[]| |] w9].
  Qed.

  (** away from the link and from the record *)
  Definition elsewhere (p : path) : Prop := apart p (rsync_current c) /\ apart p yp.
  Lemma else_up p q : elsewhere p -> under p q -> elsewhere q.
  Proof using. intros [H1 H2] Hu. split; by eapply apart_up. Qed.
  Lemma else_root : ~ elsewhere [].
  Proof using. intros [H _]. by apply apart_nonroot in H as [? _]. Qed.
  Lemma else_own p : (forall q, rsync_own c q -> apart q p) -> elsewhere p.
  Proof using. intros H. split; apply apart_sym, H; [left; apply current_under|by right]. Qed.
  Lemma else_staging p : under (staging_dir c) p -> elsewhere p.
  Proof using Hs.
    intros Hp. apply (else_up (staging_dir c)); [|done]. apply else_own. intros q Hq.
    by destruct (own_apart c base name e f Hs q Hq) as [H _].
  Qed.
  Lemma else_public rel : elsewhere (public_path c rel).
  Proof using Hs. apply else_own. intros q Hq. by destruct (own_apart c base name e f Hs q Hq) as (_ & H & _). Qed.
  Lemma else_rev rv : elsewhere (rev_path c rv).
  Proof using Hs.
    split; [apply rev_current_apart|]. apply apart_sym. eapply apart_sub; [apply (ck_yp_y _ _ _ Hc)|apply rev_under].
  Qed.
  Lemma else_same g : inside elsewhere f g -> g !! rsync_current c = f !! rsync_current c /\ g !! yp = f !! yp.
  Proof using.
    intros H. split; [apply (inside_apart (rsync_current c))|apply (inside_apart yp)]; try apply under_refl;
      (eapply inside_mono; [|exact H]); by intros p [].
  Qed.
  Notation I1 := (inside elsewhere f).

  Lemma k_move1 rel : clean_rel rel -> keeps e I1 (move_file (staging_dir c) (c_rrdp_dir c) rel).
  Proof using Hs.
    intros H. apply (k_move_file e elsewhere f elsewhere else_up else_root).
    - rewrite path_join_clean by done. apply else_staging, under_app.
    - rewrite path_join_clean by done. apply else_public.
  Qed.

  Lemma w_before :
    wpt e (on_fs I1) (prepare c ≫= publish_tree) (resume f) (fun res w' => I1 (w_fs w') /\
      forall st2 y, res = Ok (Some (st2, y)) -> good_state c base name st2 /\
        forall rs rv, y = Some (rs, rv) -> recorded_rsync c f rs).
  Proof using Hs Hpl.
    wp1. assert (HJ : forall g, stage_tree c f g -> I1 g).
    { intros g [Hg _]. eapply inside_mono; [|by apply so_inside]. apply else_staging. }
    eapply wpt_conseq; [apply (w_prepare c base name e f Hs)|intros []; cbn; auto|].
    intros [[[st1 sg]|]|x|] w4 (HS4 & HN & HM); cbn [publish_tree]; [|wp1; by split; [apply HJ|]|by split; [apply HJ|]..].
    destruct (HM _ _ eq_refl) as (st & v & n0 & n & -> & Hmv & Hck). clear HM HN.
    assert (HI4 : I1 (w_fs w4)) by by apply HJ.
    assert (Hent : forall en, en ∈ staged_entries sg -> clean_rel en.1).
    { intros en Hen. apply (staged_good c base name e f Hs _ _ _ _ _ _ Hmv Hen). }
    wp1. unfold apply_staged_changed. wp1.
    eapply wpt_keeps; [apply k_move1, (Hent (ss_rel (sg_snap sg), ss_hash (sg_snap sg))); constructor|done|].
    intros [[]|x|] w5 HI5; [|done..].
    wp1. eapply wpt_keeps; [apply keeps_for_each|done|].
    { intros d Hd. apply k_move1, (Hent (ds_rel d, ds_hash d)). right. apply elem_of_list_fmap. by exists d. }
    intros [[]|x|] w6 HI6; [|done..].
    apply (w_apply_memory e (on_fs I1) ltac:(done) (set_validator st v) sg (fun st' => clean st' c)).
    intros w7 st7 E7 Hm.
    assert (Hg7 : good_state c base name st7).
    { destruct Hmv as [B1 B2 B3 B4].
      eapply (good_merged c base name e f (set_validator st v) sg n0 n); [| | |exact Hm].
      - apply good_set_validator. by apply (start_good c base name e f Hs).
      - apply (sn_notif _ _ _ _ _ Hs). apply B2.
      - destruct B2. by split. }
    apply (w_clean e c I1 (fun q => elsewhere q \/ anc elsewhere q) (fun g H => proj1 H)).
    - by rewrite E7.
    - apply in_rmd.
    - intros d Hd _. destruct (gs_deprecated _ _ _ _ Hg7 _ Hd) as (rel & Hr & ->).
      pose proof (else_public rel) as HA.
      split; [intros Ex; rewrite Ex in HA; by apply else_root in HA|].
      split; [by apply in_rmf|]. intros q Hq _. by eapply pre_A.
    - intros x w8 HI8. done.
    - intros w8 st8 Hcl HI8 _.
      assert (Hg8 : good_state c base name st8) by (by eapply good_cleaned).
      destruct (st_snap st8) as [snap|]; [|wp1; split; [done|]; intros st2 y [= <- <-]; by split].
      cbv zeta. wp1. apply w_rsync_recover; [intros x w' E; rewrite E; done|]. intros w9 rs E9 Hst. wp1.
      assert (Hrec : recorded_rsync c f rs).
      { destruct (else_same _ HI8) as [_ E]. apply starts_recorded in Hst.
        - unfold recorded_rsync in *. by rewrite E in Hst.
        - apply rsync_state_path_ne.
        - intros t. rewrite E. apply Hpl. }
      set (rv := mkRev (ss_session snap) (ss_serial snap)).
      eapply wpt_keeps; [|by rewrite E9|].
      { unfold create_out_path_if_missing. apply keeps_bind; [apply keeps_exists|]. intros b.
        apply keeps_unless, k_create_dir_all, else_rev. }
      intros [[]|x|] w10 HI10; [|done..].
      wp1. eapply wpt_conseq; [apply (wpt_keeps e (inside (under (rev_path c rv)) (w_fs w10)) _ w10
          (fun _ w' => I1 (w_fs w'))); [apply k_for_snapshot_out, (sn_snap _ _ _ _ _ Hs)|split; [apply HI10|apply mods_refl]|]| |].
      + intros res w' H. split; [apply H|]. eapply mods_trans; [apply HI10|].
        eapply (inside_mono _ elsewhere); [|exact H]. intros p Hp. eapply else_up; [apply else_rev|exact Hp].
      + intros []; cbn; auto. intros H. split; [apply H|]. eapply mods_trans; [apply HI10|].
        eapply (inside_mono _ elsewhere); [|exact H]. intros p Hp. eapply else_up; [apply else_rev|exact Hp].
      + intros [[]|x|] w11 HI11; [|done..]. wp1. split; [done|]. intros st2 y [= <- <-]. split; [done|].
        by intros rs' rv' [= <- _].
  Qed.

  (** away from the tree of [r] *)
  Notation away := (fun p => apart p (rev_path c r)).
  Lemma away_up p q : away p -> under p q -> away q.
  Proof using. apply apart_up. Qed.
  Lemma away_root : ~ away [].
  Proof using. intros H. by apply apart_nonroot in H as [? _]. Qed.
  Lemma away_own p : (forall q, rsync_own c q -> apart q p) -> away p.
  Proof using. intros H. apply apart_sym, H. left. apply rev_under. Qed.
  Section after.
    Context (f2 : fs).
    Notation I2 := (inside away f2).
    Lemma k_notif2 st2 : good_state c base name st2 -> keeps e I2 (write_notification st2 (c_notify_delay c)).
    Proof using Hs.
      intros Hg. unfold write_notification. apply keeps_bind; [apply keeps_when, keeps_sleep|]. intros _.
      rewrite (gs_map _ _ _ _ Hg), (gs_source _ _ _ _ Hg). unfold mp_path, tmp_name. cbn [mp_dir ns_name].
      rewrite (path_join_name _ name) by apply (ck_name _ _ _ Hc).
      rewrite (path_join_name _ (name +:+ ".tmp")) by (by eapply ends_with_tmp_noslash).
      assert (HN : away (notif_path c name)) by (apply away_own; intros q Hq; by destruct (own_apart c base name e f Hs q Hq) as (_ & _ & H & _)).
      assert (HT : away (notif_tmp c name)) by (apply away_own; intros q Hq; by destruct (own_apart c base name e f Hs q Hq) as (_ & _ & _ & H & _)).
      apply keeps_bind; [apply q_make_notification|]. intros n. apply keeps_bind; [apply keeps_getext|]. intros x.
      apply keeps_bind; [|intros _].
      - by apply k_write_buf; [apply away_root|].
      - by apply (k_rename e away f2 away away_up away_root).
    Qed.
    Lemma k_persist2 st2 : keeps e I2 (persist st2 (rrdp_state_path c)).
    Proof using Hs.
      apply k_write_buf; [apply away_root|]. apply away_own. intros q Hq. by destruct (own_apart c base name e f Hs q Hq) as (_ & _ & _ & _ & H).
    Qed.
    Lemma k_link2 rv : keeps e I2 (symlink_current rv c).
    Proof using.
      assert (Hcu : away (rsync_current c)) by (apply apart_sym, rev_current_apart).
      assert (Htmp : away (path_with_extension (rsync_current c) "tmp")) by (apply apart_sym, rev_tmp_apart).
      unfold symlink_current. apply keeps_bind; [apply keeps_exists|]. intros b.
      apply keeps_bind; [by apply keeps_when, k_remove_file|]. intros _.
      apply keeps_bind; [by apply k_symlink; [apply away_root|]|]. intros _.
      by apply (k_rename e away f2 away away_up away_root).
    Qed.
    Lemma w_rest2 rs rv w (Q : res unit -> world -> Prop) : recorded_rsync c f rs -> I2 (w_fs w) ->
      (forall res w', I2 (w_fs w') -> Q res w') ->
      wpt e (on_fs I2) (rs1 ← update_current rs rv; rs2 ← clean_old rs1 c; rsync_persist rs2 c) w Q.
    Proof using Hs Hlater.
      intros Hrec HI HQ. wp1.
      assert (Hup : wpt e (on_fs I2) (update_current rs rv) w (fun res w' => w_fs w' = w_fs w /\
        exists rs1, res = Ok rs1 /\ retired e rs (rs_old rs1))).
      { unfold update_current, retired. destruct (rs_current rs) as [cur|].
        - wp1. wp1; [done|]. wp1. split; [done|]. eexists. split; [done|]. eexists. split; [|done]. by eexists.
        - wp1. split; [done|]. by eexists. }
      eapply wpt_post; [exact Hup|]. intros res w1 (E1 & rs1 & -> & Hret).
      wp1. unfold clean_old. wp1. wp1; [done|]. set (cb := wrap64 _).
      assert (Hcb : clean_time c e cb) by by eexists.
      wp1. eapply wpt_keeps; [apply keeps_for_each|by cbn; rewrite E1|].
      { intros o [Ho1 Ho2]%elem_of_list_filter. apply keeps_bind; [apply keeps_exists|]. intros b. apply keeps_when.
        apply (k_remove_dir_all e away f2 away away_up). apply revs_apart. intros Er.
        pose proof (Hlater _ _ _ _ Hrec Hret Hcb Ho2 Er). lia. }
      intros [[]|x|] w2 HI2; [|by apply HQ..]. wp1.
      eapply wpt_keeps; [|exact HI2|exact HQ]. apply k_write_buf; [apply away_root|].
      eapply apart_sub; [apply (ck_yp_y _ _ _ Hc)|apply rev_under].
    Qed.
    Lemma w_turn st2 y w : good_state c base name st2 -> (forall rs rv, y = Some (rs, rv) -> recorded_rsync c f rs) ->
      I2 (w_fs w) -> wpt e (on_fs I2) (turn (Some (st2, y))) w (fun _ w' => I2 (w_fs w')).
    Proof using Hs Hlater.
      intros Hg Hy HI. unfold turn. wp1.
      assert (Hend : forall (res : res unit) w', I2 (w_fs w') -> match res with
          | Ok _ => wpt e (on_fs I2) (write_notification st2 (c_notify_delay c) ;; persist st2 (rrdp_state_path c)) w' (fun _ w' => I2 (w_fs w'))
          | Err x => I2 (w_fs w')
          | Panic => I2 (w_fs w') end).
      { intros [[]|x|] w' HI'; [|done..]. eapply wpt_keeps; [|exact HI'|auto].
        apply keeps_bind; [by apply k_notif2|]. intros _. apply k_persist2. }
      destruct y as [[rs rv]|].
      - wp1. eapply wpt_keeps; [apply k_link2|done|]. intros [[]|x|] w1 HI1; [|done..].
        apply w_rest2; [by eapply Hy|done|]. intros res w' HI'. specialize (Hend res w' HI'). by destruct res as [[]| |].
      - wp1. exact (Hend (Ok tt) w HI).
    Qed.
  End after.

  (** Once the link differs from what it was at the start of the run, the tree
      of [r] does not change any more. *)
  Lemma turned_order i j g h : rsync_enabled c = true -> use_symlinks c = true ->
    instants c e f !! i = Some g -> instants c e f !! j = Some h -> i <= j ->
    g !! rsync_current c <> f !! rsync_current c -> forall p, under (rev_path c r) p -> h !! p = g !! p.
  Proof using Hs Hpl Hlater.
    intros Hen Hsy Hi Hj Hij Hne p Hp. unfold instants, run in Hi, Hj. rewrite (process_turn _ Hen Hsy) in Hi, Hj.
    destruct w_before as (l & Ht & Hl & HI & HO). cbn [resume w_trace app] in Ht.
    assert (Hbefore : forall i g, (f :: trees l) !! i = Some g -> g !! rsync_current c = f !! rsync_current c).
    { intros k g' Hk. apply elem_of_list_lookup_2 in Hk. apply elem_of_cons in Hk as [->|Hk]; [done|].
      apply trees_in in Hk. rewrite Forall_forall in Hl. by destruct (else_same _ (Hl _ Hk)). }
    set (m := prepare c ≫= publish_tree) in *. unfold mbind, M_bind in Hi, Hj. fold m in Hi, Hj.
    destruct (m e (resume f)) as [res w1]. cbn [fst snd] in *.
    assert (Hstop : forall i g, (f :: trees (w_trace w1)) !! i = Some g -> g !! rsync_current c = f !! rsync_current c).
    { rewrite Ht. exact Hbefore. }
    destruct res as [[[st2 y]|]|x|]; cbn [fst snd] in Hi, Hj; try (exfalso; apply Hne; exact (Hstop _ _ Hi)).
    destruct (HO _ _ eq_refl) as [Hg Hy].
    destruct (w_turn (w_fs w1) st2 y w1 Hg Hy) as (l2 & Ht2 & Hl2 & _); [split; [apply HI|apply mods_refl]|].
    rewrite Ht2, Ht, trees_app, app_comm_cons in Hi, Hj.
    assert (Hlate : forall k g', length (f :: trees l) <= k -> ((f :: trees l) ++ trees l2) !! k = Some g' -> g' !! p = w_fs w1 !! p).
    { intros k g' Hk Hg'. rewrite lookup_app_r in Hg' by done. apply elem_of_list_lookup_2, trees_in in Hg'.
      rewrite Forall_forall in Hl2. by apply (inside_apart (rev_path c r) _ _ p (Hl2 _ Hg')). }
    destruct (decide (i < length (f :: trees l))) as [Hlt|Hge].
    - rewrite lookup_app_l in Hi by done. exfalso. apply Hne. exact (Hbefore _ _ Hi).
    - rewrite (Hlate i g), (Hlate j h); [done|lia|done|lia|done].
  Qed.
End order.
