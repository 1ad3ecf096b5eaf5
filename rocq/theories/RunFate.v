(** * What becomes of a published file during a run *)
From Coq Require Import ZifyN ZifyNat ZifyBool.
From Verif Require Export RunView.

(** the files (relative path and hash) a state lists *)
Definition state_files (st : rrdp_state) : list (string * hash) :=
  option_list ((fun s => (ss_rel s, ss_hash s)) <$> st_snap st) ++ ((fun d => (ds_rel d, ds_hash d)) <$> st_deltas st).

(** the source is consistent, and nobody put symbolic links into the staging
    directory *)
Definition honest_run (c : config) (e : env) (f : fs) : Prop :=
  no_bad_304 e /\ no_links (staging_dir c) f /\ forall n0, offers c e f n0 -> one_hash n0.

(** the path is recorded as unused since [t], or is dropped by this run at its
    time [t] *)
Definition recorded_at (c : config) (base name : string) (e : env) (f : fs) (p : path) (t : Z) : Prop :=
  exists st, starts_from c base name f st /\
    ((exists d, d ∈ st_deprecated st /\ dp_path d = p /\ dp_since d = t) \/
     (run_clock e t /\ exists rel h, (rel, h) ∈ state_files st /\ p = public_path c rel)).

Lemma dropped_files c base name st sg p : good_state c base name st -> p ∈ dropped st sg ->
  exists rel h, (rel, h) ∈ state_files st /\ p = public_path c rel.
Proof.
  intros Hg Hp. unfold dropped in Hp. apply elem_of_app in Hp as [Hp|Hp].
  - unfold snapshot_path in Hp. destruct (st_snap st) as [s|] eqn:E; cbn in Hp; [|by apply elem_of_nil in Hp].
    apply elem_of_list_singleton in Hp as ->. exists (ss_rel s), (ss_hash s). split.
    + unfold state_files. rewrite E. cbn. constructor.
    + eapply public_mp; [done|]. by apply (gs_snap _ _ _ _ Hg).
  - apply elem_of_list_fmap in Hp as (d & -> & Hd). exists (ds_rel d), (ds_hash d).
    assert (Hd' : d ∈ st_deltas st) by (apply (kept_gone st sg); by right). split.
    + apply elem_of_app. right. apply elem_of_list_fmap. by exists d.
    + eapply public_mp; [done|]. by apply (gs_deltas _ _ _ _ Hg).
Qed.
Lemma state_files_good c base name st rel h : good_state c base name st -> (rel, h) ∈ state_files st -> good_rel name rel.
Proof.
  intros Hg. unfold state_files. rewrite elem_of_app. intros [H|H].
  - destruct (st_snap st) as [s|] eqn:E; cbn in H; [|by apply elem_of_nil in H].
    apply elem_of_list_singleton in H as [= -> ->]. by apply (gs_snap _ _ _ _ Hg).
  - apply elem_of_list_fmap in H as (d & [= -> ->] & Hd). by apply (gs_deltas _ _ _ _ Hg).
Qed.

Section fate.
  Context (c : config) (base name : string) (e : env) (f0 : fs) (Hs : sane c base name e f0).
  Let Hc : cfg_ok c base name := sn_cfg _ _ _ _ _ Hs.
  Notation N := (notif_path c name).
  Notation tmp := (notif_tmp c name).

  Lemma expired_recorded st n0 n sg f1 v st' f2 cb p : at_clean c base name e f0 st n0 n sg f1 v st' f2 ->
    expired st' cb p -> exists t, recorded_at c base name e f0 p t /\ (t <= cb)%Z.
  Proof using Hs.
    intros [[A1 A2 _ _] Hm _ _] (d & Hd & Hle & ->). destruct Hm as [M1 M2 M3 M4 M5 (deps & M6 & M7 & M8)].
    exists (dp_since d). split; [|done]. exists st. split; [done|].
    rewrite M6 in Hd. apply elem_of_app in Hd as [Hd|Hd]; [left; by exists d|]. right.
    rewrite Forall_forall in M8. split; [by apply M8|].
    apply (dropped_files c base name (set_validator st v) sg).
    - apply good_set_validator. by eapply start_good.
    - rewrite <- M7. apply elem_of_list_fmap. by exists d.
  Qed.
  Lemma expired_public st n0 n sg f1 v st' f2 cb p : at_clean c base name e f0 st n0 n sg f1 v st' f2 ->
    expired st' cb p -> exists rel, good_rel name rel /\ p = public_path c rel.
  Proof using Hs.
    intros Ha (d & Hd & _ & ->). pose proof (merged_good c base name e f0 Hs _ _ _ _ _ _ _ _ Ha) as Hg.
    by apply (gs_deprecated _ _ _ _ Hg).
  Qed.
  Lemma entry_ref st n0 n sg f1 en : at_move c base name e f0 st n0 n sg f1 -> en ∈ staged_entries sg ->
    from_source c e f0 n0 n /\ good_rel name en.1 /\ (base +:+ en.1, en.2) ∈ refs n.
  Proof using Hs.
    intros [A1 A2 A3 A4] Hin. split; [apply A2|]. destruct en as [rel h].
    eapply (entry_good c base name e f0 st sg n0 n); [|done|done]. apply (sn_notif _ _ _ _ _ Hs). apply A2.
  Qed.

  (** the rsync, notification and state steps do not touch published files *)
  Lemma rsync_view f g p : under (c_rrdp_dir c) p -> inside (rsync_area c) f g -> view g p = view f p.
  Proof using Hs.
    intros Hp HI. apply (inside_view _ _ _ _ HI). intros [Hu| ->].
    - by apply (apart_disjoint _ _ p (ck_r_y _ _ _ Hc)).
    - apply (apart_disjoint _ _ _ (ck_yp_r _ _ _ Hc) (under_refl _) Hp).
  Qed.
  Lemma notify_view doc f g p : p <> N -> p <> tmp -> notifying c name doc f g -> view g p = view f p.
  Proof using. intros H1 H2 [_ Hm _]. apply (view_mods _ _ _ _ _ Hm). intros [?|?]; done. Qed.
  Lemma save_view txt f g p : under (c_rrdp_dir c) p -> saving c txt f g -> view g p = view f p.
  Proof using Hs.
    intros Hp [_ Hm _]. apply (view_mods _ _ _ _ _ Hm). intros <-.
    apply (apart_disjoint _ _ _ (ck_sp_r _ _ _ Hc) (under_refl _) Hp).
  Qed.
  Lemma clean_view st cb f g p : cleaning st cb f g -> view g p = view f p \/ (expired st cb p /\ view g p = None).
  Proof using.
    intros [_ Hsub Hm]. destruct (view_sub f g p Hsub) as [E|E]; [|by left].
    destruct (Hm p) as [E'|[Hx|(_ & Ef & Eg)]]; [left; by apply view_eq|by right|].
    left. unfold view. destruct Ef as [-> | ->], Eg as [-> | ->]; done.
  Qed.

  Section honest.
    Context (Hh : honest_run c e f0).
    Lemma run_honest st n0 n sg f1 : at_move c base name e f0 st n0 n sg f1 -> honest c e f0 sg.
    Proof using Hs Hh.
      intros Ha. destruct Hh as (H1 & H2 & H3). split; [done|]. split; [done|]. intros r h h' Hin Hin'.
      destruct (entry_ref _ _ _ _ _ _ Ha Hin) as ([Hof Hsv] & _ & R1). cbn in R1.
      destruct (entry_ref _ _ _ _ _ _ Ha Hin') as (_ & _ & R2). cbn in R2.
      eapply (H3 n0 Hof); eapply sav_refs; eauto.
    Qed.

    (** *** the fate of a path in the RRDP directory *)
    Definition replaced (g : fs) (p : path) : Prop :=
      exists n0 n rel h, from_source c e f0 n0 n /\ (base +:+ rel, h) ∈ refs n /\ good_rel name rel /\
        p = public_path c rel /\
        (published (e_ext e) c g (rel, h) \/ (may_copy e /\ cut_short (e_ext e) c g (rel, h) /\
           exists st sg f1, at_move c base name e f0 st n0 n sg f1 /\ (rel, h) ∈ staged_entries sg)).
    Definition removed (g : fs) (p : path) : Prop :=
      view g p = None /\ exists cb t, clean_time c e cb /\ recorded_at c base name e f0 p t /\ (t <= cb)%Z.
    Definition fate (g : fs) (p : path) : Prop := view g p = view f0 p \/ replaced g p \/ removed g p.

    Lemma fate_view g g' p : view g' p = view g p -> fate g p -> fate g' p.
    Proof using.
      intros E [H|[(n0 & n & rel & h & H1 & H2 & H3 & -> & H4)|(H1 & H2)]].
      - left. congruence.
      - right. left. exists n0, n, rel, h. split; [done|]. split; [done|]. split; [done|]. split; [done|].
        destruct H4 as [H4|(H4 & (b & m & rest & H5 & H6) & H7)]; [left; by eapply published_view|right].
        split; [done|]. split; [|done]. exists b, m, rest. split; [|done]. cbn in *. apply view_file. rewrite E. by apply view_file.
      - right. right. split; [congruence|done].
    Qed.
    Lemma move_fate st n0 n sg f1 g p : under (c_rrdp_dir c) p -> at_move c base name e f0 st n0 n sg f1 ->
      moving e c sg f1 g -> fate g p.
    Proof using Hs Hh.
      intros Hp Ha [M1 M2 M3 M4].
      assert (E1 : view f1 p = view f0 p).
      { apply (stage_view c); [apply Ha|]. intros Hu. by apply (apart_disjoint _ _ p (ck_s_r _ _ _ Hc)). }
      destruct (M2 p) as [E|[(en & Hen & [-> | ->])|(_ & E2 & E3)]].
      - left. rewrite <- E1. by apply view_eq.
      - exfalso. destruct (entry_ref _ _ _ _ _ _ Ha Hen) as (_ & (Hcl & _) & _).
        apply (apart_disjoint _ _ (staging_path c en.1) (ck_s_r _ _ _ Hc)); [|done].
        by apply staging_path_under.
      - destruct (M4 en Hen) as [E|H]; [left; rewrite <- E1; by apply view_eq|]. right. left.
        destruct (entry_ref _ _ _ _ _ _ Ha Hen) as (H1 & H2 & H3). destruct en as [rel h].
        exists n0, n, rel, h. repeat (split; [done|]). destruct H as [H|[Hm H]]; [by left|right].
        split; [done|]. split; [done|]. by exists st, sg, f1.
      - left. rewrite <- E1. unfold view. destruct E2 as [-> | ->], E3 as [-> | ->]; done.
    Qed.
    Lemma clean_fate st n0 n sg f1 v st' f2 cb g p : under (c_rrdp_dir c) p ->
      at_clean c base name e f0 st n0 n sg f1 v st' f2 -> clean_time c e cb -> cleaning st' cb f2 g -> fate g p.
    Proof using Hs Hh.
      intros Hp Ha Hcb HC. destruct (clean_view _ _ _ _ p HC) as [E|[Hx E]].
      - apply (fate_view f2); [done|]. pose proof (ac_files _ _ _ _ _ _ _ _ _ _ _ _ _ Ha) as HF.
        eapply move_fate; [done|apply Ha|]. apply HF. eapply run_honest. apply Ha.
      - right. right. split; [done|]. destruct (expired_recorded _ _ _ _ _ _ _ _ _ _ Ha Hx) as (t & H1 & H2). by exists cb, t.
    Qed.
    Lemma rsync_fate st n0 n sg f1 v st' f2 cb st2 f3 g p : under (c_rrdp_dir c) p ->
      at_rsync c base name e f0 st n0 n sg f1 v st' f2 cb st2 f3 -> inside (rsync_area c) f3 g -> fate g p.
    Proof using Hs Hh.
      intros Hp [A1 A2 A3 A4 A5] HI. eapply fate_view; [by apply rsync_view|]. by eapply clean_fate.
    Qed.
    Lemma front_fate g p : under (c_rrdp_dir c) p -> front_phase c base name e f0 g -> fate g p.
    Proof using Hs Hh.
      intros Hp [H|st n0 n sg f1 H1 H2 H3|st n0 n sg f1 v st' f2 cb H1 H2 H3|st n0 n sg f1 v st' f2 cb st2 f3 H1 H2].
      - left. apply (stage_view c); [done|]. intros Hu. by apply (apart_disjoint _ _ p (ck_s_r _ _ _ Hc)).
      - eapply move_fate; [done|exact H1|]. apply H3. by eapply run_honest.
      - by eapply clean_fate.
      - by eapply rsync_fate.
    Qed.
    Lemma phase_fate g p : under (c_rrdp_dir c) p -> p <> N -> p <> tmp -> phase c base name e f0 g -> fate g p.
    Proof using Hs Hh.
      intros Hp HN Ht [H|st n0 n sg f1 v st' f2 cb st2 f3 f4 n' [H1 H2] _ H3
        |st n0 n sg f1 v st' f2 cb st2 f3 f4 n' f5 [[H1 H2] _ H3 _] H4].
      - by apply front_fate.
      - eapply fate_view; [by eapply notify_view|]. by eapply rsync_fate.
      - eapply fate_view; [by eapply save_view|]. eapply fate_view; [by eapply notify_view|]. by eapply rsync_fate.
    Qed.

    (** *** the staging directory stays free of links *)
    Lemma move_links st n0 n sg f1 g : at_move c base name e f0 st n0 n sg f1 -> moving e c sg f1 g ->
      no_links (staging_dir c) g.
    Proof using Hs Hh.
      intros Ha [M1 M2 M3 M4] p t Hu E.
      assert (H1 : no_links (staging_dir c) f1) by (apply (am_tree _ _ _ _ _ _ _ _ _ _ Ha), Hh).
      destruct (M2 p) as [E'|[(en & Hen & [-> | ->])|(_ & E2 & E3)]].
      - rewrite E in E'. by apply (H1 p t).
      - destruct (M3 en Hen) as [E'|(b & m & E' & _)]; congruence.
      - apply (apart_disjoint _ _ _ (ck_s_r _ _ _ Hc) Hu). apply public_under.
      - destruct E3; congruence.
    Qed.
    Lemma links_view f g : (forall p, under (staging_dir c) p -> view g p = None \/ view g p = view f p) ->
      no_links (staging_dir c) f -> no_links (staging_dir c) g.
    Proof using.
      intros H Hf p t Hu E. destruct (H p Hu) as [E'|E'].
      - unfold view in E'. rewrite E in E'. done.
      - apply view_link in E. rewrite E' in E. apply view_link in E. by apply (Hf p t).
    Qed.
    Lemma phase_links g : phase c base name e f0 g -> no_links (staging_dir c) g.
    Proof using Hs Hh.
      assert (Hcl : forall st n0 n sg f1 v st' f2 cb g, at_clean c base name e f0 st n0 n sg f1 v st' f2 ->
        cleaning st' cb f2 g -> no_links (staging_dir c) g).
      { intros st n0 n sg f1 v st' f2 cb g' H1 H2. apply (links_view f2).
        - intros p _. apply view_sub. apply H2.
        - eapply move_links; [apply H1|]. apply H1. eapply run_honest. apply H1. }
      assert (Hry : forall st n0 n sg f1 v st' f2 cb st2 f3 g, at_rsync c base name e f0 st n0 n sg f1 v st' f2 cb st2 f3 ->
        inside (rsync_area c) f3 g -> no_links (staging_dir c) g).
      { intros st n0 n sg f1 v st' f2 cb st2 f3 g' H1 H2. apply (links_view f3).
        - intros p Hu. right. apply (inside_view _ _ _ _ H2). intros [Hu'| ->].
          + by apply (apart_disjoint _ _ p (ck_s_y _ _ _ Hc)).
          + apply (apart_disjoint _ _ _ (apart_s_yp c) Hu), under_refl.
        - eapply Hcl; apply H1. }
      assert (Hno : forall st n0 n sg f1 v st' f2 cb st2 f3 f4 doc g,
        at_notify c base name e f0 st n0 n sg f1 v st' f2 cb st2 f3 f4 -> notifying c name doc f4 g -> no_links (staging_dir c) g).
      { intros st n0 n sg f1 v st' f2 cb st2 f3 f4 doc g' [H1 H2] H3. apply (links_view f4); [|by eapply Hry].
        intros p Hu. right. apply (notify_view doc); [..|done]; intros ->;
          apply (apart_disjoint _ _ _ (ck_s_r _ _ _ Hc) Hu), under_app. }
      intros [[H|st n0 n sg f1 H1 H2 H3|st n0 n sg f1 v st' f2 cb H1 H2 H3|st n0 n sg f1 v st' f2 cb st2 f3 H1 H2]
        |st n0 n sg f1 v st' f2 cb st2 f3 f4 n' H1 H2 H3
        |st n0 n sg f1 v st' f2 cb st2 f3 f4 n' f5 [H1 _ H3 _] H4]; eauto.
      - apply H. apply Hh.
      - eapply move_links; [done|]. apply H3. by eapply run_honest.
      - apply (links_view f5); [|by eapply Hno]. intros p Hu. right. destruct H4 as [_ Hm _].
        apply (view_mods _ _ _ _ _ Hm). intros <-. apply (apart_disjoint _ _ _ (apart_s_sp c) Hu), under_refl.
    Qed.

    (** *** new files arrive *)
    Lemma arrives st n0 n sg f1 v st' f2 cb st2 f3 f4 en : at_notify c base name e f0 st n0 n sg f1 v st' f2 cb st2 f3 f4 ->
      en ∈ staged_entries sg -> (forall cb t, clean_time c e cb -> recorded_at c base name e f0 (public_path c en.1) t -> (cb < t)%Z) ->
      published (e_ext e) c f4 en.
    Proof using Hs Hh.
      intros [[A1 A2 A3 A4 A5] A6] Hen Hno. apply (published_view _ _ f3); [apply rsync_view; [apply public_under|done]|].
      apply (published_view _ _ f2).
      - destruct (clean_view _ _ _ _ (public_path c en.1) A4) as [?|[Hx _]]; [done|].
        destruct (expired_recorded _ _ _ _ _ _ _ _ _ _ A1 Hx) as (t & H1 & H2). specialize (Hno _ _ A2 H1). lia.
      - assert (HF : Forall (published (e_ext e) c f2) (staged_entries sg)).
        { apply A1. eapply run_honest. apply A1. }
        rewrite Forall_forall in HF. by apply HF.
    Qed.
  End honest.
End fate.
