(** * C72: directory moves: a mirror recovers by itself unless it is blocked *)
From Coq Require Import ZifyN ZifyNat ZifyBool.
From Verif Require Import Way PropsLiveTal HistoryProofs RunView RunFate PropsRecover PropsBlocked CoarseProofs.
From Verif Require Import DemoRun DemoTree Refuted PropsDecide ReadBack TreeWalk PropsHoldsRequests PropsHoldsFresh PropsValidator PropsSource.
From Verif Require Import Live FsWf.

(** ** Specification *)
(** With force-moves, the tree of a revision is made in the directory of that
    revision, moved to [current] later and from there back again.  So an object
    of any version can be in each of these directories. *)
Definition slot (c : config) (s : path) : Prop := s = current_path c \/ exists r, s = rev_dir c r.
Inductive moved_place (P : notification -> Prop) (c : config) (base name : string) (x : ext) : path -> Prop :=
| mp_file t : file_place P c base name x t -> moved_place P c base name x t
| mp_object n u s : P n -> object_of x n u -> slot c s -> moved_place P c base name x (s ++ object_rel c u).
Definition slot_place (c : config) (p : path) : Prop := exists s, slot c s /\ p `prefix_of` s.

(** As [fitting], and the names of the objects fit into one tree, over all
    versions. *)
Record fitting_moves (P : notification -> Prop) (c : config) (base name : string) (x : ext) : Prop := {
  fm_fitting : fitting P c base name x;
  fm_apart : forall n n' u u', P n -> P n' -> object_of x n u -> object_of x n' u' ->
    ~ below (object_rel c u) (object_rel c u') }.

(** As [tended], with force-moves: [current] is a directory or missing. *)
Inductive tended_moves (P : notification -> Prop) (c : config) (base name : string) (x : ext) : fs -> Prop :=
| tm_start f : wf f -> f !! rrdp_state_path c = None -> no_links (staging_dir c) f ->
    clear_way (moved_place P c base name x) (slot_place c) f -> tended_moves P c base name x f
| tm_run f c' e g : tended_moves P c base name x f ->
    same_places c c' -> c_include_host c' = c_include_host c -> c_force_moves c' = true ->
    e_ext e = x -> no_bad_304 e -> (forall n, offers c' e f n -> P n) ->
    g ∈ instants c' e f -> tended_moves P c base name x g
| tm_else f g : tended_moves P c base name x f -> wf g -> (forall p, owned c p -> g !! p = f !! p) ->
    (forall d, dirs (moved_place P c base name x) (slot_place c) d -> d <> [] -> dir_or_none g d) -> tended_moves P c base name x g.

(** ** Proofs *)
(** *** The places *)
Section places.
  Context (P : notification -> Prop) (c : config) (base name : string) (x : ext).
  Context (Hc : cfg_ok c base name) (Hfit : fitting_moves P c base name x).
  Notation T := (moved_place P c base name x).
  Notation D := (slot_place c).
  Let Hft : fitting P c base name x := fm_fitting _ _ _ _ _ Hfit.

  Definition entry (s : string) : Prop := s = "current" \/ exists r, s = dir_name r.
  Lemma slot_entry p : slot c p <-> exists s, p = c_rsync_dir c ++ [s] /\ entry s.
  Proof using.
    split.
    - intros [->|[r ->]].
      + exists "current". split; [done|]. by left.
      + exists (dir_name r). split; [done|]. right. eauto.
    - intros (s & -> & [->|[r ->]]); [by left|]. right. by exists r.
  Qed.
  Lemma slot_ne p : slot c p -> p <> [].
  Proof using. intros (s & -> & _)%slot_entry. by destruct (c_rsync_dir c). Qed.
  Lemma slots_apart p q : slot c p -> slot c q -> p <> q -> apart p q.
  Proof using.
    intros (s & -> & _)%slot_entry (s' & -> & _)%slot_entry Hn. apply apart_names. intros ->. done.
  Qed.
  Lemma slot_rev r : slot c (rev_path c r).
  Proof using. right. exists r. by rewrite rev_dir_eq. Qed.
  Lemma slot_current : slot c (rsync_current c).
  Proof using. left. by rewrite current_eq. Qed.
  Lemma slot_up d d' : D d -> below d' d -> D d'.
  Proof using. intros (s & Hs & Hd) [Hb _]. exists s. split; [done|]. by etransitivity. Qed.
  Lemma slot_slot p : slot c p -> D p.
  Proof using. intros H. by exists p. Qed.

  Inductive mshape : area -> path -> Prop :=
  | ms_file a q : a <> AYy -> shape P c base name x a q -> mshape a q
  | ms_obj n u s : P n -> object_of x n u -> entry s -> mshape AYy (s :: object_rel c u).
  Lemma mplace_shape t : T t -> exists a q, t = root c a ++ q /\ mshape a q.
  Proof using Hft.
    intros [t' Ht|n u s Hn Ho Hs].
    - destruct (place_shape P c base name x Hft t' Ht) as (a & q & -> & Hq). exists a, q. split; [done|].
      destruct (decide (a = AYy)) as [->|Ha]; [|by constructor].
      inversion Hq as [? ? [|]|? ? [|]|? [|]|n u Hn Ho]; subst; try done. apply (ms_obj n u); try done. right. eauto.
    - apply slot_entry in Hs as (s' & -> & Hs). exists AYy, (s' :: object_rel c u). rewrite <- app_assoc. split; [done|]. by apply (ms_obj n u).
  Qed.
  Lemma mshapes_apart a q q' : mshape a q -> mshape a q' -> ~ below q q'.
  Proof using Hfit Hft.
    intros [a' q1 Ha H1|n u s Hn Ho Hs] H2.
    - inversion H2 as [a'' q2 Ha' H2'|]; subst; [|done]. by eapply (shapes_apart P c base name x Hft).
    - inversion H2 as [a'' q2 Ha' H2'|n' u' s' Hn' Ho' Hs']; subst; [done|]. intros [Hb1 Hb2].
      pose proof (prefix_cons_inv_1 _ _ _ _ Hb1) as ->. apply prefix_cons_inv_2 in Hb1.
      eapply (fm_apart _ _ _ _ _ Hfit n n' u u'); try done. split; [done|]. intros E. apply Hb2. by rewrite E.
  Qed.
  Lemma mplace_ne t : T t -> t <> [].
  Proof using Hc Hft.
    intros [t' Ht|n u s Hn Ho Hs]; [by eapply (place_ne P c base name x Hc Hft)|].
    intros [E _]%app_eq_nil. by apply (slot_ne s).
  Qed.
  Lemma mplace_apart t : T t -> ~ dirs T D t.
  Proof using Hc Hfit Hft.
    intros Ht. destruct (mplace_shape t Ht) as (a & q & -> & Hq). intros [(t' & Ht' & Hb)|(p & Hp & Hr)].
    - destruct (mplace_shape t' Ht') as (b & q' & -> & Hq').
      assert (a = b) as <- by (eapply (same_area c base name Hc); [|apply Hb]; apply under_app).
      eapply mshapes_apart; [exact Hq|exact Hq'|]. by eapply (below_tail c a).
    - apply slot_entry in Hp as (s & -> & _).
      assert (a = AYy) as -> by (eapply (same_area c base name Hc a AYy); [apply under_app|exact Hr]).
      cbn [root] in Hr. apply prefix_app_inv in Hr. inversion Hq as [? ? ?|n u s' Hn Ho Hs]; subst; [done|].
      apply prefix_cons_inv_2, prefix_nil_inv in Hr. apply (object_ne c u); [by eapply (object_clean P c base name x Hft)|done].
  Qed.
  (** the places in the directories of revisions are the same in all of them *)
  Lemma place_in_slot p q r : slot c p -> slot c q -> T (q ++ r) -> T (p ++ r).
  Proof using Hc Hft.
    intros Hp (s & -> & Hs)%slot_entry HT. destruct (mplace_shape _ HT) as (a & k & E & Hk).
    assert (AYy = a) as <-.
    { eapply (same_area c base name Hc AYy a k (c_rsync_dir c)); [apply under_refl|]. rewrite <- E, <- app_assoc. apply under_app. }
    cbn [root] in E. rewrite <- app_assoc in E. apply app_inv_head in E. subst k.
    inversion Hk as [? ? ?|n u s' Hn Ho Hs']; subst; [done|]. by eapply mp_object.
  Qed.
  Lemma dir_in_slot p q r : slot c p -> slot c q -> r <> [] -> dirs T D (q ++ r) -> dirs T D (p ++ r).
  Proof using Hc Hft.
    intros Hp Hq Hr [(t & Ht & Hb)|(s & Hs & Hd)].
    - left. destruct Hb as [[k ->] Hb]. exists (p ++ r ++ k). rewrite <- app_assoc in Ht. split; [by apply (place_in_slot p q)|].
      rewrite app_assoc. apply below_child. intros ->. by rewrite app_nil_r in Hb.
    - exfalso. apply slot_entry in Hq as (s1 & -> & _). apply slot_entry in Hs as (s2 & -> & _). rewrite <- app_assoc in Hd. apply prefix_app_inv in Hd.
      cbn in Hd. by apply prefix_cons_inv_2, prefix_nil_inv in Hd.
  Qed.

  Lemma room_slots p q f : room T D f -> slot c p -> slot c q -> p <> q -> f !! p = Some Dir -> parent_is_dir f q = true ->
    room T D (move_tree p q f).
  Proof using Hc Hft.
    intros (Hw & H1 & H2) Hp Hq Hn Ep Hpd. destruct (slots_apart p q Hp Hq Hn) as [Ha1 Ha2].
    split; [|split].
    - apply wf_move_tree; try done; [by apply slot_ne|]. by intros [? _].
    - intros t Ht. unfold file_or_none. destruct (decide (under q t)) as [[r ->]|Hu].
      + pose proof (H1 _ (place_in_slot p q r Hp Hq Ht)) as [E|(b & m & E)].
        * left. by apply move_tree_target_None.
        * right. exists b, m. rewrite move_tree_target by eauto. done.
      + rewrite move_tree_other by done. case_decide; [by left|]. by apply H1.
    - intros d Hd Hne. unfold dir_or_none. destruct (decide (under q d)) as [[r ->]|Hu].
      + destruct (decide (r = [])) as [->|Hr].
        * right. pose proof (move_tree_target p q f []) as Hm. rewrite app_nil_r, Ep in Hm. apply Hm. eauto.
        * destruct (H2 (p ++ r)) as [E|E]; [by apply (dir_in_slot p q)| |left; by apply move_tree_target_None|].
          { intros [E _]%app_eq_nil. by apply (slot_ne p). }
          right. rewrite move_tree_target by eauto. done.
      + rewrite move_tree_other by done. case_decide; [by left|]. by apply H2.
  Qed.
  Lemma keeps_rename_slot e p q : slot c p -> slot c q -> keeps e (room T D) (f_rename p q).
  Proof using Hc Hft.
    intros Hp Hq. unfold f_rename. apply keeps_step. intros g mids fin Hg E. unfold op_rename in E.
    pose proof (slot_ne _ Hp) as Hpn. pose proof (slot_ne _ Hq) as Hqn. destruct p as [|p0 p'] eqn:Ep; [done|]. rewrite <- Ep in *.
    rewrite !fs_get_nonroot in E by done.
    destruct (proj2 (proj2 Hg) p) as [G|G]; [right; by apply slot_slot|done|by rewrite G in E|]. rewrite G in E.
    destruct (parent_is_dir g q) eqn:Hpd; [|done]. destruct (bool_decide (below p q)); [done|]. cbn [negb andb] in E.
    destruct (g !! q) as [[| |]|] eqn:Gq; try done.
    - destruct (decide (p = q)) as [|Hn]; [by injection E as <- <-|]. destruct (has_children g q); [done|].
      injection E as <- <-. split; [constructor|]. by apply room_slots.
    - injection E as <- <-. split; [constructor|]. apply room_slots; try done. intros ->. congruence.
  Qed.
  Lemma keeps_turn e r rs : keeps e (room T D) (rename_new_revision r rs c).
  Proof using Hc Hft.
    pose proof (fun r => keeps_rename_slot e _ _ slot_current (slot_rev r)).
    pose proof (fun r => keeps_rename_slot e _ _ (slot_rev r) slot_current).
    unfold rename_new_revision. cbv zeta. apply keeps_bind; [|done].
    destruct (rs_current rs); [|apply keeps_ret]. apply keeps_bind; [apply keeps_exists|]. intros ex. by apply keeps_when.
  Qed.
End places.

(** *** The invariant *)
Section tended_moves.
  Context (P : notification -> Prop) (c : config) (base name : string) (x : ext).
  Context (Hc : cfg_ok c base name) (Hfit : fitting_moves P c base name x).
  Notation T := (moved_place P c base name x).
  Notation D := (slot_place c).
  Let Hft : fitting P c base name x := fm_fitting _ _ _ _ _ Hfit.

  Record minv (g : fs) : Prop := {
    mv_mirror : mirror any_notif c base name g;
    mv_links : no_links (staging_dir c) g;
    mv_room : room T D g;
    mv_drawn : forall st, starts_from c base name g st -> drawn P c base st }.

  Lemma minv_run f c' e g : minv f -> same_places c c' -> c_include_host c' = c_include_host c -> c_force_moves c' = true ->
    e_ext e = x -> no_bad_304 e -> (forall n, offers c' e f n -> P n) -> g ∈ instants c' e f -> minv g.
  Proof using Hc Hfit.
    intros [I1 I2 I3 I4] Hpl' Hih Hfm Hx H304 HP Hg.
    assert (Hgw : good_world c' base name e f).
    { split; [intros n Hn; by apply (fi_names _ _ _ _ _ Hft), HP|]. rewrite Hx. apply (fi_objects _ _ _ _ _ Hft). }
    assert (Hs : sane c' base name e f) by (by eapply mirror_sane).
    assert (Hh : honest_run c' e f).
    { split; [done|]. split; [by rewrite (places_s c c' Hpl')|]. intros n0 Hn. by apply (fi_hash _ _ _ _ _ Hft), HP. }
    pose proof Hpl' as (P1 & P2 & P3 & P4).
    assert (Es : forall rel, staging_path c' rel = staging_path c rel) by (intros; unfold staging_path; by rewrite (places_s c c' Hpl')).
    assert (Ep : forall rel, public_path c' rel = public_path c rel) by (intros; apply (places_public c c' Hpl')).
    assert (Ey : rsync_state_path c' = rsync_state_path c) by (unfold rsync_state_path; by rewrite P2).
    assert (Ec : rsync_current c' = rsync_current c) by (by rewrite !rsync_current_eq, P4).
    assert (Er : forall r, rev_path c' r = rev_path c r) by (intros; by rewrite !rev_path_eq, P4).
    assert (Hd' : forall st, starts_from c' base name f st -> drawn P c' base st).
    { intros st Hst. apply (places_starts c c' base name Hpl') in Hst. destruct (I4 _ Hst) as [D1 D2]. split; [|done].
      intros d Hin. destruct (D1 d Hin) as (rel & H1 & H2). exists rel. by rewrite Ep. }
    split.
    - eapply mi_run; [exact I1|done|done|done|exact Hg].
    - rewrite <- (places_s c c' Hpl'). eapply (phase_links c' base name e f Hs Hh). by apply instant_phase.
    - assert (Hpn : notif_path c' name = notif_path c name /\ notif_tmp c' name = notif_tmp c name).
      { unfold notif_path, notif_tmp. by rewrite P3. }
      assert (Tne : forall t, T t -> t <> []) by (intros t; by apply mplace_ne).
      assert (Tanti : forall t, T t -> ~ dirs T D t) by (intros t; by apply mplace_apart).
      eapply (WayGen.way_instants c' base name e f T D (room T D) (room T D) Hs Hh); try done.
      + intros d d'. apply slot_up.
      + intros r. rewrite Er. apply slot_slot, slot_rev.
      + intros h q. by apply room_mk.
      + intros h t b m. by apply room_put.
      + intros h p Hr Hw _. eapply room_sub; [|done|exact Hr]. by intros k nd [_ ?]%lookup_delete_Some.
      + intros h k Hr Hw Hk. eapply room_sub; [|done|exact Hr]. intros p nd E. by eapply lookup_weaken.
      + intros r rs w Hr _. unfold use_symlinks. rewrite Hfm. cbn [negb].
        assert (Er' : rename_new_revision r rs c' = rename_new_revision r rs c).
        { unfold rename_new_revision. rewrite Ec, Er. destruct (rs_current rs) as [cur|]; [by rewrite Er|done]. }
        rewrite Er'. eapply wpt_conseq; [by apply (keeps_turn P c base name x Hc Hfit e r rs)|done|]. done.
      + destruct Hpn as [N1 N2]. rewrite (places_s c c' Hpl'), N1, N2, (places_sp c c' Hpl'), Ey. intros p Hp. by apply mp_file, fp_fixed.
      + intros n0 u h rel Hn Hin ->. rewrite Es, Ep. assert (Hl : listed_name P base rel) by (exists n0, h; auto).
        split; apply mp_file; [by apply fp_staged|by apply fp_public].
      + intros st p Hst Hb. apply mp_file. destruct (Hd' _ Hst) as [D1 D2]. destruct Hb as [(d & Hin & ->)|(rel & h & Hin & ->)].
        * destruct (D1 d Hin) as (rel & H1 & ->). rewrite Ep. by apply fp_public.
        * rewrite Ep. apply fp_public. by eapply D2.
      + intros n0 b u o Hn Hb Hin. rewrite Er, Hih, rev_dir_eq. rewrite Hx in Hb, Hin.
        rewrite object_path_rel by (by eapply (fi_objects _ _ _ _ _ Hft)).
        apply mp_file, (fp_object _ _ _ _ _ n0 u); [by apply HP|]. by exists b, o.
    - intros st Hst. apply (places_starts c c' base name Hpl') in Hst.
      destruct (drawn_instants P c' base name e f Hs HP Hd' g st Hg Hst) as [D1 D2]. split; [|done].
      intros d Hin. destruct (D1 d Hin) as (rel & H1 & H2). exists rel. by rewrite <- Ep.
  Qed.
  Lemma minv_start f : wf f -> f !! rrdp_state_path c = None -> no_links (staging_dir c) f -> clear_way T D f -> minv f.
  Proof using Hc.
    intros H1 H2 H3 H4. split; [by apply mi_start|done| |].
    - split; [done|split; apply H4].
    - intros st [[Hx _]|[_ ->]]; [|apply drawn_first].
      unfold fs_exists, fs_stat in Hx. rewrite fs_get_nonroot, H2 in Hx by apply state_path_ne. done.
  Qed.
  Lemma minv_else f g : minv f -> wf g -> (forall p, owned c p -> g !! p = f !! p) ->
    (forall d, dirs T D d -> d <> [] -> dir_or_none g d) -> minv g.
  Proof using Hc Hfit.
    intros [I1 I2 I3 I4] H1 H2 H3. split; [by eapply mi_else| | |].
    - intros p t Hp. rewrite H2 by (by left). by apply I2.
    - destruct I3 as (R1 & R2 & R3). split; [done|split; [|done]].
      intros t Ht. unfold file_or_none. rewrite H2; [by apply R2|].
      destruct (mplace_shape P c base name x Hfit t Ht) as (a & q & -> & Hq). unfold owned. destruct a; cbn [root].
      + left. apply under_app.
      + right. left. apply under_app.
      + inversion Hq as [? ? ? Hq'|]; subst. inversion Hq' as [? ? [|]|? ? [|]|? [|]|]; subst; try done. rewrite app_nil_r. auto.
      + inversion Hq as [? ? ? Hq'|]; subst. inversion Hq' as [? ? [|]|? ? [|]|? [|]|]; subst; try done. rewrite app_nil_r. auto.
      + right. right. left. apply under_app.
    - intros st Hst. apply I4. eapply starts_plain; [|by eapply (mirror_own any_notif)|exact Hst]. apply H2, owned_sp.
  Qed.
  Lemma tended_moves_inv f : tended_moves P c base name x f -> minv f.
  Proof using Hc Hfit.
    induction 1 as [f H1 H2 H3 H4|f c' e g Hf IH H1 H2 H3 H4 H5 H6 H7|f g Hf IH H1 H2 H3].
    - by apply minv_start.
    - by eapply minv_run.
    - by eapply minv_else.
  Qed.

  (** What stands in the way of a run *)
  Lemma moves_clear f st e n0 n els rs : tended_moves P c base name x f -> e_ext e = x -> starts_from c base name f st ->
    P n0 -> sort_and_verify x (c_max_deltas c) n0 = Some (n, true) ->
    (forall b, x_hash x b = n_snap_hash n -> x_snapshot x b = (els, true)) -> (exists b, x_hash x b = n_snap_hash n) ->
    clear_way (run_files c base name st n els) (run_dirs c rs (revision_of n)) f /\
    (forall s, slot c s -> dir_or_none f s) /\
    (forall d, d ∈ st_deltas st -> x_https_ok x (base +:+ ds_rel d) = true).
  Proof using Hc Hfit.
    intros [I1 I2 (R1 & R2 & R3) I4]%tended_moves_inv Hx Hst Hn Hsv Hel [b0 Hb0]. destruct (I4 _ Hst) as [D1 D2].
    destruct (sav_same _ _ _ _ _ Hsv) as (B1 & B2 & B3 & B4).
    assert (HT : forall t, run_files c base name st n els t -> T t).
    { intros t Ht. apply mp_file. revert Ht.
      intros [(u & h & rel & Hin & -> & Ht)|[Ht|[[(d & Hd & ->)|(rel & h & Hin & ->)]|[_ [-> |(u & o & Hin & ->)]]]]].
      - assert (Hl : listed_name P base rel) by (exists n0, h; split; [done|by eapply sav_refs]).
        destruct Ht as [-> | ->]; [by apply fp_staged|by apply fp_public].
      - apply fp_fixed. rewrite !elem_of_cons in *. naive_solver.
      - destruct (D1 d Hd) as (rel & H1 & ->). by apply fp_public.
      - apply fp_public. by eapply D2.
      - apply fp_fixed. do 4 right. by left.
      - replace (revision_of n) with (revision_of n0) by (unfold revision_of; by rewrite B1, B2).
        apply fp_object; [done|]. exists b0, o. split; [by rewrite <- B4|]. by rewrite (Hel _ Hb0). }
    assert (HD : forall d, dirs (run_files c base name st n els) (run_dirs c rs (revision_of n)) d -> dirs T D d).
    { intros d [(t & Ht & Hb)|(_ & r & _ & Hr)]; [left; exists t; split; [by apply HT|done]|right].
      exists (rev_dir c r). split; [right; by exists r|done]. }
    split; [|split].
    - split.
      + intros t Ht Hd. apply (mplace_apart P c base name x Hc Hfit t); [by apply HT|by apply HD].
      + intros t Ht. by apply R2, HT.
      + intros d Hd. by apply R3, HD.
    - intros s Hs. apply R3; [right; by apply slot_slot|by eapply slot_ne].
    - intros d Hd. destruct (D2 (ds_rel d) (ds_hash d)) as (n' & h & H1 & H2).
      + unfold state_files. apply elem_of_app. right. apply elem_of_list_fmap. by exists d.
      + by eapply (fi_uris _ _ _ _ _ Hft).
  Qed.
End tended_moves.

(** ** C72 *)
(** As [C66_recovers], for a mirror that moves directories.  The run completes
    unless the mirror is blocked (see C70: then no run ever completes), provided
    that the recorded current revision is not the one that is to be made, nor
    also recorded as an old one. *)
Theorem C72_recovers P c base name e f st doc n0 n rs els :
  cfg_ok c base name -> fitting_moves P c base name (e_ext e) -> tended_moves P c base name (e_ext e) f -> c_force_moves c = true ->
  no_faults e -> c_tal_files c = [] -> scripts_fine c e -> (forall n', offers c e f n' -> P n') ->
  starts_from c base name f st ->
  (rsync_enabled c = true -> recorded_rsync c f rs /\ ~ blocked c f /\
     rs_current rs <> Some (revision_of n) /\ forall o, o ∈ rs_old rs -> rs_current rs <> Some (or_rev o)) ->
  source_says c e f doc -> x_parse_notif (e_ext e) doc = Some n0 ->
  usable_notif (e_ext e) (c_max_deltas c) n0 n -> newer st n ->
  (forall u h, (u, h) ∈ refs n -> available c base e f u h) -> NoDup (refs n).*1 ->
  (forall b, x_hash (e_ext e) b = n_snap_hash n -> x_snapshot (e_ext e) b = (els, true)) ->
  (forall u o, (u, o) ∈ els -> is_Some o) ->
  (forall rel, n_snap_uri n = base +:+ rel -> ~ booked c st (public_path c rel)) ->
  exists w, run c e f = (Ok tt, w) /\
    exists ds, w_fs w !! notif_path c name = Some (File (x_write_notif (e_ext e)
      (mkNotif (n_session n) (n_serial n) (n_snap_uri n) (n_snap_hash n) ds)) None).
Proof.
  intros Hc Hfit Htd Hfm He Htal Hscr HP Hst Hrs Hsay Hpn Hsv Hnew Hall Hnd Hel Hob Hfr.
  pose proof (fm_fitting _ _ _ _ _ Hfit) as Hft.
  assert (Hn0 : P n0) by (by eapply HP, says_offers).
  destruct (Hall (n_snap_uri n) (n_snap_hash n)) as (rel0 & b0 & _ & _ & _ & _ & Hb0); [by left|].
  destruct (moves_clear P c base name _ Hc Hfit f st e n0 n els rs Htd eq_refl Hst Hn0 (usable_sav _ _ _ _ Hsv) Hel) as (Hcw & Hsl & Hok); [by exists b0|].
  pose proof (tended_moves_inv P c base name (e_ext e) Hc Hfit f Htd) as Hinv.
  assert (Hset : setting c base name e f).
  { split; [done|apply Hinv|]. split; [|apply (fi_objects _ _ _ _ _ Hft)].
    intros n' Hn'. by apply (fi_names _ _ _ _ _ Hft), HP. }
  eapply C52_completes; try done. intros Hen. destruct (Hrs Hen) as (H1 & H2 & H3 & H4). split; try done.
  - intros u o Hin. split; [|by eapply Hob]. apply (fi_objects _ _ _ _ _ Hft b0 u o). by rewrite (Hel _ Hb0).
  - unfold switch_ready, use_symlinks. rewrite Hfm. cbn [negb].
    assert (Hv : forall p, f !! current_path c = Some Dir -> match rs_current rs with Some cur => p = rev_dir c cur | None => p = current_path c end ->
      vacant f p).
    { intros p Hd Hp k [[q ->] Hk]. destruct (f !! (p ++ q)) as [nd|] eqn:E; [|done]. exfalso. apply H2. split; [done|].
      assert (Hq : q <> []) by (intros ->; by rewrite app_nil_r in Hk).
      exists rs. split; [done|]. destruct (rs_current rs); subst p; exists q; (split; [done|by eauto]). }
    destruct (rs_current rs) as [cur|].
    + split; [apply Hsl, slot_current|]. split; [apply Hsl, slot_rev|]. split; [|congruence].
      rewrite current_eq, rev_dir_eq. intros Hd. by apply Hv.
    + split; [apply Hsl, slot_current|]. rewrite current_eq.
      destruct (f !! current_path c) as [nd|] eqn:E.
      * destruct (Hsl _ (slot_current c)) as [E'|E']; rewrite current_eq in E'; rewrite E' in E; [done|]. by apply Hv.
      * apply vacant_none; [apply Hinv|apply (slot_ne c); by left|done].
  - intros _ cur Hcur o Ho E. apply (H4 o Ho). by rewrite E.
Qed.

(** Both together: with force-moves, a run for which all this holds publishes the
    new version exactly if the mirror is not blocked. *)
Theorem C72_iff P c base name e f st doc n0 n rs els :
  cfg_ok c base name -> fitting_moves P c base name (e_ext e) -> tended_moves P c base name (e_ext e) f -> c_force_moves c = true ->
  no_faults e -> c_tal_files c = [] -> scripts_fine c e -> (forall n', offers c e f n' -> P n') ->
  starts_from c base name f st -> c_rsync_disable c = false -> recorded_rsync c f rs ->
  rs_current rs <> Some (revision_of n) -> (forall o, o ∈ rs_old rs -> rs_current rs <> Some (or_rev o)) ->
  source_says c e f doc -> x_parse_notif (e_ext e) doc = Some n0 ->
  usable_notif (e_ext e) (c_max_deltas c) n0 n -> newer st n ->
  (forall u h, (u, h) ∈ refs n -> available c base e f u h) -> NoDup (refs n).*1 ->
  (forall b, x_hash (e_ext e) b = n_snap_hash n -> x_snapshot (e_ext e) b = (els, true)) ->
  (forall u o, (u, o) ∈ els -> is_Some o) ->
  (forall rel, n_snap_uri n = base +:+ rel -> ~ booked c st (public_path c rel)) ->
  (forall ds, f !! notif_path c name <> Some (File (x_write_notif (e_ext e)
      (mkNotif (n_session n) (n_serial n) (n_snap_uri n) (n_snap_hash n) ds)) None)) ->
  ~ blocked c f <-> exists w, run c e f = (Ok tt, w) /\
    exists ds, w_fs w !! notif_path c name = Some (File (x_write_notif (e_ext e)
      (mkNotif (n_session n) (n_serial n) (n_snap_uri n) (n_snap_hash n) ds)) None).
Proof.
  intros Hc Hfit Htd Hfm He Htal Hscr HP Hst Hen Hrec H3 H4 Hsay Hpn Hsv Hnew Hall Hnd Hel Hob Hfr Hno. split.
  - intros Hb. eapply C72_recovers; try done.
  - intros (w & Hw & ds & Hds) Hb. pose proof (fm_fitting _ _ _ _ _ Hfit) as Hft.
    assert (Hset : setting c base name e f).
    { split; [done|apply (tended_moves_inv P c base name (e_ext e) Hc Hfit f Htd)|]. split; [|apply (fi_objects _ _ _ _ _ Hft)].
      intros n' Hn'. by apply (fi_names _ _ _ _ _ Hft), HP. }
    apply (Hno ds). by rewrite <- (proj2 (C70_blocked c base name e f Hset Hen Hb) w Hw).
Qed.

(** *** A case: version 4, then a run for version 5 that is killed between the two
    renames, when [current] is missing, then the same run again *)
Definition mv_tree : fs := after (run moves_config rec_env start_tree).
Definition mv_killed : fs := killed_when moves_config live_env mv_tree no_current.
Lemma mv_fitting : fitting_moves rec_source moves_config base DemoRun.name live_ext.
Proof.
  assert (Hl : forall n u, rec_source n -> object_of live_ext n u -> u ∈ (rec_els rec_n).*1 ++ (rec_els live_n).*1).
  { intros n u Hn Ho. pose proof (rec_object n u Hn Ho) as H. apply elem_of_app. by destruct Hn as [-> | ->]; [left|right]. }
  assert (H : forallb (fun u => forallb (fun u' => negb (bool_decide (below (object_rel moves_config u) (object_rel moves_config u'))))
     ((rec_els rec_n).*1 ++ (rec_els live_n).*1)) ((rec_els rec_n).*1 ++ (rec_els live_n).*1) = true) by vme.
  rewrite forallb_forall in H.
  assert (Ha : forall n n' u u', rec_source n -> rec_source n' -> object_of live_ext n u -> object_of live_ext n' u' ->
    ~ below (object_rel moves_config u) (object_rel moves_config u')).
  { intros n n' u u' Hn Hn' Hu%(Hl _ _ Hn) Hu'%(Hl _ _ Hn').
    apply elem_of_list_In, H in Hu. rewrite forallb_forall in Hu. apply elem_of_list_In, Hu, negb_true_iff, bool_decide_eq_false in Hu'. exact Hu'. }
  split; [|exact Ha]. destruct rec_fitting as [F1 F2 F3 F4 F5 F6]. split; [exact F1|exact F2|exact F3|exact F4|exact F5|].
  intros n n' u u' Hn Hn' _. exact (Ha n n' u u' Hn Hn').
Qed.
Lemma mv_cfg : cfg_ok moves_config base DemoRun.name.
Proof. exact moves_cfg_ok. Qed.
Lemma mv_start : tended_moves rec_source moves_config base DemoRun.name live_ext start_tree.
Proof.
  assert (H : start_check start_tree = true) by vme. unfold start_check in H. rewrite forallb_forall in H.
  assert (Hk : forall p nd, start_tree !! p = Some nd -> nd = Dir /\
    dirs (moved_place rec_source moves_config base DemoRun.name live_ext) (slot_place moves_config) p).
  { intros p nd Hp. apply elem_of_map_to_list, elem_of_list_In, H in Hp. apply andb_true_iff in Hp as [Hp1%bool_decide_eq_true Hp2].
    split; [done|]. apply existsb_exists in Hp2 as (t & Ht & Hb%bool_decide_eq_true). left. exists t. split; [|done].
    apply mp_file, fp_fixed. apply elem_of_list_In in Ht. rewrite !elem_of_cons in *. naive_solver. }
  pose proof (fun t => mplace_apart rec_source moves_config base DemoRun.name live_ext mv_cfg mv_fitting t) as Hap.
  apply tm_start; [apply start_wf|by vm_compute|intros p t _ E; by apply Hk in E as [? _]|]. split.
  - exact Hap.
  - intros t Ht. left. destruct (start_tree !! t) as [nd|] eqn:E; [|done]. destruct (Hk t nd E) as [_ Hd]. exfalso. by apply (Hap t).
  - intros d _ _. unfold dir_or_none. destruct (start_tree !! d) as [nd|] eqn:E; [|by left]. destruct (Hk d nd E) as [-> _]. by right.
Qed.
Lemma mv_instant : mv_killed ∈ instants moves_config live_env mv_tree.
Proof. apply killed_instant. Qed.
Lemma mv_tended : tended_moves rec_source moves_config base DemoRun.name live_ext mv_killed.
Proof.
  eapply (tm_run _ _ _ _ _ mv_tree moves_config live_env); [|done|done|done|done|apply (fixed_no_304 live_docs 1000)|apply rec_offers_5|apply mv_instant].
  eapply (tm_run _ _ _ _ _ start_tree moves_config rec_env); [apply mv_start|done|done|done|done|apply fixed_no_304|apply rec_offers_4|apply after_instant].
Qed.
Definition mv_check (f g : fs) : bool :=
  no_current g && at_b g (current_path moves_config) None && negb (at_b f (current_path moves_config) None) &&
  match DemoRun.state_of moves_config g, rsync_state_of moves_config g with
  | Some st, Some rs => rec_state_check st && negb (bool_decide (rs_current rs = Some (revision_of live_n))) &&
      forallb (fun o => negb (bool_decide (rs_current rs = Some (or_rev o)))) (rs_old rs)
  | _, _ => false
  end.
Lemma mv_check_ok : mv_check mv_tree mv_killed = true.
Proof. vme. Qed.
Lemma mv_check_spec f g : mv_check f g = true ->
  g !! current_path moves_config = None /\ f !! current_path moves_config <> None /\
  exists st rs, starts_from moves_config base DemoRun.name g st /\ rec_state_check st = true /\ recorded_rsync moves_config g rs /\
    rs_current rs <> Some (revision_of live_n) /\ forall o, o ∈ rs_old rs -> rs_current rs <> Some (or_rev o).
Proof.
  unfold mv_check. rewrite !andb_true_iff. intros (((_ & H1) & H2) & H3). apply at_ok in H1. apply there_ok in H2.
  split; [exact H1|]. split; [exact H2|].
  destruct (DemoRun.state_of moves_config g) as [st|] eqn:Est; [|exfalso; exact (diff_false_true H3)].
  destruct (rsync_state_of moves_config g) as [rs|] eqn:Ers; [|exfalso; exact (diff_false_true H3)].
  apply state_of_starts with (base := base) (name := DemoRun.name) in Est. apply rsync_state_recorded in Ers.
  rewrite !andb_true_iff in H3. destruct H3 as ((K1 & K2) & K3). exists st, rs.
  split; [exact Est|]. split; [exact K1|]. split; [exact Ers|].
  apply negb_true_iff, bool_decide_eq_false in K2. split; [exact K2|].
  rewrite forallb_forall in K3. intros o Ho%elem_of_list_In%K3. apply negb_true_iff, bool_decide_eq_false in Ho. exact Ho.
Qed.
Opaque mv_killed mv_tree live_doc live_docs run.
Lemma mv_says f : source_says moves_config live_env f live_doc.
Proof. exact (live_says f). Qed.
Example C72_applies : exists f st rs w, let c := moves_config in let e := live_env in
  f ∈ instants c e mv_tree /\ mv_tree !! current_path c <> None /\ f !! current_path c = None /\
  tended_moves rec_source c base DemoRun.name (e_ext e) f /\ starts_from c base DemoRun.name f st /\ newer st live_n /\
  recorded_rsync c f rs /\ ~ blocked c f /\ rs_current rs <> Some (revision_of live_n) /\
  run c e f = (Ok tt, w) /\
    exists ds, w_fs w !! notif_path c DemoRun.name = Some (File (x_write_notif live_ext
      (mkNotif uuid_A 5 (n_snap_uri live_n) (n_snap_hash live_n) ds)) None).
Proof.
  destruct (mv_check_spec _ _ mv_check_ok) as (Hg & Hf & st & rs & Est & H & Ers & Hcur & Hold).
  apply andb_true_iff in H as [H1 H2]. apply bool_decide_eq_true in H2.
  assert (Hnew : newer st live_n).
  { unfold newer. destruct (st_snap st) as [s|]; [|exact I]. apply bool_decide_eq_true in H1. right. rewrite H1. vm_compute. reflexivity. }
  change (public_path moves_config (snap_rel uuid_A 5) ∉ (dp_path <$> st_deprecated st) ++ ((fun x => public_path moves_config x.1) <$> state_files st)) in H2.
  assert (Hb : ~ blocked moves_config mv_killed) by (intros [Hb _]; rewrite Hg in Hb; congruence).
  destruct (C72_recovers rec_source moves_config base DemoRun.name live_env mv_killed st live_doc live_n live_n rs live_els) as (w & Hw & ds & Hds).
  - exact mv_cfg.
  - exact mv_fitting.
  - exact mv_tended.
  - reflexivity.
  - intros k op. reflexivity.
  - reflexivity.
  - intros k p Hp. apply elem_of_nil in Hp. contradiction.
  - exact (rec_offers_5 mv_killed).
  - exact Est.
  - intros _. split; [exact Ers|]. split; [exact Hb|]. split; [exact Hcur|exact Hold].
  - exact (mv_says _).
  - apply live_parsed.
  - exact live_sorted.
  - exact Hnew.
  - exact (live_available mv_killed).
  - exact live_nodup.
  - apply live_snapshot.
  - exact live_objects.
  - intros rel Hr Hbk. change (n_snap_uri live_n) with (base +:+ snap_rel uuid_A 5) in Hr. apply sapp_inv_head in Hr as <-. apply H2.
    apply elem_of_app. destruct Hbk as [(d & Hd & ->)|(r & h & Hin & ->)].
    + left. exact (elem_of_list_fmap_1 dp_path _ _ Hd).
    + right. exact (elem_of_list_fmap_1 (fun x => public_path moves_config x.1) _ _ Hin).
  - exists mv_killed, st, rs, w. cbv zeta. split; [exact mv_instant|]. split; [exact Hf|]. split; [exact Hg|].
    split; [exact mv_tended|]. split; [exact Est|]. split; [exact Hnew|]. split; [exact Ers|]. split; [exact Hb|]. split; [exact Hcur|].
    split; [exact Hw|]. exists ds. exact Hds.
Qed.
Transparent mv_killed mv_tree live_doc live_docs run.

Print Assumptions C72_recovers.
Print Assumptions C72_iff.
