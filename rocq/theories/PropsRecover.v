(** * C66: a mirror recovers by itself *)
From Coq Require Import ZifyN ZifyNat ZifyBool.
From Verif Require Import Way PropsLiveTal HistoryProofs RunView RunFate.
From Verif Require Import DemoRun DemoTree Refuted PropsDecide ReadBack TreeWalk PropsHoldsRequests PropsHoldsFresh PropsValidator PropsSource.
From Verif Require Import Live FsWf.

(** ** Specification *)
(** [P]: the notifications that the source has ever offered *)
Definition listed_name (P : notification -> Prop) (base rel : string) : Prop :=
  exists n h, P n /\ (base +:+ rel, h) ∈ refs n.
(** an object of a snapshot of the source *)
Definition object_of (x : ext) (n : notification) (u : rsync_uri) : Prop :=
  exists b o, x_hash x b = n_snap_hash n /\ (u, o) ∈ (x_snapshot x b).1.

(** All that a mirror of this source ever has as a file ... *)
Inductive file_place (P : notification -> Prop) (c : config) (base name : string) (x : ext) : path -> Prop :=
| fp_staged rel : listed_name P base rel -> file_place P c base name x (staging_path c rel)
| fp_public rel : listed_name P base rel -> file_place P c base name x (public_path c rel)
| fp_fixed p : p ∈ [staging_dir c ++ [name]; notif_path c name; notif_tmp c name; rrdp_state_path c; rsync_state_path c] ->
    file_place P c base name x p
| fp_object n u : P n -> object_of x n u -> file_place P c base name x (rev_dir c (revision_of n) ++ object_rel c u).
(** ... and the directories of rsync revisions *)
Definition dir_place (c : config) (p : path) : Prop := exists r, p `prefix_of` rev_dir c r.

(** A source whose files fit into one tree: the names are proper (see
    [good_notif]) and URIs, no notification lists a URI with two hashes, no
    listed name is below another one, and no object's name is below that of
    another object of the same revision. *)
Record fitting (P : notification -> Prop) (c : config) (base name : string) (x : ext) : Prop := {
  fi_names : forall n, P n -> good_notif base name n;
  fi_hash : forall n, P n -> one_hash n;
  fi_uris : forall n u h, P n -> (u, h) ∈ refs n -> x_https_ok x u = true;
  fi_objects : clean_snapshots x;
  fi_apart : forall rel rel', listed_name P base rel -> listed_name P base rel' ->
    ~ below (split_on slash rel) (split_on slash rel');
  fi_objects_apart : forall n n' u u', P n -> P n' -> revision_of n = revision_of n' ->
    object_of x n u -> object_of x n' u' -> ~ below (object_rel c u) (object_rel c u') }.

(** The history of such a mirror: it starts with no state file and nothing in
    the way; runs may complete, fail, or be killed at any instant; others may
    change what krill-sync does not own, but put no file or link where it needs
    a directory.  (Without force-moves: [current] is a symbolic link.) *)
Inductive tended (P : notification -> Prop) (c : config) (base name : string) (x : ext) : fs -> Prop :=
| td_start f : wf f -> f !! rrdp_state_path c = None -> no_links (staging_dir c) f ->
    clear_way (file_place P c base name x) (dir_place c) f ->
    f !! current_path c <> Some Dir -> f !! (c_rsync_dir c ++ ["current.tmp"]) = None -> tended P c base name x f
| td_run f c' e g : tended P c base name x f ->
    same_places c c' -> c_include_host c' = c_include_host c -> c_force_moves c' = false ->
    e_ext e = x -> no_bad_304 e -> (forall n, offers c' e f n -> P n) ->
    g ∈ instants c' e f -> tended P c base name x g
| td_else f g : tended P c base name x f -> wf g -> (forall p, owned c p -> g !! p = f !! p) ->
    (forall d, dirs (file_place P c base name x) (dir_place c) d -> d <> [] -> dir_or_none g d) -> tended P c base name x g.

(** ** Proofs *)
Inductive area := ASt | ARr | ASp | AYp | AYy.
Global Instance area_eq_dec : EqDecision area.
Proof. solve_decision. Defined.

Section fitting.
  Context (P : notification -> Prop) (c : config) (base name : string) (x : ext).
  Context (Hc : cfg_ok c base name) (Hfit : fitting P c base name x).
  Notation T := (file_place P c base name x).
  Notation D := (dir_place c).

  Lemma listed_good rel : listed_name P base rel -> good_rel name rel.
  Proof using Hfit. intros (n & h & Hn & Hin). by eapply (fi_names _ _ _ _ _ Hfit n Hn). Qed.
  Lemma object_ne u : clean_uri u -> object_rel c u <> [].
  Proof using.
    intros _. unfold object_rel. intros [_ E]%app_eq_nil. by apply split_on_nonempty in E.
  Qed.
  Lemma object_clean n u : object_of x n u -> clean_uri u.
  Proof using Hfit. intros (b & o & _ & Hin). by eapply (fi_objects _ _ _ _ _ Hfit). Qed.

  Lemma place_ne t : T t -> t <> [].
  Proof using Hc Hfit.
    intros [rel Hl|rel Hl|p Hp|n u Hn Ho].
    - rewrite staging_path_clean by apply (listed_good _ Hl). intros [_ E]%app_eq_nil. by apply split_on_nonempty in E.
    - intros [_ E]%app_eq_nil. by apply split_on_nonempty in E.
    - rewrite !elem_of_cons in Hp. destruct Hp as [->|[->|[->|[->|[->|Hp%elem_of_nil]]]]]; [..|done].
      1-3: by intros [_ E]%app_eq_nil.
      + apply state_path_ne.
      + apply rsync_state_path_ne.
    - intros [[_ E]%app_eq_nil _]%app_eq_nil. done.
  Qed.
  Lemma dir_up d d' : D d -> below d' d -> D d'.
  Proof using. intros (r & Hr) [Hb _]. exists r. by etransitivity. Qed.
  Lemma dir_rev r : D (rev_path c r).
  Proof using. exists r. by rewrite rev_dir_eq. Qed.

  (** where the places are *)
  Definition root (a : area) : path :=
    match a with ASt => staging_dir c | ARr => c_rrdp_dir c | ASp => rrdp_state_path c | AYp => rsync_state_path c | AYy => c_rsync_dir c end.
  Lemma roots_apart a b : a <> b -> apart (root a) (root b).
  Proof using Hc.
    assert (H1 : apart (staging_dir c) (rrdp_state_path c)) by (rewrite staging_eq, rrdp_state_eq; by apply apart_names).
    assert (H2 : apart (staging_dir c) (rsync_state_path c)) by (rewrite staging_eq, rsync_state_eq; by apply apart_names).
    assert (H3 : apart (rrdp_state_path c) (rsync_state_path c)) by (rewrite rrdp_state_eq, rsync_state_eq; by apply apart_names).
    destruct Hc. destruct a, b; cbn; intros Hn; try done; by apply apart_sym.
  Qed.
  Inductive shape : area -> path -> Prop :=
  | sh_rel a rel : a = ASt \/ a = ARr -> listed_name P base rel -> shape a (split_on slash rel)
  | sh_name a s : a = ASt \/ a = ARr -> s = name \/ s = name +:+ ".tmp" -> shape a [s]
  | sh_rec a : a = ASp \/ a = AYp -> shape a []
  | sh_obj n u : P n -> object_of x n u -> shape AYy (dir_name (revision_of n) :: object_rel c u).
  Lemma place_shape t : T t -> exists a q, t = root a ++ q /\ shape a q.
  Proof using Hfit.
    intros [rel Hl|rel Hl|p Hp|n u Hn Ho].
    - exists ASt, (split_on slash rel). rewrite staging_path_clean by apply (listed_good _ Hl). split; [done|]. constructor; auto.
    - exists ARr, (split_on slash rel). split; [done|]. constructor; auto.
    - rewrite !elem_of_cons in Hp. destruct Hp as [->|[->|[->|[->|[->|Hp%elem_of_nil]]]]]; [..|done].
      + exists ASt, [name]. split; [done|]. constructor; auto.
      + exists ARr, [name]. split; [done|]. constructor; auto.
      + exists ARr, [name +:+ ".tmp"]. split; [done|]. constructor; auto.
      + exists ASp, []. rewrite app_nil_r. split; [done|]. constructor; auto.
      + exists AYp, []. rewrite app_nil_r. split; [done|]. constructor; auto.
    - exists AYy, (dir_name (revision_of n) :: object_rel c u). unfold rev_dir. rewrite <- app_assoc. split; [done|]. by constructor.
  Qed.
  Lemma same_area a b q p : under (root a) p -> p `prefix_of` root b ++ q -> a = b.
  Proof using Hc.
    intros H1 H2. destruct (decide (a = b)) as [|Hn]; [done|]. exfalso.
    apply (apart_disjoint (root a) (root b) (root b ++ q)); [by apply roots_apart|by etransitivity|apply under_app].
  Qed.
  Lemma below_tail a q q' : below (root a ++ q) (root a ++ q') -> below q q'.
  Proof using. intros [H1%prefix_app_inv H2]. split; [done|]. by intros ->. Qed.
  Lemma below_one q s : below q [s] -> q = [].
  Proof using.
    intros [H1 H2]. destruct q as [|y q]; [done|]. exfalso. apply H2.
    rewrite (prefix_cons_inv_1 _ _ _ _ H1). apply prefix_cons_inv_2, prefix_nil_inv in H1 as ->. done.
  Qed.
  Lemma shapes_apart a q q' : shape a q -> shape a q' -> ~ below q q'.
  Proof using Hfit.
    intros H1 H2 Hb. destruct H1 as [a rel Ha Hl|a s Ha Hs|a Ha|n u Hn Ho].
    - inversion H2 as [a' rel' Ha' Hl'|a' s' Ha' Hs'|a' Ha'|n' u' Hn' Ho']; subst.
      + exact (fi_apart _ _ _ _ _ Hfit rel rel' Hl Hl' Hb).
      + apply below_one in Hb. by apply split_on_nonempty in Hb.
      + destruct Hb as [Hb _]. apply prefix_nil_inv in Hb. by apply split_on_nonempty in Hb.
      + by destruct Ha.
    - inversion H2 as [a' rel' Ha' Hl'|a' s' Ha' Hs'|a' Ha'|n' u' Hn' Ho']; subst.
      + destruct (listed_good _ Hl') as (_ & G1 & G2). destruct Hb as [[k Ek] _]. rewrite Ek in G1, G2. cbn in G1, G2. by destruct Hs.
      + by apply below_one in Hb.
      + destruct Hb as [Hb _]. by apply prefix_nil_inv in Hb.
      + by destruct Ha.
    - inversion H2 as [a' rel' Ha' Hl'|a' s' Ha' Hs'|a' Ha'|n' u' Hn' Ho']; subst.
      + by destruct Ha as [-> | ->], Ha'.
      + by destruct Ha as [-> | ->], Ha'.
      + by destruct Hb.
      + by destruct Ha.
    - inversion H2 as [a' rel' Ha' Hl'|a' s' Ha' Hs'|a' Ha'|n' u' Hn' Ho']; subst.
      + by destruct Ha'.
      + by destruct Ha'.
      + by destruct Ha'.
      + destruct Hb as [Hb1 Hb2]. pose proof (prefix_cons_inv_1 _ _ _ _ Hb1) as Er. apply dir_name_inj in Er.
        apply prefix_cons_inv_2 in Hb1. eapply (fi_objects_apart _ _ _ _ _ Hfit n n' u u'); try done. split; [done|].
        intros E. apply Hb2. by rewrite Er, E.
  Qed.
  Lemma place_apart t : T t -> ~ dirs T D t.
  Proof using Hc Hfit.
    intros Ht. destruct (place_shape t Ht) as (a & q & -> & Hq). intros [(t' & Ht' & Hb)|(r & Hr)].
    - destruct (place_shape t' Ht') as (b & q' & -> & Hq').
      assert (a = b) as <- by (eapply same_area; [|apply Hb]; apply under_app).
      eapply shapes_apart; [exact Hq|exact Hq'|]. by eapply below_tail.
    - assert (a = AYy) as -> by (eapply (same_area a AYy); [apply under_app|exact Hr]).
      unfold rev_dir in Hr. apply prefix_app_inv in Hr. inversion Hq as [a' rel' Ha' Hl'|a' s' Ha' Hs'|a' Ha'|n' u' Hn' Ho']; subst.
      + by destruct Ha'.
      + by destruct Ha'.
      + by destruct Ha'.
      + apply prefix_cons_inv_2, prefix_nil_inv in Hr. apply (object_ne u'); [by eapply object_clean|done].
  Qed.
  (** other entries of the rsync directory *)
  Lemma entry_free s : (forall r, dir_name r <> s) -> ~ T (c_rsync_dir c ++ [s]) /\ ~ dirs T D (c_rsync_dir c ++ [s]).
  Proof using Hc Hfit.
    intros Hs.
    assert (Hsh : forall t, T t -> c_rsync_dir c ++ [s] `prefix_of` t -> False).
    { intros t Ht Hp. destruct (place_shape t Ht) as (a & q & -> & Hq).
      assert (AYy = a) as <- by (eapply same_area; [|exact Hp]; apply under_app). cbn [root] in Hp. apply prefix_app_inv in Hp.
      inversion Hq as [a' rel' Ha' Hl'|a' s' Ha' Hs'|a' Ha'|n' u' Hn' Ho']; subst; [by destruct Ha'..|].
      apply prefix_cons_inv_1 in Hp. by eapply Hs. }
    split; [intros Ht; by eapply Hsh|]. intros [(t & Ht & Hb)|(r & Hr)]; [eapply Hsh; [exact Ht|apply Hb]|].
    unfold rev_dir in Hr. apply prefix_app_inv, prefix_cons_inv_1 in Hr. by eapply Hs.
  Qed.
  Lemma current_free : ~ T (rsync_current c) /\ ~ dirs T D (rsync_current c).
  Proof using Hc Hfit. rewrite rsync_current_eq. apply entry_free. intros r. apply rev_dir_name. Qed.
  Lemma tmp_free : ~ T (link_tmp c) /\ ~ dirs T D (link_tmp c).
  Proof using Hc Hfit. rewrite link_tmp_eq. apply entry_free. intros r. apply rev_dir_name. Qed.
End fitting.

(** *** The record knows only files that the source has listed *)
Definition drawn (P : notification -> Prop) (c : config) (base : string) (st : rrdp_state) : Prop :=
  (forall d, d ∈ st_deprecated st -> exists rel, listed_name P base rel /\ dp_path d = public_path c rel) /\
  (forall rel h, (rel, h) ∈ state_files st -> listed_name P base rel).

Section drawn.
  Context (P : notification -> Prop) (c : config) (base name : string) (e : env) (f : fs).
  Context (Hs : sane c base name e f) (HP : forall n, offers c e f n -> P n).
  Context (Hd : forall st, starts_from c base name f st -> drawn P c base st).

  Lemma drawn_new st n0 n sg f1 v st' f2 cb st2 f3 f4 :
    at_notify c base name e f st n0 n sg f1 v st' f2 cb st2 f3 f4 -> drawn P c base st2.
  Proof using Hs HP Hd.
    intros Ha. pose proof (an_rsync _ _ _ _ _ _ _ _ _ _ _ _ _ _ _ _ _ Ha) as Har.
    pose proof (ar_cleaned _ _ _ _ _ _ _ _ _ _ _ _ _ _ _ _ Har) as Hcl.
    assert (Hcd : at_clean c base name e f st n0 n sg f1 v st' f2) by apply Har.
    pose proof (ac_move _ _ _ _ _ _ _ _ _ _ _ _ _ Hcd) as Hmv. pose proof (ac_merged _ _ _ _ _ _ _ _ _ _ _ _ _ Hcd) as Hm.
    pose proof (am_start _ _ _ _ _ _ _ _ _ _ Hmv) as Hst. destruct (Hd _ Hst) as [D1 D2].
    pose proof (start_good _ _ _ _ _ Hs _ Hst) as Hg.
    assert (Hent : forall en, en ∈ staged_entries sg -> listed_name P base en.1).
    { intros en Hen. destruct (entry_ref _ _ _ _ _ Hs _ _ _ _ _ _ Hmv Hen) as ([Hoff Hsv] & _ & Hin).
      exists n0, en.2. split; [by apply HP|]. by eapply sav_refs. }
    assert (Hdel : forall d, d ∈ st_deltas st -> listed_name P base (ds_rel d)).
    { intros d Hin. apply (D2 _ (ds_hash d)). unfold state_files. apply elem_of_app. right. apply elem_of_list_fmap. by exists d. }
    assert (Hkg : forall d, d ∈ kept st sg \/ d ∈ gone st sg -> d ∈ st_deltas st).
    { intros d Hin. unfold kept, gone in Hin. destruct (sg_reset sg).
      - destruct Hin as [Hin|Hin]; [by apply elem_of_nil in Hin|done].
      - rewrite <- (split_before_app (sg_cutoff sg)). by apply elem_of_app. }
    split.
    - intros d Hin. rewrite Hcl in Hin. cbn in Hin. apply elem_of_list_filter in Hin as [_ Hin].
      destruct (mg_deprecated _ _ _ _ Hm) as (deps & M1 & M2 & _). rewrite M1 in Hin.
      apply elem_of_app in Hin as [Hin|Hin]; [by apply D1|].
      assert (Hdr : dp_path d ∈ dropped (set_validator st v) sg) by (rewrite <- M2; apply elem_of_list_fmap; by exists d).
      unfold dropped in Hdr. apply elem_of_app in Hdr as [Hdr|Hdr].
      + unfold snapshot_path in Hdr. cbn [st_snap set_validator st_map] in Hdr.
        destruct (st_snap st) as [s|] eqn:Es; [|by apply elem_of_nil in Hdr]. cbn in Hdr. apply elem_of_list_singleton in Hdr.
        exists (ss_rel s). split; [apply (D2 _ (ss_hash s)); unfold state_files; rewrite Es; by left|].
        rewrite Hdr, (gs_map _ _ _ _ Hg). unfold mp_path. cbn. rewrite path_join_clean; [done|]. by apply (gs_snap _ _ _ _ Hg).
      + apply elem_of_list_fmap in Hdr as (d' & Ed & Hd'). cbn [st_map set_validator] in Ed.
        assert (Hd2 : d' ∈ st_deltas st) by (apply Hkg; by right). exists (ds_rel d'). split; [by apply Hdel|].
        rewrite Ed, (gs_map _ _ _ _ Hg). unfold mp_path. cbn. rewrite path_join_clean; [done|]. by apply (gs_deltas _ _ _ _ Hg).
    - intros rel h Hin. unfold state_files in Hin. rewrite Hcl in Hin. cbn in Hin. rewrite (mg_snap _ _ _ _ Hm), (mg_deltas _ _ _ _ Hm) in Hin.
      cbn in Hin. apply elem_of_cons in Hin as [[= -> ->]|(d & [= -> ->] & Hin)%elem_of_list_fmap].
      + apply (Hent (ss_rel (sg_snap sg), ss_hash (sg_snap sg))). constructor.
      + rewrite elem_of_reverse, sort_by_key_perm, elem_of_app in Hin. destruct Hin as [Hin|Hin].
        * apply Hdel, Hkg. by left.
        * apply (Hent (ds_rel d, ds_hash d)). right. apply elem_of_list_fmap. by exists d.
  Qed.
  Lemma drawn_instants g st1 : g ∈ instants c e f -> starts_from c base name g st1 -> drawn P c base st1.
  Proof using Hs HP Hd.
    intros Hg%(instant_phase c base name e f Hs) Hst. pose proof (sn_cfg _ _ _ _ _ Hs) as Hc.
    destruct Hg as [H|st n0 n sg f1 v st' f2 cb st2 f3 f4 n' H1 H2 H3|st n0 n sg f1 v st' f2 cb st2 f3 f4 n' f5 H1 H2].
    - apply Hd. eapply start_plain; [exact Hs| |exact Hst]. by eapply front_sp.
    - apply Hd. eapply start_plain; [exact Hs| |exact Hst]. by eapply notify_sp.
    - pose proof H1 as [H1a H1b H1c H1d].
      destruct (saved_state c base name Hc e f Hs f5 g st2 st1) as [H|[v' ->]]; try done.
      + eapply save_good; [exact Hs|exact H1a].
      + by eapply notify_sp.
      + by apply Hd.
      + destruct (drawn_new _ _ _ _ _ _ _ _ _ _ _ _ H1a). by split.
  Qed.
End drawn.

(** *** The invariant *)
Section tended.
  Context (P : notification -> Prop) (c : config) (base name : string) (x : ext).
  Context (Hc : cfg_ok c base name) (Hfit : fitting P c base name x).
  Notation T := (file_place P c base name x).
  Notation D := (dir_place c).

  (** [L]: what else may be in the directories of revisions *)
  Record tinv (L : path -> Prop) (g : fs) : Prop := {
    ti_mirror : mirror any_notif c base name g;
    ti_links : no_links (staging_dir c) g;
    ti_way : way c T D L g;
    ti_drawn : forall st, starts_from c base name g st -> drawn P c base st }.

  Lemma drawn_first : drawn P c base (first_state c base name).
  Proof using. split; [intros d Hd; by apply elem_of_nil in Hd|intros rel h Hin; by apply elem_of_nil in Hin]. Qed.

  Lemma tinv_run L f c' e g : tinv L f -> same_places c c' -> c_include_host c' = c_include_host c -> c_force_moves c' = false ->
    e_ext e = x -> no_bad_304 e -> (forall n, offers c' e f n -> P n) -> g ∈ instants c' e f -> tinv L g.
  Proof using Hc Hfit.
    intros [I1 I2 I3 I4] Hpl Hih Hfm Hx H304 HP Hg.
    assert (Hgw : good_world c' base name e f).
    { split; [intros n Hn; by apply (fi_names _ _ _ _ _ Hfit), HP|]. rewrite Hx. apply (fi_objects _ _ _ _ _ Hfit). }
    assert (Hs : sane c' base name e f) by (by eapply mirror_sane).
    assert (Hh : honest_run c' e f).
    { split; [done|]. split; [by rewrite (places_s c c' Hpl)|]. intros n0 Hn. by apply (fi_hash _ _ _ _ _ Hfit), HP. }
    destruct Hpl as (P1 & P2 & P3 & P4) eqn:EHpl. pose proof EHpl as _. clear EHpl.
    assert (Hpl' : same_places c c') by done.
    assert (Es : forall rel, staging_path c' rel = staging_path c rel) by (intros; unfold staging_path; by rewrite (places_s c c' Hpl')).
    assert (Ep : forall rel, public_path c' rel = public_path c rel) by (intros; apply (places_public c c' Hpl')).
    assert (Ey : rsync_state_path c' = rsync_state_path c) by (unfold rsync_state_path; by rewrite P2).
    assert (Ec : rsync_current c' = rsync_current c) by (by rewrite !rsync_current_eq, P4).
    assert (Et : link_tmp c' = link_tmp c) by (by rewrite !link_tmp_eq, P4).
    assert (Er : forall r, rev_path c' r = rev_path c r) by (intros; by rewrite !rev_path_eq, P4).
    assert (Hway : forall h, way c' T D L h <-> way c T D L h).
    { intros h. unfold way, tmp_fine. rewrite Ec, Et.
      assert (Hti : tidy c' T D L h <-> tidy c T D L h).
      { split; intros Hti r p nd; [rewrite <- Er|rewrite Er]; apply Hti. }
      rewrite Hti. split; intros (H1 & H2 & H3); (split; [done|]; split; [done|]);
        (destruct H3 as [H3|(r & H3 & H4)]; [by left|right; exists r]); [by rewrite <- Er|by rewrite Er]. }
    assert (Hd' : forall st, starts_from c' base name f st -> drawn P c' base st).
    { intros st Hst. apply (places_starts c c' base name Hpl') in Hst. destruct (I4 _ Hst) as [D1 D2]. split; [|done].
      intros d Hin. destruct (D1 d Hin) as (rel & H1 & H2). exists rel. by rewrite Ep. }
    split.
    - eapply mi_run; [exact I1|done|done|done|exact Hg].
    - rewrite <- (places_s c c' Hpl'). eapply (phase_links c' base name e f Hs Hh). by apply instant_phase.
    - apply Hway. destruct (current_free P c base name x Hc Hfit) as [Z1 Z2]. destruct (tmp_free P c base name x Hc Hfit) as [Z3 Z4].
      assert (Hpn : notif_path c' name = notif_path c name /\ notif_tmp c' name = notif_tmp c name).
      { unfold notif_path, notif_tmp. by rewrite P3. }
      eapply (way_instants c' base name e f T D L Hs Hh).
      + intros t. by apply place_ne.
      + intros t. by apply place_apart.
      + intros d d'. by apply dir_up.
      + intros r. rewrite Er. apply dir_rev.
      + by rewrite Ec.
      + by rewrite Ec.
      + by rewrite Et.
      + by rewrite Et.
      + unfold use_symlinks. by rewrite Hfm.
      + destruct Hpn as [N1 N2]. rewrite (places_s c c' Hpl'), N1, N2, (places_sp c c' Hpl'), Ey. apply fp_fixed.
      + intros n0 u h rel Hn Hin ->. rewrite Es, Ep. assert (Hl : listed_name P base rel) by (exists n0, h; auto).
        split; [by apply fp_staged|by apply fp_public].
      + intros st p Hst Hb. destruct (Hd' _ Hst) as [D1 D2]. destruct Hb as [(d & Hin & ->)|(rel & h & Hin & ->)].
        * destruct (D1 d Hin) as (rel & H1 & ->). rewrite Ep. by apply fp_public.
        * rewrite Ep. apply fp_public. by eapply D2.
      + intros n0 b u o Hn Hb Hin. rewrite Er, Hih, rev_dir_eq. rewrite Hx in Hb, Hin.
        rewrite object_path_rel by (by eapply (fi_objects _ _ _ _ _ Hfit)).
        apply (fp_object _ _ _ _ _ n0 u); [by apply HP|]. by exists b, o.
      + by apply Hway.
      + exact Hg.
    - intros st Hst. apply (places_starts c c' base name Hpl') in Hst.
      destruct (drawn_instants P c' base name e f Hs HP Hd' g st Hg Hst) as [D1 D2]. split; [|done].
      intros d Hin. destruct (D1 d Hin) as (rel & H1 & H2). exists rel. by rewrite <- Ep.
  Qed.

  Lemma tinv_start L f : wf f -> f !! rrdp_state_path c = None -> no_links (staging_dir c) f ->
    clear_way T D f -> f !! current_path c <> Some Dir -> f !! (c_rsync_dir c ++ ["current.tmp"]) = None ->
    tidy c T D L f -> tinv L f.
  Proof using Hc.
    intros H1 H2 H3 H4 H5 H6 H7. split; [by apply mi_start|done| |].
    - split; [split; [done|split; apply H4]|]. split; [split; [by rewrite current_eq|done]|]. left. left. by rewrite link_tmp_eq.
    - intros st [[Hx _]|[_ ->]]; [|apply drawn_first].
      unfold fs_exists, fs_stat in Hx. rewrite fs_get_nonroot, H2 in Hx by apply state_path_ne. done.
  Qed.
  Lemma tinv_else L f g : tinv L f -> wf g -> (forall p, owned c p -> g !! p = f !! p) ->
    (forall d, dirs T D d -> d <> [] -> dir_or_none g d) -> tinv L g.
  Proof using Hc Hfit.
    intros [I1 I2 I3 I4] H1 H2 H3.
    assert (Hy : forall q, under (c_rsync_dir c) q -> g !! q = f !! q) by (intros q Hq; apply H2; right; right; by left).
    split; [by eapply mi_else| | |].
    - intros p t Hp. rewrite H2 by (by left). by apply I2.
    - destruct I3 as ((R1 & R2 & R3) & [R4 R4t] & R5). split; [split; [done|split; [|done]]|split; [split|]].
      + intros t Ht. unfold file_or_none. rewrite H2; [by apply R2|].
        destruct (place_shape P c base name x Hfit t Ht) as (a & q & -> & Hq). unfold owned. destruct a; cbn [root].
        * left. apply under_app.
        * right. left. apply under_app.
        * inversion Hq as [? ? [|]|? ? [|]|? [|]|]; subst; try done. rewrite app_nil_r. auto.
        * inversion Hq as [? ? [|]|? ? [|]|? [|]|]; subst; try done. rewrite app_nil_r. auto.
        * right. right. left. apply under_app.
      + rewrite Hy; [done|]. rewrite rsync_current_eq. apply under_app.
      + intros r p nd Hp E. rewrite Hy in E; [by eapply R4t|]. eapply under_trans; [|exact Hp]. rewrite rev_path_eq. apply under_app.
      + unfold tmp_fine, file_or_none. rewrite Hy by (rewrite link_tmp_eq; apply under_app).
        destruct R5 as [R5|(r & R5 & R6)]; [by left|]. right. exists r. split; [done|]. rewrite Hy; [done|].
        rewrite rev_path_eq. apply under_app.
    - intros st Hst. apply I4. eapply starts_plain; [|by eapply (mirror_own any_notif)|exact Hst]. apply H2, owned_sp.
  Qed.
  Lemma tended_inv f : tended P c base name x f -> tinv (fun _ => True) f.
  Proof using Hc Hfit.
    induction 1 as [f H1 H2 H3 H4 H5 H6|f c' e g Hf IH H1 H2 H3 H4 H5 H6 H7|f g Hf IH H1 H2 H3].
    - apply tinv_start; try done. intros r p nd _ _. by left.
    - by eapply tinv_run.
    - by eapply tinv_else.
  Qed.

  (** What stands in the way of a run: nothing *)
  Lemma tended_clear f st e n0 n els rs : tended P c base name x f -> e_ext e = x -> starts_from c base name f st ->
    P n0 -> sort_and_verify x (c_max_deltas c) n0 = Some (n, true) ->
    (forall b, x_hash x b = n_snap_hash n -> x_snapshot x b = (els, true)) -> (exists b, x_hash x b = n_snap_hash n) ->
    clear_way (run_files c base name st n els) (run_dirs c rs (revision_of n)) f /\
    f !! rsync_current c <> Some Dir /\ tmp_fine c f /\
    (forall d, d ∈ st_deltas st -> x_https_ok x (base +:+ ds_rel d) = true).
  Proof using Hc Hfit.
    intros [I1 I2 ((R1 & R2 & R3) & [R4 _] & R5) I4]%tended_inv Hx Hst Hn Hsv Hel [b0 Hb0]. destruct (I4 _ Hst) as [D1 D2].
    destruct (sav_same _ _ _ _ _ Hsv) as (B1 & B2 & B3 & B4).
    assert (HT : forall t, run_files c base name st n els t -> T t).
    { intros t [(u & h & rel & Hin & -> & Ht)|[Ht|[[(d & Hd & ->)|(rel & h & Hin & ->)]|[_ [-> |(u & o & Hin & ->)]]]]].
      - assert (Hl : listed_name P base rel) by (exists n0, h; split; [done|by eapply sav_refs]).
        destruct Ht as [-> | ->]; [by apply fp_staged|by apply fp_public].
      - apply fp_fixed. rewrite !elem_of_cons in *. naive_solver.
      - destruct (D1 d Hd) as (rel & H1 & ->). by apply fp_public.
      - apply fp_public. by eapply D2.
      - apply fp_fixed. do 4 right. by left.
      - replace (revision_of n) with (revision_of n0) by (unfold revision_of; by rewrite B1, B2).
        apply fp_object; [done|]. exists b0, o. split; [by rewrite <- B4|]. by rewrite (Hel _ Hb0). }
    assert (HD : forall d, dirs (run_files c base name st n els) (run_dirs c rs (revision_of n)) d -> dirs T D d).
    { intros d [(t & Ht & Hb)|(_ & r & _ & Hr)]; [left; exists t; split; [by apply HT|done]|right; by exists r]. }
    split; [|split; [done|split; [done|]]].
    - split.
      + intros t Ht Hd. apply (place_apart P c base name x Hc Hfit t); [by apply HT|by apply HD].
      + intros t Ht. by apply R2, HT.
      + intros d Hd. by apply R3, HD.
    - intros d Hd. destruct (D2 (ds_rel d) (ds_hash d)) as (n' & h & H1 & H2).
      + unfold state_files. apply elem_of_app. right. apply elem_of_list_fmap. by exists d.
      + by eapply (fi_uris _ _ _ _ _ Hfit).
  Qed.
End tended.

(** ** C66 *)
(** A mirror of such a source, after any such history.  The records are readable
    (a kill can tear them, see C17 and C63), nothing fails in the run, the source
    has something newer, and all its files are there to be had: then the run
    completes, and the notification file served is that of the new version.
    Whatever earlier runs have left behind, nothing of it is in the way. *)
Theorem C66_recovers P c base name e f st doc n0 n rs els :
  cfg_ok c base name -> fitting P c base name (e_ext e) -> tended P c base name (e_ext e) f -> c_force_moves c = false ->
  no_faults e -> c_tal_files c = [] -> scripts_fine c e -> (forall n', offers c e f n' -> P n') ->
  starts_from c base name f st -> (rsync_enabled c = true -> recorded_rsync c f rs) ->
  source_says c e f doc -> x_parse_notif (e_ext e) doc = Some n0 ->
  usable_notif (e_ext e) (c_max_deltas c) n0 n -> newer st n ->
  (forall u h, (u, h) ∈ refs n -> available c base e f u h) -> NoDup (refs n).*1 ->
  (forall b, x_hash (e_ext e) b = n_snap_hash n -> x_snapshot (e_ext e) b = (els, true)) ->
  (forall u o, (u, o) ∈ els -> is_Some o) ->
  (forall rel, n_snap_uri n = base +:+ rel -> ~ booked c st (public_path c rel)) ->
  exists w, run c e f = (Ok tt, w) /\
    exists ds, w_fs w !! notif_path c name = Some (File (x_write_notif (e_ext e)
      (mkNotif (n_session n) (n_serial n) (n_snap_uri n) (n_snap_hash n) ds)) None).
Proof.
  intros Hc Hfit Htd Hfm He Htal Hscr HP Hst Hrs Hsay Hpn Hsv Hnew Hall Hnd Hel Hob Hfr.
  assert (Hn0 : P n0) by (by eapply HP, says_offers).
  destruct (Hall (n_snap_uri n) (n_snap_hash n)) as (rel0 & b0 & _ & _ & _ & _ & Hb0); [by left|].
  destruct (tended_clear P c base name _ Hc Hfit f st e n0 n els rs Htd eq_refl Hst Hn0 (usable_sav _ _ _ _ Hsv) Hel) as (Hcw & Hcur & Htmp & Hok); [by exists b0|].
  assert (Hset : setting c base name e f).
  { split; [done|by apply (tended_inv P c base name (e_ext e) Hc Hfit f Htd)|]. split; [|apply (fi_objects _ _ _ _ _ Hfit)].
    intros n' Hn'. by apply (fi_names _ _ _ _ _ Hfit), HP. }
  eapply C52_completes; try done. intros Hen. split; try done.
  - by apply Hrs.
  - intros u o Hin. split; [|by eapply Hob]. apply (fi_objects _ _ _ _ _ Hfit b0 u o). by rewrite (Hel _ Hb0).
  - unfold switch_ready, use_symlinks. by rewrite Hfm.
  - congruence.
Qed.

(** With trust anchors, as in [C52_with_anchors]: such a run can also be refused
    because of what it found, and nothing of that is because of the history. *)
Theorem C66_with_anchors P c base name e f st doc n0 n rs els :
  cfg_ok c base name -> fitting P c base name (e_ext e) -> tended P c base name (e_ext e) f -> c_force_moves c = false ->
  no_faults e -> scripts_fine c e -> (forall n', offers c e f n' -> P n') ->
  starts_from c base name f st -> (rsync_enabled c = true -> recorded_rsync c f rs) ->
  source_says c e f doc -> x_parse_notif (e_ext e) doc = Some n0 ->
  usable_notif (e_ext e) (c_max_deltas c) n0 n -> newer st n ->
  (forall u h, (u, h) ∈ refs n -> available c base e f u h) -> NoDup (refs n).*1 ->
  (forall b, x_hash (e_ext e) b = n_snap_hash n -> x_snapshot (e_ext e) b = (els, true)) ->
  (forall u o, (u, o) ∈ els -> is_Some o) ->
  (forall rel, n_snap_uri n = base +:+ rel -> ~ booked c st (public_path c rel)) ->
  order_ok (e_ext e) -> Forall (anchor_ready c e f) (c_tal_files c) ->
  x_parse_notif (e_ext e) (x_write_notif (e_ext e) n) = Some n ->
  exists w,
    (run c e f = (Ok tt, w) /\
     exists ds, w_fs w !! notif_path c name = Some (File (x_write_notif (e_ext e)
      (mkNotif (n_session n) (n_serial n) (n_snap_uri n) (n_snap_hash n) ds)) None)) \/
    (c_reject c = true /\ (run c e f = (Err EInvalid, w) \/ run c e f = (Err ENotSeen, w)) /\
     exists vd vd' rep k w1, w_fs w1 !! (staging_dir c ++ [name]) = Some (File (x_write_notif (e_ext e) n) None) /\
       tl_name <$> vd_tals vd = path_str <$> c_tal_files c /\
       validate_at vd (c_offline c) (e_clock e k) e w1 = (Ok (vd', rep), w) /\ trouble rep (c_notif_uri c)) \/
    (run c e f = (Panic, w) /\
     exists k v p t ta rc, p ∈ c_tal_files c /\ tl_name t = path_str p /\ ta_of e (w_fs w) (e_clock e k) t ta /\
       nsteps (kid (e_ext e) (e_clock e k) v) (e_stack e) ta rc).
Proof.
  intros Hc Hfit Htd Hfm He Hscr HP Hst Hrs Hsay Hpn Hsv Hnew Hall Hnd Hel Hob Hfr Hx Han Hrt.
  assert (Hn0 : P n0) by (by eapply HP, says_offers).
  destruct (Hall (n_snap_uri n) (n_snap_hash n)) as (rel0 & b0 & _ & _ & _ & _ & Hb0); [by left|].
  destruct (tended_clear P c base name _ Hc Hfit f st e n0 n els rs Htd eq_refl Hst Hn0 (usable_sav _ _ _ _ Hsv) Hel) as (Hcw & Hcur & Htmp & Hok); [by exists b0|].
  assert (Hset : setting c base name e f).
  { split; [done|by apply (tended_inv P c base name (e_ext e) Hc Hfit f Htd)|]. split; [|apply (fi_objects _ _ _ _ _ Hfit)].
    intros n' Hn'. by apply (fi_names _ _ _ _ _ Hfit), HP. }
  eapply C52_with_anchors; try done.
  - intros Hen. split; try done.
    + by apply Hrs.
    + intros u o Hin. split; [|by eapply Hob]. apply (fi_objects _ _ _ _ _ Hfit b0 u o). by rewrite (Hel _ Hb0).
    + unfold switch_ready, use_symlinks. by rewrite Hfm.
    + congruence.
  - intros b Hb. exists els. split; [by apply Hel|]. exact Hob.
Qed.

(** *** A case: version 4, then a run for version 5 that is killed between
    preparing the new link [current.tmp] and moving it into place, then the same
    run again *)
Definition rec_n : notification :=
  mkNotif uuid_A 4 (base +:+ snap_rel uuid_A 4) ("h:" +:+ snap_doc uuid_A 4)
    [mkDI 4 (base +:+ delta_rel uuid_A 4) ("h:" +:+ delta_doc uuid_A 4)].
Definition rec_docs : list (string * string) :=
  [(notif_uri, json_text (j_notif rec_n)); (base +:+ snap_rel uuid_A 4, snap_doc uuid_A 4); (base +:+ delta_rel uuid_A 4, delta_doc uuid_A 4)].
Definition rec_env : env := fixed_env rec_docs 500.
Definition rec_source (n : notification) : Prop := n = rec_n \/ n = live_n.
Definition rec_tree : fs := after (run demo_config rec_env start_tree).
Definition half_turned (g : fs) : bool := bool_decide (g !! link_tmp demo_config = Some (Link (dir_name (revision_of live_n)))).
Definition rec_killed : fs := killed_when demo_config live_env rec_tree half_turned.
Definition rec_rels : list string := [snap_rel uuid_A 4; delta_rel uuid_A 4; snap_rel uuid_A 5; delta_rel uuid_A 5].
Definition rec_els (n : notification) : list (rsync_uri * option string) := (safe_snapshot (snap_doc uuid_A (n_serial n))).1.

Lemma rec_listed rel : listed_name rec_source base rel -> rel ∈ rec_rels.
Proof.
  intros (n & h & Hn & Hin).
  assert (Hu : base +:+ rel ∈ (fun r => base +:+ r) <$> rec_rels).
  { assert (Hi : base +:+ rel ∈ (refs n).*1) by (apply elem_of_list_fmap; by exists (base +:+ rel, h)).
    destruct Hn as [-> | ->]; revert Hi; cbn; rewrite !elem_of_cons, elem_of_nil; tauto. }
  apply elem_of_list_fmap in Hu as (r & Hr & ?). by apply sapp_inv_head in Hr as ->.
Qed.
Lemma rec_object n u : rec_source n -> object_of live_ext n u -> u ∈ (rec_els n).*1.
Proof.
  intros Hn (b & o & Hb & Hin). cbn [x_hash live_ext] in Hb. cbn [x_snapshot live_ext] in Hin.
  assert (E : b = snap_doc uuid_A (n_serial n)) by (destruct Hn as [-> | ->]; by apply sapp_inv_head in Hb). subst b.
  apply elem_of_list_fmap. by exists (u, o).
Qed.
Definition rec_fit_check : bool :=
  forallb (fun r => forallb (fun r' => negb (bool_decide (below (split_on slash r) (split_on slash r')))) rec_rels) rec_rels &&
  forallb (fun n => forallb (fun u => forallb (fun u' =>
    negb (bool_decide (below (object_rel demo_config u) (object_rel demo_config u')))) (rec_els n).*1) (rec_els n).*1) [rec_n; live_n] &&
  forallb (fun n => good_check n && forallb (fun r => x_https_ok live_ext r.1) (refs n) && bool_decide (NoDup (refs n).*1)) [rec_n; live_n].
Lemma rec_fitting : fitting rec_source demo_config base DemoRun.name live_ext.
Proof.
  assert (H : rec_fit_check = true) by vme.
  unfold rec_fit_check in H. apply andb_true_iff in H as [[H1 H2]%andb_true_iff H3].
  assert (H4 : forall n, rec_source n -> In n [rec_n; live_n]) by (intros n [-> | ->]; [by left|right; by left]).
  rewrite forallb_forall in H1, H2, H3. split.
  - intros n Hn%H4%H3. apply andb_true_iff in Hn as [[Hn _]%andb_true_iff _]. by apply good_check_ok.
  - intros n Hn%H4%H3 u h h' Hin Hin'. apply andb_true_iff in Hn as [_ Hn%bool_decide_eq_true].
    apply elem_of_list_lookup in Hin as [i Hi]. apply elem_of_list_lookup in Hin' as [j Hj].
    assert (i = j).
    { eapply NoDup_lookup; [exact Hn| |]; rewrite list_lookup_fmap; [by rewrite Hi|by rewrite Hj]. }
    subst j. rewrite Hi in Hj. by injection Hj.
  - intros n u h Hn%H4%H3 Hin. apply andb_true_iff in Hn as [[_ Hn]%andb_true_iff _]. rewrite forallb_forall in Hn.
    by apply elem_of_list_In, Hn in Hin.
  - exact safe_clean.
  - intros r r' Hr%rec_listed%elem_of_list_In%H1 Hr'%rec_listed. rewrite forallb_forall in Hr.
    apply elem_of_list_In, Hr, negb_true_iff, bool_decide_eq_false in Hr'. done.
  - intros n n' u u' Hn Hn' E Ho Ho'.
    assert (n' = n) as -> by (destruct Hn as [-> | ->], Hn' as [-> | ->]; try done; by apply (f_equal rv_serial) in E).
    apply rec_object in Ho; [|done]. apply rec_object in Ho'; [|done]. pose proof (H2 _ (H4 _ Hn)) as H5. rewrite forallb_forall in H5.
    apply elem_of_list_In, H5 in Ho. rewrite forallb_forall in Ho.
    apply elem_of_list_In, Ho, negb_true_iff, bool_decide_eq_false in Ho'. done.
Qed.

Definition start_check (f : fs) : bool :=
  forallb (fun kv => bool_decide (kv.2 = Dir) && existsb (fun t => bool_decide (below kv.1 t))
    [staging_dir demo_config ++ [DemoRun.name]; notif_path demo_config DemoRun.name; rrdp_state_path demo_config]) (map_to_list f).
Lemma start_check_ok P x f : fitting P demo_config base DemoRun.name x -> start_check f = true ->
  clear_way (file_place P demo_config base DemoRun.name x) (dir_place demo_config) f /\ (forall p nd, f !! p = Some nd -> nd = Dir).
Proof.
  intros Hfit H. unfold start_check in H. rewrite forallb_forall in H.
  assert (Hk : forall p nd, f !! p = Some nd -> nd = Dir /\ dirs (file_place P demo_config base DemoRun.name x) (dir_place demo_config) p).
  { intros p nd Hp. apply elem_of_map_to_list, elem_of_list_In, H in Hp. apply andb_true_iff in Hp as [Hp1%bool_decide_eq_true Hp2].
    split; [done|]. apply existsb_exists in Hp2 as (t & Ht & Hb%bool_decide_eq_true). left. exists t. split; [|done].
    apply fp_fixed. apply elem_of_list_In in Ht. rewrite !elem_of_cons in *. naive_solver. }
  split; [|intros p nd Hp; by destruct (Hk p nd Hp)]. split.
  - intros t. by apply place_apart; [apply demo_cfg_ok|].
  - intros t Ht. left. destruct (f !! t) as [nd|] eqn:E; [|done]. destruct (Hk t nd E) as [_ Hd]. exfalso. revert Hd.
    by apply place_apart; [apply demo_cfg_ok|..].
  - intros d _ _. unfold dir_or_none. destruct (f !! d) as [nd|] eqn:E; [|by left]. destruct (Hk d nd E) as [-> _]. by right.
Qed.

Lemma fixed_no_304 docs t : no_bad_304 (fixed_env docs t).
Proof. intros n u m etag. cbn. unfold serve. by destruct (Demo.assoc docs u). Qed.
Lemma rec_offers docs t f n : (forall b n', Demo.assoc docs notif_uri = Some b -> x_parse_notif live_ext b = Some n' -> rec_source n') ->
  offers demo_config (fixed_env docs t) f n -> rec_source n.
Proof. intros H (b & H1 & H2)%fixed_offers. by eapply H. Qed.
Lemma rec_offers_4 f n : offers demo_config rec_env f n -> rec_source n.
Proof.
  apply rec_offers. intros b n' H1 H2. left.
  assert (E : Demo.assoc rec_docs notif_uri = Some (json_text (j_notif rec_n)) /\ x_parse_notif live_ext (json_text (j_notif rec_n)) = Some rec_n)
    by (by vm_compute).
  destruct E as [E1 E2]. rewrite E1 in H1. injection H1 as <-. rewrite E2 in H2. by injection H2 as <-.
Qed.
Lemma rec_offers_5 f n : offers demo_config live_env f n -> rec_source n.
Proof.
  apply (rec_offers live_docs 1000). intros b n' H1 H2. right. destruct live_parsed as [E1 E2]. rewrite E2 in H1. injection H1 as <-.
  rewrite E1 in H2. by injection H2 as <-.
Qed.
Lemma start_tended : tended rec_source demo_config base DemoRun.name live_ext start_tree.
Proof.
  assert (H : start_check start_tree = true) by vme.
  destruct (start_check_ok rec_source live_ext start_tree rec_fitting H) as [H1 H2]. apply td_start; [apply start_wf|by vm_compute| |done|by vm_compute|by vm_compute].
  intros p t _ E. by apply H2 in E.
Qed.
Lemma rec_tended : tended rec_source demo_config base DemoRun.name live_ext rec_killed.
Proof.
  eapply (td_run _ _ _ _ _ rec_tree demo_config live_env); [|done|done|done|done|apply (fixed_no_304 live_docs 1000)|apply rec_offers_5|apply killed_instant].
  eapply (td_run _ _ _ _ _ start_tree demo_config rec_env); [apply start_tended|done|done|done|done|apply fixed_no_304|apply rec_offers_4|apply after_instant].
Qed.
Definition rec_state_check (st : rrdp_state) : bool :=
  match st_snap st with Some s => bool_decide (ss_serial s = 4%N) | None => false end &&
  bool_decide (public_path demo_config (snap_rel uuid_A 5) ∉ (dp_path <$> st_deprecated st) ++ ((fun x => public_path demo_config x.1) <$> state_files st)).
Definition rec_check (g : fs) : bool :=
  half_turned g && match DemoRun.state_of demo_config g, rsync_state_of demo_config g with Some st, Some rs => rec_state_check st | _, _ => false end.
Lemma rec_check_ok : rec_check rec_killed = true.
Proof. vme. Qed.
Lemma live_available f u h : (u, h) ∈ refs live_n -> available demo_config base live_env f u h.
Proof.
  intros Hin. assert (Hx : exists rel b, u = base +:+ rel /\ rel ∈ live_rels /\ Demo.assoc live_docs u = Some b /\ "h:" +:+ b = h).
  { change (refs live_n) with [(base +:+ snap_rel uuid_A 5, "h:" +:+ snap_doc uuid_A 5);
      (base +:+ delta_rel uuid_A 4, "h:" +:+ delta_doc uuid_A 4); (base +:+ delta_rel uuid_A 5, "h:" +:+ delta_doc uuid_A 5)] in Hin.
    rewrite !elem_of_cons in Hin. destruct Hin as [E|[E|[E|E%elem_of_nil]]]; [injection E as -> ->..|done];
      (eexists _, _; split; [reflexivity|]; split; [unfold live_rels; rewrite !elem_of_cons; tauto|split; [vm_compute; reflexivity|vm_compute; reflexivity]]). }
  destruct Hx as (rel & b & -> & Hr & Ha & Hh). exists rel, b. split; [done|].
  assert (Hc : forallb (fun r => bool_decide (clean_rel r) && x_https_ok live_ext (base +:+ r)) live_rels = true) by (by vm_compute).
  rewrite forallb_forall in Hc. apply elem_of_list_In, Hc, andb_true_iff in Hr as [Hr1%bool_decide_eq_true Hr2].
  split; [done|]. split; [done|]. split; [|done]. unfold delivers. cbn.
  intros k etag. unfold serve. rewrite Ha. by eexists.
Qed.
Lemma live_snapshot b : x_hash live_ext b = n_snap_hash live_n -> x_snapshot live_ext b = (live_els, true).
Proof.
  intros Hb. change (n_snap_hash live_n) with ("h:" +:+ snap_doc uuid_A 5) in Hb. cbn [x_hash live_ext] in Hb.
  apply sapp_inv_head in Hb as ->. by vm_compute.
Qed.
Lemma rec_instant : rec_killed ∈ instants demo_config live_env rec_tree.
Proof. apply killed_instant. Qed.
Opaque rec_killed rec_tree live_doc live_docs.
Lemma live_says f : source_says demo_config live_env f live_doc.
Proof. intros k etag. cbn. unfold serve. rewrite (proj2 live_parsed). by eexists. Qed.
Lemma live_objects u o : (u, o) ∈ live_els -> is_Some o.
Proof.
  assert (Hel : forallb (fun el => bool_decide (is_Some el.2)) live_els = true) by (by vm_compute).
  rewrite forallb_forall in Hel. intros Hin%elem_of_list_In%Hel. exact (bool_decide_eq_true_1 _ Hin).
Qed.
Lemma live_nodup : NoDup (refs live_n).*1.
Proof. apply (bool_decide_unpack _). vm_compute. exact I. Qed.
Example C66_applies : exists f st rs w, let c := demo_config in let e := live_env in
  f ∈ instants c e rec_tree /\ f !! (c_rsync_dir c ++ ["current.tmp"]) = Some (Link (dir_name (revision_of live_n))) /\
  tended rec_source c base DemoRun.name (e_ext e) f /\ starts_from c base DemoRun.name f st /\ newer st live_n /\ recorded_rsync c f rs /\
  run c e f = (Ok tt, w) /\
    exists ds, w_fs w !! notif_path c DemoRun.name = Some (File (x_write_notif live_ext
      (mkNotif uuid_A 5 (n_snap_uri live_n) (n_snap_hash live_n) ds)) None).
Proof.
  pose proof rec_check_ok as H. unfold rec_check in H. apply andb_true_iff in H as [Hh H].
  destruct (DemoRun.state_of demo_config rec_killed) as [st|] eqn:Est; [|exfalso; exact (diff_false_true H)].
  destruct (rsync_state_of demo_config rec_killed) as [rs|] eqn:Ers; [|exfalso; exact (diff_false_true H)].
  apply state_of_starts with (base := base) (name := DemoRun.name) in Est. apply rsync_state_recorded in Ers.
  apply andb_true_iff in H as [H1 H2]. apply bool_decide_eq_true in H2.
  assert (Hnew : newer st live_n).
  { unfold newer. destruct (st_snap st) as [s|]; [|exact I]. apply bool_decide_eq_true in H1. right. rewrite H1. vm_compute. reflexivity. }
  destruct (C66_recovers rec_source demo_config base DemoRun.name live_env rec_killed st live_doc live_n live_n rs live_els) as (w & Hw & ds & Hds).
  - apply demo_cfg_ok.
  - apply rec_fitting.
  - apply rec_tended.
  - reflexivity.
  - intros k op. reflexivity.
  - reflexivity.
  - intros k p Hp. apply elem_of_nil in Hp. contradiction.
  - apply rec_offers_5.
  - exact Est.
  - intros _. exact Ers.
  - apply live_says.
  - apply live_parsed.
  - exact live_sorted.
  - exact Hnew.
  - apply live_available.
  - exact live_nodup.
  - apply live_snapshot.
  - exact live_objects.
  - intros rel Hr Hb. change (n_snap_uri live_n) with (base +:+ snap_rel uuid_A 5) in Hr. apply sapp_inv_head in Hr as <-. apply H2.
    apply elem_of_app. destruct Hb as [(d & Hd & ->)|(r & h & Hin & ->)].
    + left. exact (elem_of_list_fmap_1 dp_path _ _ Hd).
    + right. exact (elem_of_list_fmap_1 (fun x => public_path demo_config x.1) _ _ Hin).
  - exists rec_killed, st, rs, w. cbv zeta. split; [exact rec_instant|]. split.
    { unfold half_turned in Hh. rewrite <- link_tmp_eq. exact (bool_decide_eq_true_1 _ Hh). }
    split; [apply rec_tended|]. split; [exact Est|]. split; [exact Hnew|]. split; [exact Ers|]. split; [exact Hw|]. exists ds. exact Hds.
Qed.

(** *** A case with a trust anchor (a configuration that only warns): a first
    run, killed after it has staged the snapshot, then the same run again *)
Opaque anch_doc anch_docs anch_snap.
Lemma c_tal_ok : cfg_ok c_tal base DemoRun.name.
Proof. split; try (vm_compute; done); try (by repeat constructor); (split; intros [k Hk]; vm_compute in Hk; done). Qed.
Lemma c_tal_offers f n : offers c_tal anch_env f n -> n = anch_n.
Proof.
  intros (src & b & Hl & Hs & Hp). unfold located, config_fetcher in Hl. cbn in Hl. injection Hl as <-.
  cbn in Hs. destruct Hs as (k & etag & hdr & Hs). cbn in Hs. unfold serve in Hs.
  destruct anch_parsed as (E1 & E2 & _). rewrite E2 in Hs. injection Hs as _ <-. change (e_ext anch_env) with live_ext in Hp.
  rewrite E1 in Hp. by injection Hp as <-.
Qed.
Definition anch_source (n : notification) : Prop := n = anch_n.
Definition has_staged (g : fs) : bool := match g !! (staging_dir c_tal ++ ["s2"]) with Some (File _ _) => true | _ => false end.
Definition anch_killed : fs := killed_when c_tal anch_env tal_start has_staged.
Definition anch_els : list (rsync_uri * option string) := (safe_snapshot anch_snap).1.
Definition anch_fit_check : bool :=
  good_check anch_n && x_https_ok live_ext (base +:+ "s2") &&
  forallb (fun u => forallb (fun u' => negb (bool_decide (below (object_rel c_tal u) (object_rel c_tal u')))) (anch_els).*1) (anch_els).*1.
Lemma anch_fitting : fitting anch_source c_tal base DemoRun.name live_ext.
Proof.
  assert (H : anch_fit_check = true) by vme.
  unfold anch_fit_check in H. apply andb_true_iff in H as [[H1 H2]%andb_true_iff H3]. rewrite forallb_forall in H3.
  assert (Hl : forall n u h, anch_source n -> (u, h) ∈ refs n -> u = base +:+ "s2" /\ h = "h:" +:+ anch_snap).
  { intros n u h -> Hin. apply elem_of_list_singleton in Hin. by injection Hin as -> ->. }
  assert (Ho : forall n u, anch_source n -> object_of live_ext n u -> In u (anch_els).*1).
  { intros n u -> (b & o & Hb & Hin). change (n_snap_hash anch_n) with ("h:" +:+ anch_snap) in Hb. cbn [x_hash live_ext] in Hb.
    apply sapp_inv_head in Hb as ->. exact (proj1 (elem_of_list_In _ _) (elem_of_list_fmap_1 fst _ (u, o) Hin)). }
  split.
  - intros n ->. by apply good_check_ok.
  - intros n Hn u h h' [_ ->]%(Hl _ _ _ Hn) [_ ->]%(Hl _ _ _ Hn). done.
  - intros n u h Hn [-> _]%(Hl _ _ _ Hn). done.
  - exact safe_clean.
  - assert (Hr : forall rel, listed_name anch_source base rel -> rel = "s2").
    { intros rel (n & h & Hn & [E _]%(Hl _ _ _ Hn)). by apply sapp_inv_head in E. }
    intros rel rel' ->%Hr ->%Hr [_ Hb]. exact (Hb eq_refl).
  - intros n n' u u' Hn Hn' _ Hu%(Ho _ _ Hn)%H3 Hu'%(Ho _ _ Hn'). rewrite forallb_forall in Hu.
    exact (proj1 (bool_decide_eq_false _) (proj1 (negb_true_iff _) (Hu _ Hu'))).
Qed.
Definition tal_start_check (f : fs) : bool :=
  forallb (fun kv => bool_decide (kv.1 = ["ta.tal"]) && match kv.2 with File _ _ => true | _ => false end ||
    bool_decide (kv.2 = Dir) && existsb (fun t => bool_decide (below kv.1 t))
    [staging_dir c_tal ++ [DemoRun.name]; notif_path c_tal DemoRun.name; rrdp_state_path c_tal]) (map_to_list f).
Lemma tal_start_tended : tended anch_source c_tal base DemoRun.name live_ext tal_start.
Proof.
  assert (H : tal_start_check tal_start = true) by vme. unfold tal_start_check in H. rewrite forallb_forall in H.
  assert (Hc : cfg_ok c_tal base DemoRun.name) by apply c_tal_ok.
  assert (Hk : forall p nd, tal_start !! p = Some nd -> p = ["ta.tal"] /\ (exists b m, nd = File b m) \/
    nd = Dir /\ dirs (file_place anch_source c_tal base DemoRun.name live_ext) (dir_place c_tal) p).
  { intros p nd Hp. apply elem_of_map_to_list, elem_of_list_In, H in Hp. apply orb_true_iff in Hp as [Hp|Hp].
    - left. apply andb_true_iff in Hp as [Hp1%bool_decide_eq_true Hp2]. split; [done|]. destruct nd as [b m| |]; try done. by exists b, m.
    - right. apply andb_true_iff in Hp as [Hp1%bool_decide_eq_true Hp2].
      split; [done|]. apply existsb_exists in Hp2 as (t & Ht & Hb%bool_decide_eq_true). left. exists t. split; [|done].
      apply fp_fixed. apply elem_of_list_In in Ht. rewrite !elem_of_cons in *. naive_solver. }
  assert (Hta : forall p, dirs (file_place anch_source c_tal base DemoRun.name live_ext) (dir_place c_tal) p -> p <> ["ta.tal"]).
  { intros p [(t & Ht & [Hb _])|(r & Hr)] ->.
    - apply (place_shape _ _ _ _ _ anch_fitting) in Ht as (a & q & -> & _). clear H Hk.
      destruct a, Hb as [k Hb]; vm_compute in Hb; discriminate.
    - clear H Hk. destruct Hr as [k Hr]. unfold rev_dir in Hr. change (c_rsync_dir c_tal) with ["srv"; "rsync"] in Hr. discriminate. }
  apply td_start; [apply wf_check_ok; vme|reflexivity| |split|by vm_compute|by vm_compute].
  - intros p t _ E. apply Hk in E as [(_ & b & m & E)|[E _]]; done.
  - intros t Ht. by apply place_apart with (1 := Hc) (2 := anch_fitting).
  - intros t Ht. unfold file_or_none. destruct (tal_start !! t) as [nd|] eqn:E; [|by left]. apply Hk in E as [(_ & b & m & ->)|[_ Hd]].
    + right. eauto.
    + exfalso. revert Hd. by apply place_apart with (1 := Hc) (2 := anch_fitting).
  - intros d Hd _. unfold dir_or_none. destruct (tal_start !! d) as [nd|] eqn:E; [|by left].
    apply Hk in E as [(-> & _)|[-> _]]; [by apply Hta in Hd|by right].
Qed.
Lemma anch_no_304 : no_bad_304 anch_env.
Proof. intros n u m etag. cbn. unfold serve. by destruct (Demo.assoc anch_docs u). Qed.
Lemma anch_tended : tended anch_source c_tal base DemoRun.name live_ext anch_killed.
Proof.
  eapply (td_run _ _ _ _ _ tal_start c_tal anch_env); [apply tal_start_tended|done|done|done|done|apply anch_no_304|apply c_tal_offers|apply killed_instant].
Qed.
Definition anch_kill_check (g : fs) : bool :=
  has_staged g && negb (fs_exists g (rrdp_state_path c_tal)) &&
  match g !! ["ta.tal"] with Some (File b _) => String.eqb b tal_doc | _ => false end &&
  match (run c_tal anch_env g).1 with Ok _ => true | _ => false end.
Lemma anch_kill_ok : anch_kill_check anch_killed = true.
Proof. vme. Qed.
Lemma anch_kill_facts : exists m b m', anch_killed !! (staging_dir c_tal ++ ["s2"]) = Some (File b m') /\
  fs_exists anch_killed (rrdp_state_path c_tal) = false /\ anch_killed !! ["ta.tal"] = Some (File tal_doc m) /\
  (run c_tal anch_env anch_killed).1 = Ok tt.
Proof.
  pose proof anch_kill_ok as H. revert H. generalize anch_killed. intros g H. unfold anch_kill_check in H. rewrite !andb_true_iff in H.
  destruct H as (((H1 & H2) & H3) & H4). apply negb_true_iff in H2. unfold has_staged in H1.
  destruct (g !! (staging_dir c_tal ++ ["s2"])) as [[b m'| |]|]; [|discriminate..].
  destruct (g !! ["ta.tal"]) as [[b' m| |]|]; [|discriminate..]. apply String.eqb_eq in H3 as ->.
  destruct (run c_tal anch_env g).1 as [[]| |]; [|discriminate..]. exists m, b, m'. repeat split; [exact H2].
Qed.
Lemma anch_killed_instant : anch_killed ∈ instants c_tal anch_env tal_start.
Proof. apply killed_instant. Qed.
Opaque anch_killed anch_els.
Lemma anch_says f : source_says c_tal anch_env f anch_doc.
Proof.
  destruct anch_parsed as (E1 & E2 & _). intros k etag; cbn; unfold serve; rewrite E2; exists None; split; [reflexivity|discriminate].
Qed.
Lemma anch_available f u h : (u, h) ∈ refs anch_n -> available c_tal base anch_env f u h.
Proof.
  destruct anch_parsed as (E1 & E2 & E3 & _).
  intros Hin. apply elem_of_list_singleton in Hin. injection Hin as -> ->. exists "s2", anch_snap.
  split; [reflexivity|]. split; [apply (bool_decide_unpack _); vm_compute; exact I|]. split; [reflexivity|]. split; [|reflexivity].
  change (forall k etag, exists hdr, serve anch_docs k (base +:+ "s2") Strict etag = HReply 200 hdr (Some anch_snap) /\ hdr <> Some None).
  intros k etag. unfold serve. rewrite E3. exists None; split; [reflexivity|discriminate].
Qed.
Lemma anch_there f m : f !! ["ta.tal"] = Some (File tal_doc m) -> Forall (anchor_ready c_tal anch_env f) (c_tal_files c_tal).
Proof.
  destruct anch_parsed as (E1 & E2 & E3 & E4 & E5 & E6 & E7 & E8 & E9 & E10 & E11 & E12). intros Ef.
  change (c_tal_files c_tal) with [["ta.tal"]]. constructor; [|constructor]. split; [discriminate|]. split.
  { intros [k Hk]. vm_compute in Hk. discriminate. }
  exists tal_doc, m, [TalRsync "rsync://x/y/z.cer"; TalHttps ta_uri], (ct_key ta_cert), ta_uri.
  split; [exact Ef|]. split; [exact E12|]. split.
  { exists [TalRsync "rsync://x/y/z.cer"], []. split; [reflexivity|]. intros u' Hu%elem_of_list_singleton. discriminate. }
  intros k. exists None, (text j_cert ta_cert), ta_cert. split; [cbn; unfold serve; rewrite E4; reflexivity|]. split; [discriminate|].
  split; [exact E5|]. intros k'. destruct E6 as [info E6]. exists (mkRCert ta_cert (ct_res ta_cert)), info.
  split; [reflexivity|]. split; [reflexivity|]. apply details_eq; exact E6.
Qed.
Transparent anch_els.
Lemma anch_snapshot b : x_hash live_ext b = n_snap_hash anch_n -> x_snapshot live_ext b = (anch_els, true).
Proof.
  destruct anch_parsed as (_ & _ & _ & _ & _ & _ & _ & _ & _ & E10 & _).
  intros Hb. change (n_snap_hash anch_n) with ("h:" +:+ anch_snap) in Hb. cbn [x_hash live_ext] in Hb.
  apply sapp_inv_head in Hb as ->. change (x_snapshot live_ext anch_snap) with (safe_snapshot anch_snap).
  unfold anch_els. revert E10. generalize (safe_snapshot anch_snap). intros [els ok] E. cbn in *. by subst.
Qed.
Lemma anch_objects u o : (u, o) ∈ anch_els -> is_Some o.
Proof.
  destruct anch_parsed as (_ & _ & _ & _ & _ & _ & _ & _ & _ & _ & E11 & _). rewrite forallb_forall in E11.
  intros Hin%elem_of_list_In%E11. apply bool_decide_eq_true in Hin; exact Hin.
Qed.
Opaque anch_els.
Lemma first_not_booked p : ~ booked c_tal (first_state c_tal base DemoRun.name) p.
Proof. intros [(d & Hd & _)|(r & h & Hin & _)]; [by apply elem_of_nil in Hd|by apply elem_of_nil in Hin]. Qed.
Example C66_anchors_apply : exists f st w, let c := c_tal in let e := anch_env in
  f ∈ instants c e tal_start /\ is_Some (f !! (staging_dir c ++ ["s2"])) /\ c_tal_files c <> [] /\
  cfg_ok c base DemoRun.name /\ fitting anch_source c base DemoRun.name (e_ext e) /\
  tended anch_source c base DemoRun.name (e_ext e) f /\ c_force_moves c = false /\
  no_faults e /\ scripts_fine c e /\ (forall n', offers c e f n' -> anch_source n') /\
  starts_from c base DemoRun.name f st /\ rsync_enabled c = false /\
  source_says c e f anch_doc /\ x_parse_notif (e_ext e) anch_doc = Some anch_n /\
  usable_notif (e_ext e) (c_max_deltas c) anch_n anch_n /\ newer st anch_n /\
  (forall u h, (u, h) ∈ refs anch_n -> available c base e f u h) /\ NoDup (refs anch_n).*1 /\
  (forall b, x_hash (e_ext e) b = n_snap_hash anch_n -> x_snapshot (e_ext e) b = (anch_els, true)) /\
  (forall u o, (u, o) ∈ anch_els -> is_Some o) /\
  (forall rel, n_snap_uri anch_n = base +:+ rel -> ~ booked c st (public_path c rel)) /\
  order_ok (e_ext e) /\ Forall (anchor_ready c e f) (c_tal_files c) /\
  x_parse_notif (e_ext e) (x_write_notif (e_ext e) anch_n) = Some anch_n /\ run c e f = (Ok tt, w).
Proof.
  destruct anch_kill_facts as (m & b & m' & H1 & H2 & H3 & H4).
  destruct anch_parsed as (E1 & _ & _ & _ & _ & _ & E7 & E8 & _).
  exists anch_killed, (first_state c_tal base DemoRun.name), (run c_tal anch_env anch_killed).2. cbv zeta.
  split; [exact anch_killed_instant|]. split; [rewrite H1; exact (mk_is_Some _ _ eq_refl)|]. split; [vm_compute; discriminate|].
  split; [apply c_tal_ok|]. split; [exact anch_fitting|]. split; [exact anch_tended|]. split; [reflexivity|].
  split; [intros k op; reflexivity|]. split; [intros k p Hp; apply elem_of_nil in Hp; contradiction|]. split; [apply c_tal_offers|].
  split; [right; split; [exact H2|reflexivity]|]. split; [reflexivity|]. split; [apply anch_says|]. split; [exact E1|]. split; [exact anch_usable|].
  split; [exact I|]. split; [apply anch_available|]. split; [apply (bool_decide_unpack _); vm_compute; exact I|].
  split; [exact anch_snapshot|]. split; [exact anch_objects|]. split; [intros rel _; apply first_not_booked|].
  split; [exact (demo_order_ok [] 0)|]. split; [exact (anch_there _ m H3)|]. split; [exact E7|].
  rewrite <- H4. apply surjective_pairing.
Qed.
Print Assumptions C66_recovers.
Print Assumptions C66_with_anchors.
Print Assumptions C66_applies.
