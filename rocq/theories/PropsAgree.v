(** * RRDP servers with the same version show the same: C78 *)
From Coq Require Import ZifyN ZifyNat ZifyBool.
From stdpp Require Import sorting.
From Verif Require Import DemoRun PropsCopied PropsBlocked PropsClient PropsHistory Chain RunDone.
From Verif Require Import FsWf HistoryProofs.

(** ** Specification *)
(** A source whose versions, in the order in which it publishes them, are [src 0],
    [src 1], ...: a session and serial stand for one version; a version lists each
    of its deltas once, and if any, that to its own serial; and it lists no delta to
    or before an earlier version of the session that this did not list. *)
Record orderly (src : nat -> notification) : Prop := {
  od_version : forall i j, n_session (src i) = n_session (src j) -> n_serial (src i) = n_serial (src j) -> src i = src j;
  od_once : forall i, NoDup (di_serial <$> n_deltas (src i));
  od_ends : forall i, ends_at_serial (src i);
  od_front : forall i j d, i <= j -> n_session (src i) = n_session (src j) ->
    d ∈ n_deltas (src j) -> (di_serial d <= n_serial (src i))%N -> d ∈ n_deltas (src i) }.

(** [keeps_up c base name x src k f]: the tree of a server after any number of runs,
    completed, failed or killed at any instant, with one limit of deltas, while others
    may change what krill-sync does not own.  The source was at version [k] or before. *)
Inductive keeps_up (c : config) (base name : string) (x : ext) (src : nat -> notification) : nat -> fs -> Prop :=
| ku_start f : wf f -> f !! rrdp_state_path c = None -> f !! notif_path c name = None -> keeps_up c base name x src 0 f
| ku_run k k' f c' e g : keeps_up c base name x src k f ->
    same_places c c' -> c_max_deltas c' = c_max_deltas c -> e_ext e = x ->
    k <= k' -> (forall n, offers c' e f n -> exists i, k <= i /\ i <= k' /\ n = src i) ->
    g ∈ instants c' e f -> keeps_up c base name x src k' g
| ku_else k f g : keeps_up c base name x src k f -> wf g -> (forall p, owned c p -> g !! p = f !! p) ->
    keeps_up c base name x src k g.

(** [n'] says what [n] says, with the newest delta first *)
Definition turned (n n' : notification) : Prop :=
  n' = mkNotif (n_session n) (n_serial n) (n_snap_uri n) (n_snap_hash n) (reverse (n_deltas n)).

(** ** Proofs *)
Definition info (base : string) (d : delta_state) : delta_info := mkDI (ds_serial d) (base +:+ ds_rel d) (ds_hash d).
Lemma info_of base e d d' : delta_of base e d d' -> info base d' = d.
Proof. destruct d as [ds du dh]. intros (D1 & D2 & D3 & _). cbn in D1, D2, D3. unfold info. by subst. Qed.
(** the recorded state is that of version [n] *)
Definition state_is (base : string) (st : rrdp_state) (n : notification) : Prop :=
  exists s, st_snap st = Some s /\ ss_session s = n_session n /\ ss_serial s = n_serial n /\
    ss_hash s = n_snap_hash n /\ n_snap_uri n = base +:+ ss_rel s /\ info base <$> st_deltas st = reverse (n_deltas n).

Lemma key_lists {A} (key : A -> N) l1 l2 : key <$> l1 = key <$> l2 -> NoDup (key <$> l2) -> (forall a, a ∈ l2 -> a ∈ l1) -> l1 = l2.
Proof.
  revert l2. induction l1 as [|a l1 IH]; intros [|b l2]; cbn; try done. intros [= E1 E2] [H1 H2]%NoDup_cons Hall.
  assert (Hab : b = a).
  { destruct (proj1 (elem_of_cons _ _ _) (Hall b ltac:(left))) as [->|Hin]; [done|].
    destruct H1. rewrite <- E2. apply elem_of_list_fmap. by exists b. }
  subst b. f_equal. apply IH; [done|done|]. intros d Hd.
  destruct (proj1 (elem_of_cons _ _ _) (Hall d ltac:(by right))) as [->|Hin]; [|done].
  destruct H1. apply elem_of_list_fmap. by exists a.
Qed.
Lemma nseq_nodup lo n : NoDup (nseq lo n).
Proof.
  revert lo. induction n as [|n IH]; intros lo; [constructor|]. rewrite nseq_S. apply NoDup_cons. split; [|done].
  intros H%nseq_in. lia.
Qed.

Section agree.
  Context (c : config) (base name : string) (x : ext) (src : nat -> notification).
  Context (Hc : cfg_ok c base name) (Hord : orderly src) (Hgood : forall i, good_notif base name (src i)) (Hsnap : clean_snapshots x).
  Notation ver := (version x (c_max_deltas c) src).

  (** as [od_front], for the deltas in use *)
  Lemma front_limited i j ni nj d a m : i <= j -> ver i ni -> ver j nj -> n_session ni = n_session nj -> (n_serial ni < n_serial nj)%N ->
    di_serial <$> n_deltas nj = nseq a m -> (m = 0 \/ (a + N.of_nat m)%N = (n_serial nj + 1)%N) ->
    d ∈ n_deltas nj -> (di_serial d <= n_serial ni)%N -> d ∈ n_deltas ni.
  Proof using Hord Hgood.
    intros Hij Hi Hj Hse Hlt Ha Hm Hd Hle.
    destruct Hj as (J1 & J2 & _ & _ & Hj & _).
    assert (Hdi : d ∈ n_deltas (src i)).
    { pose proof Hi as (I1 & I2 & _). apply (od_front _ Hord i j); [done|congruence|by eapply newest_sub|lia]. }
    destruct (version_interval x (c_max_deltas c) (src i) ni) as (ai & mi & Ei & Hmi).
    { apply usable_sav. split; [exact Hi|apply (od_once _ Hord)]. }
    { apply (od_ends _ Hord). }
    destruct Hi as (_ & _ & _ & _ & (older & Hp & Hso & Hlen) & _ & Hlast).
    rewrite <- Hp in Hdi. apply elem_of_app in Hdi as [Hold|?]; [|done]. exfalso.
    destruct Hj as (older' & Hp' & _ & Hlen').
    pose proof (Permutation_length Hp) as L1. pose proof (Permutation_length Hp') as L2. rewrite app_length in L1, L2.
    assert (0 < length older) by (destruct older; [by apply elem_of_nil in Hold|cbn; lia]).
    destruct (c_max_deltas c) as [lim|]; [|lia].
    pose proof (f_equal length Ha) as La. pose proof (f_equal length Ei) as Li. rewrite fmap_length, nseq_length in La, Li.
    assert (Hda : di_serial d ∈ nseq a m) by (rewrite <- Ha; apply elem_of_list_fmap; by exists d). apply nseq_in in Hda.
    destruct Hlast as (dl & Hdl & _).
    { intros E. rewrite E in L1. cbn in L1. lia. }
    destruct (n_deltas ni) as [|d1 l1] eqn:En; [done|]. destruct mi as [|mi]; [done|]. rewrite nseq_S in Ei. injection Ei as E1 _.
    assert (Hlt1 : (di_serial d < di_serial d1)%N).
    { assert (di_serial d <= di_serial d1)%N by (exact (elem_of_StronglySorted_app _ _ _ _ _ Hso Hold (elem_of_list_here _ _))).
      assert (di_serial d <> di_serial d1); [|lia]. intros E.
      pose proof (od_once _ Hord i) as Hnd. rewrite <- Hp, fmap_app in Hnd. apply NoDup_app in Hnd as (_ & Hnd & _).
      apply (Hnd (di_serial d)); [apply elem_of_list_fmap; by exists d|]. rewrite E. cbn. left. }
    cbn [length] in *. lia.
  Qed.

  Lemma exact_step k c' e f st n0 n sg f1 v st' f2 cb st2 f3 i : same_places c c' -> c_max_deltas c' = c_max_deltas c -> e_ext e = x ->
    at_rsync c' base name e f st n0 n sg f1 v st' f2 cb st2 f3 -> chained st ->
    StronglySorted (fun a b => (ds_serial b <= ds_serial a)%N) (st_deltas st) -> n0 = src i -> k <= i ->
    (st_snap st = None \/ exists i0 nv, i0 <= k /\ ver i0 nv /\ state_is base st nv) ->
    ver i n /\ state_is base st2 n.
  Proof.
    intros Hsp Hmax Hx A1 Hch Hsorted -> Hk Hst.
    pose proof (ac_move _ _ _ _ _ _ _ _ _ _ _ _ _ (ar_clean _ _ _ _ _ _ _ _ _ _ _ _ _ _ _ _ A1)) as A2.
    destruct (am_staged _ _ _ _ _ _ _ _ _ _ A2) as [[Ho Hv] Hcv Hsn Hds Hcut].
    assert (Hver : ver i n). { unfold version. rewrite <- Hx, <- Hmax. by apply sav_in_use. }
    split; [done|]. destruct (new_deltas c' base name e f _ _ _ _ _ _ _ _ _ _ _ A1) as [_ Es].
    destruct Hsn as (S1 & S2 & S3 & S4 & _). exists (sg_snap sg). do 5 (split; [done|]).
    destruct (chain_step _ _ _ _ _ _ _ _ _ _ _ _ _ _ _ _ A1 Hch (od_ends _ Hord i)) as (a & m & j & H1 & H2 & H3 & H4 & H5).
    (** every delta in use is recorded *)
    assert (Hall : forall d, d ∈ n_deltas n -> d ∈ info base <$> st_deltas st2).
    { intros d Hd. destruct (delta_is_new st (sg_reset sg) (di_serial d)) eqn:En.
      - assert (Hin : d ∈ filter (fun d => delta_is_new st (sg_reset sg) (di_serial d) = true) (n_deltas n)) by (by apply elem_of_list_filter).
        apply elem_of_list_lookup in Hin as [i' Hi]. destruct (Forall2_lookup_l _ _ _ _ _ Hds Hi) as (d' & Hi' & Hdo).
        apply elem_of_list_fmap. exists d'. split; [symmetry; by eapply info_of|].
        apply (new_delta_in c' base name e f _ _ _ _ _ _ _ _ _ _ _ d' A1). right. by apply elem_of_list_lookup_2 in Hi'.
      - unfold delta_is_new in En. apply orb_false_iff in En as [Er En].
        destruct (st_deltas st) as [|hi rest] eqn:Ed; [done|]. apply N.ltb_ge in En.
        destruct Hst as [Hst|(i0 & nv & Hi0 & Hvn & s & Es0 & T1 & T2 & _ & _ & T3)].
        { destruct Hch as (lo & k0 & Hk0 & [->|(s1 & Hs1 & _)]); [|congruence]. by rewrite Ed in Hk0. }
        unfold compare_version in Hcv. rewrite Es0 in Hcv.
        destruct (bool_decide_reflect (ss_session s = n_session n)) as [Hse|]; cbn [negb] in Hcv; [|injection Hcv as Hcv; congruence].
        destruct (N.compare_spec (ss_serial s) (n_serial n)) as [|Hlt|]; [done| |done].
        assert (Hdn : forall d', d' ∈ st_deltas st -> info base d' ∈ n_deltas nv).
        { intros d' Hd'. apply elem_of_reverse. rewrite <- T3. apply elem_of_list_fmap. by exists d'. }
        assert (Hhi : (ds_serial hi <= n_serial nv)%N).
        { assert (Hin : info base hi ∈ n_deltas (src i0)).
          { destruct Hvn as (_ & _ & _ & _ & Hn & _). eapply newest_sub; [exact Hn|]. apply Hdn. rewrite Ed. left. }
          destruct Hvn as (_ & -> & _). apply (od_ends _ Hord i0) in Hin; [exact Hin|]. intros E. rewrite E in Hin. by apply elem_of_nil in Hin. }
        assert (Hd0 : d ∈ n_deltas nv).
        { eapply (front_limited i0 i nv n); [lia|done|done|congruence|lia|exact H1|exact H2|done|lia]. }
        apply elem_of_reverse in Hd0. rewrite <- T3 in Hd0. apply elem_of_list_fmap in Hd0 as (d' & -> & Hd').
        apply elem_of_list_fmap. exists d'. split; [done|].
        apply (new_delta_in c' base name e f _ _ _ _ _ _ _ _ _ _ _ d' A1). left. apply (kept_gone st sg) in Hd' as [?|Hgone]; [done|]. exfalso.
        unfold gone in Hgone. rewrite Er, Hcut, Ed in Hgone. apply (proj2 (split_before_spec (cutoff_of n) _ Hsorted)) in Hgone.
        pose proof (version_cutoff _ _ _ _ _ _ Hver Hd) as Hc1. cbn in Hc1. lia. }
    assert (Ek : di_serial <$> reverse (info base <$> st_deltas st2) = di_serial <$> n_deltas n).
    { rewrite fmap_reverse, <- list_fmap_compose. change (di_serial ∘ info base) with ds_serial. rewrite H4, reverse_involutive, H1.
      destruct m as [|m]; [by rewrite nseq_drop|]. destruct j as [|j]; [done|]. exfalso.
      destruct (n_deltas n) as [|d l] eqn:En; [by rewrite nseq_S in H1|]. specialize (Hall d ltac:(left)).
      apply elem_of_list_fmap in Hall as (d' & Ed & Hd'). rewrite nseq_S in H1. injection H1 as Ha _.
      assert (Hin : ds_serial d' ∈ ds_serial <$> st_deltas st2) by (apply elem_of_list_fmap; by exists d').
      rewrite H4, elem_of_reverse, nseq_drop in Hin. apply nseq_in in Hin. subst d. cbn in Ha. lia. }
    rewrite <- (reverse_involutive (info base <$> st_deltas st2)). f_equal. apply (key_lists di_serial); [exact Ek| |].
    - rewrite H1. apply nseq_nodup.
    - intros d Hd. apply elem_of_reverse. by apply Hall.
  Qed.

  Lemma ku_mirror k f : keeps_up c base name x src k f -> mirror ends_at_serial c base name f.
  Proof using Hord Hgood Hsnap.
    induction 1 as [f Hwf E1 E2|k k' f c' e g H IH Hsp Hmax Hx Hk Ho Hg|k f g H IH Hwf Hg].
    - by apply mi_start.
    - eapply (mi_run _ _ _ _ f c' e); [done|done| | |done].
      + split; [|by rewrite Hx]. intros n (i & _ & _ & ->)%Ho. apply Hgood.
      + intros n (i & _ & _ & ->)%Ho. apply (od_ends _ Hord).
    - by eapply mi_else.
  Qed.
  Lemma ku_inv k f : keeps_up c base name x src k f ->
    (f !! notif_path c name = None \/ exists i nv n', i <= k /\ ver i nv /\ turned nv n' /\ displays c name x f n') /\
    (forall st, starts_from c base name f st -> st_snap st = None \/ exists i nv, i <= k /\ ver i nv /\ state_is base st nv).
  Proof using Hc Hord Hgood Hsnap.
    induction 1 as [f Hwf E1 E2|k k' f c' e g H [IH1 IH2] Hsp Hmax Hx Hk Ho Hg|k f g H [IH1 IH2] Hwf Hg].
    - split; [by left|]. intros st [[Hex _]|[_ ->]]; [|by left].
      unfold fs_exists, fs_stat in Hex. rewrite fs_get_nonroot in Hex by apply state_path_ne. by rewrite E1 in Hex.
    - pose proof (ku_mirror _ _ H) as Hm.
      assert (Hw : good_world c' base name e f).
      { split; [|by rewrite Hx]. intros n (i & _ & _ & ->)%Ho. apply Hgood. }
      pose proof (mirror_sane _ _ _ _ _ _ _ Hc Hm Hsp Hw) as Hs.
      assert (Hstep : forall st n0 n sg f1 v st' f2 cb st2 f3, at_rsync c' base name e f st n0 n sg f1 v st' f2 cb st2 f3 ->
        exists i, i <= k' /\ ver i n /\ state_is base st2 n).
      { intros st n0 n sg f1 v st' f2 cb st2 f3 A1.
        pose proof (ac_move _ _ _ _ _ _ _ _ _ _ _ _ _ (ar_clean _ _ _ _ _ _ _ _ _ _ _ _ _ _ _ _ A1)) as A2.
        destruct (Ho n0) as (i & Hi1 & Hi2 & ->); [apply A2|]. exists i. split; [done|].
        assert (Hst : starts_from c base name f st) by (apply (places_starts c c' base name Hsp), A2).
        eapply (exact_step k c' e f); [done|done|done|exact A1| | |done|done|by apply IH2].
        - by eapply mirror_chained.
        - apply (gs_sorted c' base name). eapply start_good; [exact Hs|]. apply A2. }
      split.
      + destruct (instant_notif c' base name e f g Hs Hg) as [E|(st & n0 & n & sg & f1 & v & st' & f2 & cb & st2 & f3 & f4 & n' & [A1 _] & Hn & E)];
          rewrite (places_N c c' name Hsp) in E.
        * unfold displays. rewrite E. destruct IH1 as [?|(i & nv & n' & Hi & Hr)]; [by left|]. right. exists i, nv, n'. split; [lia|done].
        * right. destruct (Hstep _ _ _ _ _ _ _ _ _ _ _ A1) as (i & Hi & Hv & s & Es & T1 & T2 & T3 & T4 & T5).
          exists i, n, n'. split; [done|]. split; [done|]. destruct Hn as (s' & Es' & ->). rewrite Es in Es'. injection Es' as <-.
          split; [|rewrite <- Hx; exact E]. unfold turned. rewrite <- T5, T4, <- T1, <- T2, <- T3. done.
      + intros st Hst. apply (places_starts c c' base name Hsp) in Hst.
        destruct (phase_state c' base name e f Hs g st (instant_phase c' base name e f Hs g Hg) Hst)
          as [H1|(st0 & n0 & n & sg & f1 & v & st' & f2 & cb & st2 & f3 & f4 & n' & f5 & v' & H1 & _ & ->)].
        * destruct (IH2 st) as [?|(i & nv & Hi & Hr)]; [by apply (places_starts c c' base name Hsp)|by left|]. right. exists i, nv. split; [lia|done].
        * right. pose proof (an_rsync _ _ _ _ _ _ _ _ _ _ _ _ _ _ _ _ _ (as_notify _ _ _ _ _ _ _ _ _ _ _ _ _ _ _ _ _ _ _ H1)) as A1.
          destruct (Hstep _ _ _ _ _ _ _ _ _ _ _ A1) as (i & Hi & Hv & Hst2). by exists i, n.
    - split.
      + unfold displays. rewrite Hg; [done|]. right. left. apply under_app.
      + intros st Hst. apply IH2. eapply starts_plain; [|by apply (mirror_own _ _ _ _ _ Hc (ku_mirror _ _ H))|exact Hst]. apply Hg. apply owned_sp.
  Qed.
End agree.

(** ** C78 *)
(** What a server shows is exactly a version of the source: its session, serial and
    snapshot and its newest deltas, as many as the limit allows, whatever the server
    has seen before, at every instant. *)
Theorem C78_shows c base name x src k f :
  cfg_ok c base name -> orderly src -> (forall i, good_notif base name (src i)) -> clean_snapshots x ->
  keeps_up c base name x src k f ->
  f !! notif_path c name = None \/
  exists i n n', i <= k /\ in_use x (c_max_deltas c) (src i) n /\ turned n n' /\
    f !! notif_path c name = Some (File (x_write_notif x n') None).
Proof. intros Hc Ho Hg Hs Hk. apply (ku_inv c base name x src Hc Ho Hg Hs k f Hk). Qed.

Lemma in_use_drop x limit n0 n : NoDup (di_serial <$> n_deltas n0) -> in_use x limit n0 n ->
  exists k, n_deltas n = drop k (sort_by_key di_serial (n_deltas n0)) /\
    k = match limit with Some j => length (n_deltas n0) - j | None => 0 end.
Proof.
  intros Hn Hu. pose proof (usable_sav _ _ _ _ (conj Hu Hn)) as Hv. unfold sort_and_verify in Hv.
  destruct (n_deltas n0) as [|d0 l0] eqn:E0.
  { injection Hv as <-. exists 0. rewrite E0. destruct limit; cbn; split; try done; lia. }
  cbv zeta in Hv. destruct (limit_length limit (sort_by_key di_serial (d0 :: l0))) as (k & Ek & Hk).
  rewrite Ek in Hv. exists k. split.
  - destruct (drop k _) as [|d1 l1]; [done|]. by injection Hv as <- _.
  - rewrite Hk. by rewrite (Permutation_length (sort_by_key_perm di_serial (d0 :: l0))).
Qed.
Lemma shown_version c base name x src : cfg_ok c base name -> orderly src -> (forall i, good_notif base name (src i)) -> clean_snapshots x ->
  (forall n n', x_write_notif x n = x_write_notif x n' -> n = n') -> forall k f n',
  keeps_up c base name x src k f -> displays c name x f n' -> exists i n, i <= k /\ version x (c_max_deltas c) src i n /\ turned n n'.
Proof.
  intros Hc Ho Hg Hs Hinj k f n' Hk Hd. destruct (proj1 (ku_inv c base name x src Hc Ho Hg Hs k f Hk)) as [E|(i & nv & n1 & Hi & Hv & Ht & Hd')].
  - unfold displays in Hd. congruence.
  - exists i, nv. split; [done|]. split; [done|]. unfold displays in Hd, Hd'. rewrite Hd in Hd'. injection Hd' as E. apply Hinj in E. by subst.
Qed.
Lemma drop_prefix {A} a b (l : list A) : b <= a -> reverse (drop a l) `prefix_of` reverse (drop b l).
Proof.
  intros H. replace a with (b + (a - b)) by lia. rewrite <- drop_drop. rewrite <- (take_drop (a - b) (drop b l)) at 2.
  rewrite reverse_app. by exists (reverse (take (a - b) (drop b l))).
Qed.
(** Two servers that show the same session and serial show the same snapshot, and
    the newest deltas of the same list; with the same limit, the same document. *)
Theorem C78_agree c1 c2 base name x src k1 k2 f1 f2 n1 n2 :
  cfg_ok c1 base name -> cfg_ok c2 base name -> orderly src -> (forall i, good_notif base name (src i)) -> clean_snapshots x ->
  (forall n n', x_write_notif x n = x_write_notif x n' -> n = n') ->
  keeps_up c1 base name x src k1 f1 -> displays c1 name x f1 n1 ->
  keeps_up c2 base name x src k2 f2 -> displays c2 name x f2 n2 ->
  n_session n1 = n_session n2 -> n_serial n1 = n_serial n2 ->
  n_snap_uri n1 = n_snap_uri n2 /\ n_snap_hash n1 = n_snap_hash n2 /\
  (n_deltas n1 `prefix_of` n_deltas n2 \/ n_deltas n2 `prefix_of` n_deltas n1) /\
  (c_max_deltas c1 = c_max_deltas c2 -> n1 = n2).
Proof.
  intros Hc1 Hc2 Ho Hg Hs Hinj K1 D1 K2 D2 Es Er.
  destruct (shown_version c1 base name x src Hc1 Ho Hg Hs Hinj k1 f1 n1 K1 D1) as (i & v1 & _ & V1 & ->).
  destruct (shown_version c2 base name x src Hc2 Ho Hg Hs Hinj k2 f2 n2 K2 D2) as (j & v2 & _ & V2 & ->).
  cbn [n_session n_serial n_snap_uri n_snap_hash n_deltas] in *.
  pose proof V1 as (A1 & A2 & A3 & A4 & _). pose proof V2 as (B1 & B2 & B3 & B4 & _).
  assert (E : src j = src i) by (apply (od_version _ Ho); congruence).
  unfold version in V1, V2. rewrite E in *.
  destruct (in_use_drop _ _ _ _ (od_once _ Ho i) V1) as (d1 & E1 & M1). destruct (in_use_drop _ _ _ _ (od_once _ Ho i) V2) as (d2 & E2 & M2).
  split; [congruence|]. split; [congruence|]. split; [|].
  - rewrite E1, E2. destruct (Nat.le_ge_cases d2 d1) as [H|H]; [left|right]; by apply drop_prefix.
  - intros El. rewrite El in M1. rewrite E1, E2, M1, <- M2. congruence.
Qed.

Lemma drop_in {A} a b (l : list A) y : b <= a -> y ∈ drop a l -> y ∈ drop b l.
Proof.
  intros H. rewrite !elem_of_list_lookup. intros [i Hi]. rewrite lookup_drop in Hi. exists (a - b + i). rewrite lookup_drop.
  by replace (b + (a - b + i)) with (a + i) by lia.
Qed.
(** ** A client of several servers *)
(** limit [l1] allows no more deltas than [l2] *)
Definition no_more (l1 l2 : option nat) : Prop :=
  match l2 with None => True | Some k2 => exists k1, l1 = Some k1 /\ k1 <= k2 end.
Lemma follows_up c base name x src k f : follows c base name x src k f -> keeps_up c base name x src k f.
Proof.
  induction 1 as [f H1 H2 H3 H4|k k' f c' e g H IH H1 H2 H3 H4 H5 H6 H7 H8 H9|k f g H IH H1 H2].
  - by apply ku_start.
  - by eapply (ku_run _ _ _ _ _ k k' f c' e).
  - by eapply ku_else.
Qed.
Lemma client_read c base name x src T n k f : client c base name x src T n k f ->
  exists k0 f0, keeps_up c base name x src k0 f0 /\ displays c name x f0 n.
Proof.
  induction 1 as [k f H1 H2|k k' f c' e i g j g' H1 [W1 W2 W3 W4 W5 W6 W7 W8] H3 H4 H5 H6|k k' f c' e g H IH H1 H2|k f g H IH H1 H2]; [| |done|done].
  - exists k, f. split; [by apply follows_up|done].
  - exists k', g. split; [|done]. eapply (ku_run _ _ _ _ _ k k' f c' e); try done; [by apply follows_up|]. by eapply elem_of_list_lookup_2.
Qed.
(** A client that has read the notification of one server can fetch every file it
    lists, with the listed content, from any other that shows the same session and
    serial, or did so within the cleanup time (see C62), and does not limit the deltas
    to fewer. *)
Theorem C78_elsewhere c1 c2 base name x src k1 f1 n1 T n2 k2 f2 :
  cfg_ok c1 base name -> cfg_ok c2 base name -> orderly src -> stable_source x (c_max_deltas c2) src ->
  (forall i, good_notif base name (src i)) -> clean_snapshots x ->
  (forall n n', x_write_notif x n = x_write_notif x n' -> n = n') ->
  keeps_up c1 base name x src k1 f1 -> displays c1 name x f1 n1 -> no_more (c_max_deltas c1) (c_max_deltas c2) ->
  client c2 base name x src T n2 k2 f2 -> n_session n1 = n_session n2 -> n_serial n1 = n_serial n2 ->
  forall u h, (u, h) ∈ refs n1 -> exists rel b m,
    u = base +:+ rel /\ f2 !! public_path c2 rel = Some (File b m) /\ x_hash x b = h.
Proof.
  intros Hc1 Hc2 Ho Hst Hg Hs Hinj K1 D1 Hlim Hcl Es Er u h Hin.
  apply (C62_fetchable c2 base name x src T n2 k2 f2 Hc2 Hst Hg Hs Hinj Hcl u h).
  destruct (client_read _ _ _ _ _ _ _ _ _ Hcl) as (k0 & f0 & K2 & D2).
  destruct (shown_version c1 base name x src Hc1 Ho Hg Hs Hinj k1 f1 n1 K1 D1) as (i & v1 & _ & V1 & ->).
  destruct (shown_version c2 base name x src Hc2 Ho Hg Hs Hinj k0 f0 n2 K2 D2) as (j & v2 & _ & V2 & ->).
  cbn [n_session n_serial n_snap_uri n_snap_hash n_deltas] in *.
  pose proof V1 as (A1 & A2 & A3 & A4 & _). pose proof V2 as (B1 & B2 & B3 & B4 & _).
  assert (E : src j = src i) by (apply (od_version _ Ho); congruence).
  unfold version in V1, V2. rewrite E in *.
  destruct (in_use_drop _ _ _ _ (od_once _ Ho i) V1) as (d1 & E1 & M1). destruct (in_use_drop _ _ _ _ (od_once _ Ho i) V2) as (d2 & E2 & M2).
  unfold refs in *. cbn [n_snap_uri n_snap_hash n_deltas] in *. apply elem_of_cons in Hin as [Hin|Hin]; apply elem_of_cons; [left; congruence|right].
  apply elem_of_list_fmap in Hin as (d & -> & Hd). apply elem_of_list_fmap. exists d. split; [done|]. apply elem_of_reverse.
  rewrite elem_of_reverse, E1 in Hd. rewrite E2.
  assert (d2 <= d1).
  { unfold no_more in Hlim. destruct (c_max_deltas c2) as [l2|]; [|lia]. destruct Hlim as (l1 & Hl & Hle). rewrite Hl in M1. lia. }
  exact (drop_in d1 d2 _ _ H Hd).
Qed.

(** ** Two servers *)
(** The first takes two deltas at most and has seen the version before; the second
    starts with this one and then gets the next, in a new session. *)
Definition server2 : config := {|
  c_verbose := 0; c_quiet := false;
  c_state_dir := ["var"; "two"]; c_rrdp_dir := ["srv"; "rrdp2"];
  c_notify_delay := 0; c_max_deltas := Some 100;
  c_rsync_dir := ["srv"; "rsync2"]; c_force_moves := false; c_rsync_disable := false;
  c_include_host := false; c_cleanup_after := 7200; c_insecure := false;
  c_notif_uri := notif_uri; c_source_base := None; c_fetch_map := None;
  c_tal_files := []; c_scripts := []; c_reject := false; c_offline := false |}.
Definition one1 : fs := after (run (limited 2) (env3 0) start_tree).
Definition one2 : fs := after (run (limited 2) (env3 1) one1).
Definition two1 : fs := after (run server2 (env3 1) start_tree).
Definition two2 : fs := after (run server2 (env3 2) two1).
Definition read5 (l : list N) : notification :=
  mkNotif uuid_A 5 (base +:+ snap_rel uuid_A 5) (demo_hash (snap_doc uuid_A 5))
    ((fun i => mkDI i (base +:+ delta_rel uuid_A i) (demo_hash (delta_doc uuid_A i))) <$> l).
Definition two_b (o2 s1 s2 : fs) : bool :=
  bool_decide (o2 !! notif_path (limited 2) name = Some (File (x_write_notif safe_ext (read5 [5; 4]%N)) None)) &&
  bool_decide (s1 !! notif_path server2 name = Some (File (x_write_notif safe_ext (read5 [5; 4; 3]%N)) None)) &&
  bool_decide (s2 !! notif_path server2 name <> s1 !! notif_path server2 name).
Lemma two_facts o2 s1 s2 : two_b o2 s1 s2 = true ->
  displays (limited 2) name safe_ext o2 (read5 [5; 4]%N) /\ displays server2 name safe_ext s1 (read5 [5; 4; 3]%N) /\
  s2 !! notif_path server2 name <> s1 !! notif_path server2 name.
Proof.
  intros [[H1 H2]%andb_true_iff H3]%andb_true_iff. apply bool_decide_eq_true in H1, H2, H3. done.
Qed.
Lemma two_checked : two_b one2 two1 two2 = true.
Proof. vm_cast_no_check (eq_refl true). Qed.
Lemma server2_ok : cfg_ok server2 base name.
Proof. split; try (vm_compute; done); try (by repeat constructor); (split; intros [k Hk]; vm_compute in Hk; done). Qed.
Lemma offers_any c i f n : c_source_base c = None -> c_fetch_map c = None -> c_notif_uri c = notif_uri -> i <= 2 ->
  offers c (env3 i) f n -> n = src3 i.
Proof.
  intros E1 E2 E3 Hi H. apply serve_offers in H as (b & H1 & H2); [|done..].
  assert (E : x_parse_notif safe_ext (json_text (j_notif (src3 i))) = Some (src3 i) /\
          Demo.assoc (docs3 i) notif_uri = Some (json_text (j_notif (src3 i)))).
  { destruct i as [|[|[|i]]]; [..|lia]; by vm_compute. }
  destruct E as [E4 E5]. congruence.
Qed.
Lemma src3_orderly : orderly src3.
Proof.
  split.
  - intros i j. destruct (src3_cases i) as [->|[->| ->]], (src3_cases j) as [->|[->| ->]]; try done; by vm_compute.
  - intros i. apply (bool_decide_eq_true_1 _ (src3_distinct i)).
  - apply src3_ends.
  - intros i j d Hij. destruct i as [|[|i]], j as [|[|j]]; try lia; cbn [src3]; try done.
    intros _ Hd Hle. vm_compute in Hle.
    repeat (apply elem_of_cons in Hd as [->|Hd]; [try (by vm_compute in Hle); try (by left)|]); by apply elem_of_nil in Hd.
Qed.
Lemma fo_two f g : follows server2 base name safe_ext src3 0 f -> g ∈ instants server2 (env3 1) f -> follows server2 base name safe_ext src3 1 g.
Proof.
  intros H Hg. eapply (fo_run _ _ _ _ _ 0 1 f server2 (env3 1)); [exact H|done|done|done|apply serve_no_304| | |lia| |exact Hg].
  - intros Hy. by apply serve_no_copy in Hy.
  - apply serve_patient; cbn; lia.
  - intros n ->%offers_any; [|done|done|done|lia]. exists 1. split; [lia|]. done.
Qed.
Lemma fo_two0 : follows server2 base name safe_ext src3 0 start_tree.
Proof. apply fo_start; [apply start_wf|done|done|]. apply no_links_ok. by vm_compute. Qed.
Lemma ku_one i f g : i <= 1 -> keeps_up (limited 2) base name safe_ext src3 0 f -> g ∈ instants (limited 2) (env3 i) f ->
  keeps_up (limited 2) base name safe_ext src3 i g.
Proof.
  intros Hi H Hg. eapply (ku_run _ _ _ _ _ 0 i f (limited 2) (env3 i)); [exact H|done|done|done|lia| |exact Hg].
  intros n ->%offers_any; [|done|done|done|lia]. exists i. split; [lia|]. done.
Qed.
Lemma ku_one0 : keeps_up (limited 2) base name safe_ext src3 0 start_tree.
Proof. apply ku_start; [apply start_wf|done|done]. Qed.
Lemma cl_two n f g : client server2 base name safe_ext src3 1000 n 1 f -> g ∈ instants server2 (env3 2) f ->
  client server2 base name safe_ext src3 1000 n 2 g.
Proof.
  intros H Hg. eapply (cl_run _ _ _ _ _ _ _ 1 2 f server2 (env3 2)); [exact H|split|exact Hg].
  - done. - done. - done.
  - apply serve_no_304.
  - apply serve_no_copy.
  - intros a. cbn. lia.
  - lia.
  - intros n0 ->%offers_any; [|done|done|done|lia]. exists 2. split; [lia|]. done.
Qed.
Lemma limited_ok k : cfg_ok (limited k) base name.
Proof. apply (places_cfg demo_config (limited k) base name); [done|apply demo_cfg_ok]. Qed.
Lemma two_more : no_more (c_max_deltas (limited 2)) (c_max_deltas server2).
Proof. exists 2. split; [done|cbn; lia]. Qed.
Opaque run.
Example C78_applies :
  cfg_ok (limited 2) base name /\ cfg_ok server2 base name /\ orderly src3 /\ stable_source safe_ext (c_max_deltas server2) src3 /\
  (forall i, good_notif base name (src3 i)) /\ clean_snapshots safe_ext /\
  (forall n n', x_write_notif safe_ext n = x_write_notif safe_ext n' -> n = n') /\
  keeps_up (limited 2) base name safe_ext src3 1 one2 /\ displays (limited 2) name safe_ext one2 (read5 [5; 4]%N) /\
  no_more (c_max_deltas (limited 2)) (c_max_deltas server2) /\
  keeps_up server2 base name safe_ext src3 1 two1 /\ displays server2 name safe_ext two1 (read5 [5; 4; 3]%N) /\
  client server2 base name safe_ext src3 1000 (read5 [5; 4; 3]%N) 2 two2 /\
  two2 !! notif_path server2 name <> two1 !! notif_path server2 name.
Proof.
  destruct (two_facts _ _ _ two_checked) as (H1 & H2 & H3).
  pose proof (fo_two start_tree two1 fo_two0 (after_instant server2 (env3 1) start_tree)) as F.
  split; [exact (limited_ok 2)|]. split; [exact server2_ok|].
  split; [exact src3_orderly|]. split; [exact src3_stable|]. split; [exact src3_good|]. split; [exact safe_clean|]. split; [exact demo_write_inj|].
  split.
  { exact (ku_one 1 one1 one2 (le_n 1) (ku_one 0 start_tree one1 (Nat.le_0_l 1) ku_one0 (after_instant (limited 2) (env3 0) start_tree))
      (after_instant (limited 2) (env3 1) one1)). }
  split; [exact H1|]. split; [exact two_more|]. split; [exact (follows_up _ _ _ _ _ _ _ F)|]. split; [exact H2|]. split; [|exact H3].
  exact (cl_two _ two1 two2 (cl_rest _ _ _ _ _ _ _ _ _ F H2) (after_instant server2 (env3 2) two1)).
Qed.
Transparent run.

(** ** When the limit is raised *)
(** A server has run with a limit of one delta, and now has a limit of 100 as the
    other, which starts only now: they show the same session and serial, but the
    other shows a delta that the first does not have. *)
Definition long_docs : list (string * string) := docs_for uuid_A 5 [5; 4; 3; 2]%N.
Definition long_env : env := run_env long_docs 1000.
Definition low : fs := after (run (limited 1) (env3 0) start_tree).
Definition raised : fs := after (run demo_config long_env low).
Definition late : fs := after (run demo_config long_env start_tree).
Definition is_fine (r : res unit * world) : bool := match r.1 with Ok _ => true | _ => false end.
Definition raised_b (rh rl : res unit * world) : bool :=
  is_fine rh && is_fine rl &&
  bool_decide (after rh !! notif_path demo_config name = Some (File (x_write_notif safe_ext (read5 [5; 4; 3]%N)) None)) &&
  bool_decide (after rl !! notif_path demo_config name = Some (File (x_write_notif safe_ext (read5 [5; 4; 3; 2]%N)) None)) &&
  bool_decide (after rh !! public_path demo_config (delta_rel uuid_A 2) = None).
Lemma fine_run r : is_fine r = true -> exists w, r = (Ok tt, w) /\ w_fs w = after r.
Proof. destruct r as [[[]| |] w]; [|done..]. by exists w. Qed.
Lemma raised_facts rh rl : raised_b rh rl = true ->
  (exists w, rh = (Ok tt, w) /\ w_fs w = after rh) /\ (exists w, rl = (Ok tt, w) /\ w_fs w = after rl) /\
  displays demo_config name safe_ext (after rh) (read5 [5; 4; 3]%N) /\ displays demo_config name safe_ext (after rl) (read5 [5; 4; 3; 2]%N) /\
  after rh !! public_path demo_config (delta_rel uuid_A 2) = None.
Proof.
  unfold raised_b. intros [[[[H1 H2]%andb_true_iff H3]%andb_true_iff H4]%andb_true_iff H5]%andb_true_iff.
  apply bool_decide_eq_true in H3, H4, H5. split; [by apply fine_run|]. split; [by apply fine_run|]. done.
Qed.
Lemma raised_checked : raised_b (run demo_config long_env low) (run demo_config long_env start_tree) = true.
Proof. vm_cast_no_check (eq_refl true). Qed.
Lemma long_good f : good_world demo_config base name long_env f.
Proof.
  split; [|apply safe_clean]. intros n H. apply serve_offers in H as (b & H1 & H2); [|done..].
  assert (E : match Demo.assoc long_docs notif_uri with
              | Some b => bool_decide (x_parse_notif safe_ext b = Some (notif_for uuid_A 5 [5; 4; 3; 2]%N)) | None => false end = true) by (by vm_compute).
  rewrite H1 in E. apply bool_decide_eq_true in E. rewrite E in H2. injection H2 as <-. apply good_check_ok. by vm_compute.
Qed.
Lemma low_mirror : mirror any_notif demo_config base name low.
Proof.
  eapply (mi_run _ _ _ _ start_tree (limited 1) (env3 0)); [|done| |done|apply after_instant].
  - apply mi_start; [apply start_wf|done].
  - split; [|apply safe_clean]. intros n ->%offers_any; [apply src3_good|done|done|done|lia].
Qed.
Lemma start_mirror : mirror any_notif demo_config base name start_tree.
Proof. apply mi_start; [apply start_wf|done]. Qed.
Opaque run low.
Theorem C78_raised_refuted : exists c e f1 f2 w1 w2 n1 n2 u rel h,
  setting c base name e f1 /\ setting c base name e f2 /\ run c e f1 = (Ok tt, w1) /\ run c e f2 = (Ok tt, w2) /\
  displays c name (e_ext e) (w_fs w1) n1 /\ displays c name (e_ext e) (w_fs w2) n2 /\
  n_session n1 = n_session n2 /\ n_serial n1 = n_serial n2 /\
  (u, h) ∈ refs n2 /\ u = base +:+ rel /\ w_fs w1 !! public_path c rel = None.
Proof.
  destruct (raised_facts _ _ raised_checked) as ((w1 & E1 & F1) & (w2 & E2 & F2) & D1 & D2 & N).
  exists demo_config, long_env, low, start_tree, w1, w2, (read5 [5; 4; 3]%N), (read5 [5; 4; 3; 2]%N),
    (base +:+ delta_rel uuid_A 2), (delta_rel uuid_A 2), (demo_hash (delta_doc uuid_A 2)).
  split; [split; [exact demo_cfg_ok|exact low_mirror|exact (long_good low)]|].
  split; [split; [exact demo_cfg_ok|exact start_mirror|exact (long_good start_tree)]|].
  split; [exact E1|]. split; [exact E2|]. rewrite F1, F2. split; [exact D1|]. split; [exact D2|].
  split; [exact eq_refl|]. split; [exact eq_refl|]. split; [|split; [exact eq_refl|exact N]].
  clear. unfold refs, read5. cbn [n_deltas n_snap_uri fmap list_fmap]. do 4 right. left.
Qed.
Transparent run low.
Print Assumptions C78_raised_refuted.
Print Assumptions C78_shows.
Print Assumptions C78_agree.
Print Assumptions C78_elsewhere.
