(** * The published deltas as an interval of serials *)
From Coq Require Import ZifyN ZifyNat ZifyBool.
From Coq Require Export Sorted.
From Verif Require Export RunDone.

(** [n] serials from [lo] on *)
Definition nseq (lo : N) (n : nat) : list N := (fun i => lo + N.of_nat i)%N <$> seq 0 n.
Lemma nseq_length lo n : length (nseq lo n) = n.
Proof. unfold nseq. by rewrite fmap_length, seq_length. Qed.
Lemma nseq_S lo n : nseq lo (S n) = lo :: nseq (lo + 1) n.
Proof.
  unfold nseq. cbn. f_equal; [lia|]. rewrite <- seq_shift. rewrite <- list_fmap_compose.
  apply list_fmap_ext. intros ? i _. cbn. lia.
Qed.
Lemma nseq_app lo a b : nseq lo (a + b) = nseq lo a ++ nseq (lo + N.of_nat a) b.
Proof.
  revert lo. induction a as [|a IH]; intros lo; cbn [plus].
  - by rewrite N.add_0_r.
  - rewrite !nseq_S, IH. cbn. do 3 f_equal. lia.
Qed.
Lemma nseq_snoc lo n : nseq lo (S n) = nseq lo n ++ [lo + N.of_nat n]%N.
Proof. replace (S n) with (n + 1) by lia. rewrite nseq_app. cbn. by rewrite N.add_0_r. Qed.
Lemma nseq_in lo n x : x ∈ nseq lo n <-> (lo <= x < lo + N.of_nat n)%N.
Proof.
  unfold nseq. rewrite elem_of_list_fmap. split.
  - intros (i & -> & Hi%elem_of_seq). lia.
  - intros H. exists (N.to_nat (x - lo)). split; [lia|]. apply elem_of_seq. lia.
Qed.
Lemma nseq_sorted lo n : StronglySorted N.lt (nseq lo n).
Proof.
  revert lo. induction n as [|n IH]; intros lo; [constructor|]. rewrite nseq_S. constructor; [done|].
  apply Forall_forall. intros x Hx%nseq_in. lia.
Qed.
Lemma nseq_lookup lo n i x : nseq lo n !! i = Some x -> x = (lo + N.of_nat i)%N /\ i < n.
Proof. unfold nseq. rewrite list_lookup_fmap, fmap_Some. intros (j & [-> H]%lookup_seq & ->). cbn. done. Qed.
Lemma nseq_drop lo n j : drop j (nseq lo n) = nseq (lo + N.of_nat j) (n - j).
Proof.
  destruct (Nat.le_ge_cases j n) as [H|H].
  - replace n with (j + (n - j)) at 1 by lia. rewrite nseq_app. rewrite drop_app_le by (by rewrite nseq_length).
    rewrite drop_ge by (by rewrite nseq_length). done.
  - rewrite drop_ge by (by rewrite nseq_length). by replace (n - j) with 0 by lia.
Qed.
Lemma nseq_filter_gt lo n h :
  filter (fun x => (h < x)%N) (nseq lo n) = nseq (lo + N.of_nat (N.to_nat (h + 1 - lo))) (n - N.to_nat (h + 1 - lo)).
Proof.
  revert lo. induction n as [|n IH]; intros lo; [done|]. rewrite nseq_S, filter_cons.
  destruct (decide (h < lo)%N).
  - rewrite IH. replace (N.to_nat (h + 1 - (lo + 1))) with 0 by lia. replace (N.to_nat (h + 1 - lo)) with 0 by lia.
    rewrite !Nat.sub_0_r, !N.add_0_r. by rewrite nseq_S.
  - rewrite IH. f_equal; [lia|]. lia.
Qed.
Lemma sorted_N (l l' : list N) : StronglySorted N.lt l -> StronglySorted N.le l' -> l ≡ₚ l' -> l = l'.
Proof. intros H1 H2. by apply (sorted_unique (fun x => x)). Qed.
Lemma sorted_fmap {A} (key : A -> N) l : StronglySorted (fun a b => (key a <= key b)%N) l -> StronglySorted N.le (key <$> l).
Proof. induction 1 as [|x l Hl IH Hx]; cbn; constructor; [done|]. by apply Forall_fmap. Qed.

(** sorting a list of which the serials are known *)
Lemma sort_serials {A} (key : A -> N) l lo n : key <$> l ≡ₚ nseq lo n -> key <$> sort_by_key key l = nseq lo n.
Proof.
  intros P. symmetry. apply sorted_N; [apply nseq_sorted|apply sorted_fmap, sort_by_key_sorted|].
  by rewrite (sort_by_key_perm key l).
Qed.
Lemma no_gaps_nseq a l : no_gaps a l = true -> di_serial <$> l = nseq (a + 1) (length l).
Proof.
  revert a. induction l as [|d l IH]; intros a H; [done|]. cbn [no_gaps] in H.
  destruct (N.eqb_spec (a + 1) (di_serial d)) as [E|]; [|done]. cbn [length fmap list_fmap]. rewrite nseq_S, E.
  f_equal. by apply IH.
Qed.
Lemma filter_serials (f : N -> bool) (l : list delta_info) :
  di_serial <$> filter (fun d => f (di_serial d) = true) l = filter (fun x => f x = true) (di_serial <$> l).
Proof.
  induction l as [|d l IH]; [done|]. rewrite fmap_cons, !filter_cons. destruct (decide (f (di_serial d) = true)).
  - by rewrite fmap_cons, IH.
  - done.
Qed.

(** what [split_before] keeps of an interval *)
Lemma split_before_nseq k l lo n : ds_serial <$> l = reverse (nseq lo n) ->
  ds_serial <$> (split_before k l).1 = reverse (nseq (lo + N.of_nat (N.to_nat (k - lo))) (n - N.to_nat (k - lo))).
Proof.
  revert l. induction n as [|n IH]; intros l E.
  - destruct l; [|done]. done.
  - rewrite nseq_snoc, reverse_app in E. destruct l as [|d l]; [done|]. cbn in E. injection E as Ed El.
    cbn [split_before]. destruct (N.ltb_spec (ds_serial d) k).
    + replace (S n - N.to_nat (k - lo)) with 0 by lia. done.
    + specialize (IH l El). destruct (split_before k l) as [a b]. cbn [fst] in *. cbn [fmap list_fmap]. 
      change (list_fmap _ _ ds_serial a) with (ds_serial <$> a). rewrite IH.
      replace (S n - N.to_nat (k - lo)) with (S (n - N.to_nat (k - lo))) by lia.
      rewrite nseq_snoc, reverse_app. cbn. f_equal. lia.
Qed.

(** ** Notifications that end at their own serial *)
Definition ends_at_serial (n : notification) : Prop :=
  n_deltas n <> [] -> n_serial n ∈ (di_serial <$> n_deltas n) /\
    forall d, d ∈ n_deltas n -> (di_serial d <= n_serial n)%N.

Lemma limit_suffix limit l : exists j, limit_deltas limit l = drop j l.
Proof.
  unfold limit_deltas. destruct limit as [k|]; [|by exists 0]. destruct (k <? length l)%nat; [by eexists|by exists 0].
Qed.
(** the limited list as an interval that ends at the serial *)
Lemma version_interval x limit n0 n : sort_and_verify x limit n0 = Some (n, true) -> ends_at_serial n0 ->
  exists a m, di_serial <$> n_deltas n = nseq a m /\ (m = 0 \/ (a + N.of_nat m)%N = (n_serial n + 1)%N).
Proof.
  unfold sort_and_verify, ends_at_serial. destruct (n_deltas n0) as [|d0 l0] eqn:E0.
  - intros [= <-] _. exists 0%N, 0. rewrite E0. auto.
  - cbv zeta. destruct (limit_deltas limit (sort_by_key di_serial (d0 :: l0))) as [|d1 l1] eqn:E1; [done|].
    intros [= <- Hg] Hend. destruct (Hend ltac:(done)) as [Hmax Hall]. cbn [n_deltas n_serial].
    apply andb_true_iff in Hg as [Hg _]. apply no_gaps_nseq in Hg.
    exists (di_serial d1), (S (length l1)). rewrite nseq_S. split; [cbn; by f_equal|]. right.
    assert (Hlast : (di_serial d1 + N.of_nat (length l1))%N ∈ (di_serial <$> (d1 :: l1))).
    { cbn. rewrite Hg. rewrite <- nseq_S. apply nseq_in. lia. }
    apply elem_of_list_fmap in Hlast as (dl & El & Hdl).
    destruct (limit_suffix limit (sort_by_key di_serial (d0 :: l0))) as [j Ej]. rewrite E1 in Ej.
    assert (Hin : forall d, d ∈ d1 :: l1 -> d ∈ d0 :: l0).
    { intros d Hd. rewrite Ej in Hd. rewrite <- (sort_by_key_perm di_serial (d0 :: l0)). 
      rewrite <- (take_drop j (sort_by_key _ _)). apply elem_of_app. by right. }
    pose proof (Hall dl (Hin dl Hdl)) as H1.
    apply elem_of_list_fmap in Hmax as (dm & Em & Hdm).
    rewrite <- (sort_by_key_perm di_serial (d0 :: l0)) in Hdm. rewrite <- (take_drop j (sort_by_key _ _)) in Hdm.
    apply elem_of_app in Hdm as [Hdm|Hdm].
    + pose proof (sort_by_key_sorted di_serial (d0 :: l0)) as Hso. rewrite <- (take_drop j (sort_by_key _ _)) in Hso.
      apply StronglySorted_app in Hso as (_ & _ & Hso). rewrite <- Ej in Hso. specialize (Hso dm dl Hdm Hdl). cbn in Hso. lia.
    + rewrite <- Ej in Hdm. assert (Hd : di_serial dm ∈ (di_serial <$> (d1 :: l1))) by (apply elem_of_list_fmap; by exists dm).
      cbn in Hd. rewrite Hg, <- nseq_S in Hd. apply nseq_in in Hd. lia.
Qed.

(** ** The chain of a state *)
Definition chained (st : rrdp_state) : Prop :=
  exists lo k, ds_serial <$> st_deltas st = reverse (nseq lo k) /\
    (k = 0 \/ exists s, st_snap st = Some s /\ (lo + N.of_nat k)%N = (ss_serial s + 1)%N).

Lemma Forall2_serials base e l ds : Forall2 (delta_of base e) l ds -> ds_serial <$> ds = di_serial <$> l.
Proof. induction 1 as [|d d' l ds (H & _) _ IH]; [done|]. cbn. by rewrite IH, H. Qed.

(** The deltas after an update are the newest of the source's, with nothing
    missing; in a new session they are all of them. *)
Lemma chain_step c base name e f st n0 n sg f1 v st' f2 cb st2 f3 :
  at_rsync c base name e f st n0 n sg f1 v st' f2 cb st2 f3 -> chained st -> ends_at_serial n0 ->
  exists a m j, di_serial <$> n_deltas n = nseq a m /\ (m = 0 \/ (a + N.of_nat m)%N = (n_serial n + 1)%N) /\
    j <= m /\ ds_serial <$> st_deltas st2 = reverse (drop j (nseq a m)) /\
    (sg_reset sg = true -> j = 0).
Proof.
  intros Ha (lo & k & Hd & Hk) Hend.
  destruct (new_deltas c base name e f _ _ _ _ _ _ _ _ _ _ _ Ha) as [E2 _].
  pose proof (am_staged _ _ _ _ _ _ _ _ _ _ (ac_move _ _ _ _ _ _ _ _ _ _ _ _ _ (ar_clean _ _ _ _ _ _ _ _ _ _ _ _ _ _ _ _ Ha))) as [[_ Hv] Hcv _ Hds Hcut].
  destruct (version_interval _ _ _ _ Hv Hend) as (a & m & Hn & Hm). apply Forall2_serials in Hds.
  rewrite filter_serials, Hn in Hds. exists a, m.
  rewrite E2, fmap_reverse.
  assert (Hall : forall b, b = true \/ k = 0 -> kept st sg = [] -> delta_is_new st (sg_reset sg) = (fun _ => true) ->
     exists j, di_serial <$> n_deltas n = nseq a m /\ (m = 0 \/ (a + N.of_nat m)%N = (n_serial n + 1)%N) /\ j <= m /\
       reverse (ds_serial <$> sort_by_key ds_serial (kept st sg ++ sg_deltas sg)) = reverse (drop j (nseq a m)) /\
       (sg_reset sg = true -> j = 0)).
  { intros _ _ Hkept Hnew. exists 0. split; [done|]. split; [done|]. split; [lia|]. split; [|done]. f_equal.
    rewrite drop_0, Hkept. cbn [app]. apply sort_serials. rewrite Hds, Hnew. 
    replace (filter _ _) with (nseq a m); [done|]. clear. induction (nseq a m) as [|x l IH]; [done|]. rewrite filter_cons_True by done. by f_equal. }
  destruct (sg_reset sg) eqn:Hr.
  { apply (Hall true); [by left|unfold kept; by rewrite Hr|done]. }
  destruct k as [|k].
  { apply (Hall false); [by right| |].
    - unfold kept. rewrite Hr. destruct (st_deltas st); [done|done].
    - unfold delta_is_new. destruct (st_deltas st); done. }
  destruct Hk as [|(s & Hs & Hk)]; [done|].
  unfold compare_version in Hcv. rewrite Hs in Hcv.
  destruct (bool_decide (ss_session s = n_session n)); cbn [negb] in Hcv; [|congruence].
  destruct (N.compare_spec (ss_serial s) (n_serial n)); [done| |done]. clear Hcv.
  assert (Hnew : forall x, delta_is_new st false x = (ss_serial s <? x)%N).
  { intros x. unfold delta_is_new. rewrite nseq_snoc, reverse_app in Hd. destruct (st_deltas st) as [|d l]; [done|].
    cbn in Hd. injection Hd as Ed _. cbn. rewrite Ed. f_equal. lia. }
  assert (Hfil : filter (fun x => delta_is_new st false x = true) (nseq a m) = filter (fun x => (ss_serial s < x)%N) (nseq a m)).
  { apply list_filter_iff. intros x. rewrite Hnew. lia. }
  rewrite Hfil, nseq_filter_gt in Hds.
  pose proof (split_before_nseq (cutoff_of n) _ _ _ Hd) as Hke.
  assert (Hkept : kept st sg = (split_before (cutoff_of n) (st_deltas st)).1).
  { unfold kept. by rewrite Hr, Hcut. }
  rewrite <- Hkept in Hke.
  assert (Hcutv : cutoff_of n = if decide (m = 0) then n_serial n else a).
  { unfold cutoff_of. destruct (n_deltas n) as [|d l].
    - destruct m; [done|]. rewrite nseq_S in Hn. done.
    - destruct m as [|m]; [done|]. rewrite nseq_S in Hn. cbn in Hn. by injection Hn as -> _. }
  set (cut := cutoff_of n) in *.
  destruct (decide (m = 0)) as [->|Hm0].
  { exists 0. split; [done|]. split; [done|]. split; [done|]. split; [|done]. f_equal. cbn [drop nseq fmap list_fmap seq].
    cbn in Hds. destruct (sg_deltas sg); [|done].
    replace (S k - N.to_nat (cut - lo)) with 0 in Hke by lia. destruct (kept st sg); done. }
  destruct Hm as [?|Hm]; [done|].
  set (h := ss_serial s) in *.
  destruct (N.lt_ge_cases h a) as [Hlt|Hge].
  - exists 0. split; [done|]. split; [by right|]. split; [lia|]. split; [|done]. f_equal. rewrite drop_0.
    apply sort_serials. replace (S k - N.to_nat (cut - lo)) with 0 in Hke by lia. destruct (kept st sg); [|done].
    cbn [app]. rewrite Hds. replace (N.to_nat (h + 1 - a)) with 0 by lia. rewrite Nat.sub_0_r. by rewrite N.add_0_r.
  - exists (N.to_nat (lo - a)). split; [done|]. split; [by right|]. split; [lia|]. split; [|done]. f_equal.
    rewrite nseq_drop. apply sort_serials. rewrite fmap_app, Hke, Hds, Hcutv, reverse_Permutation.
    set (A := S k - N.to_nat (a - lo)). set (B := m - N.to_nat (h + 1 - a)).
    replace (m - N.to_nat (lo - a)) with (A + B) by lia.
    replace (lo + N.of_nat (N.to_nat (a - lo)))%N with (a + N.of_nat (N.to_nat (lo - a)))%N by lia.
    replace (a + N.of_nat (N.to_nat (h + 1 - a)))%N with (a + N.of_nat (N.to_nat (lo - a)) + N.of_nat A)%N by lia.
    by rewrite nseq_app.
Qed.
Lemma chain_next c base name e f st n0 n sg f1 v st' f2 cb st2 f3 :
  at_rsync c base name e f st n0 n sg f1 v st' f2 cb st2 f3 -> chained st -> ends_at_serial n0 -> chained st2.
Proof.
  intros Ha Hch Hend. destruct (chain_step _ _ _ _ _ _ _ _ _ _ _ _ _ _ _ _ Ha Hch Hend) as (a & m & j & H1 & H2 & H3 & H4 & _).
  destruct (new_deltas c base name e f _ _ _ _ _ _ _ _ _ _ _ Ha) as [_ E2].
  pose proof (am_staged _ _ _ _ _ _ _ _ _ _ (ac_move _ _ _ _ _ _ _ _ _ _ _ _ _ (ar_clean _ _ _ _ _ _ _ _ _ _ _ _ _ _ _ _ Ha))) as [_ _ (_ & Hsn & _) _ _].
  rewrite nseq_drop in H4. exists (a + N.of_nat j)%N, (m - j). split; [done|].
  destruct (decide (m - j = 0)) as [->|Hne]; [by left|]. right. exists (sg_snap sg). split; [done|]. rewrite Hsn. lia.
Qed.
Lemma chained_validator st v : chained (set_validator st v) <-> chained st.
Proof. done. Qed.

(** every recorded state of a history is chained *)
Lemma mirror_chained c base name f st : cfg_ok c base name -> mirror ends_at_serial c base name f ->
  starts_from c base name f st -> chained st.
Proof.
  intros Hc Hm. revert st. induction Hm as [f Hwf E|f c' e g Hm IH Hsp Hw HP Hg|f g Hm IH Hwf Ho]; intros st Hst.
  - destruct Hst as [[Hex _]|[_ ->]]; [|exists 0%N, 0; auto].
    unfold fs_exists, fs_stat in Hex. rewrite fs_get_nonroot in Hex by apply state_path_ne. by rewrite E in Hex.
  - pose proof (mirror_sane _ _ _ _ _ _ _ Hc Hm Hsp Hw) as Hs.
    apply (places_starts c c' base name Hsp) in Hst.
    destruct (phase_state c' base name e f Hs g st (instant_phase c' base name e f Hs g Hg) Hst)
      as [H|(st0 & n0 & n & sg & f1 & v & st' & f2 & cb & st2 & f3 & f4 & n' & f5 & v' & H1 & _ & ->)].
    + apply IH. by apply (places_starts c c' base name Hsp).
    + apply chained_validator. pose proof (an_rsync _ _ _ _ _ _ _ _ _ _ _ _ _ _ _ _ _ (as_notify _ _ _ _ _ _ _ _ _ _ _ _ _ _ _ _ _ _ _ H1)) as A1.
      pose proof (ac_move _ _ _ _ _ _ _ _ _ _ _ _ _ (ar_clean _ _ _ _ _ _ _ _ _ _ _ _ _ _ _ _ A1)) as A2.
      apply (chain_next _ _ _ _ _ _ _ _ _ _ _ _ _ _ _ _ A1).
      * apply IH. apply (places_starts c c' base name Hsp). apply A2.
      * apply HP. apply A2.
  - apply IH. eapply starts_plain; [|by apply (mirror_own _ _ _ _ _ Hc Hm)|exact Hst]. apply Ho. apply owned_sp.
Qed.
