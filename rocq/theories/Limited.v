(** * The deltas krill-sync uses of a notification *)
From Coq Require Import ZifyN ZifyNat ZifyBool.
From stdpp Require Import sorting.
From Verif Require Export RunCoarse.

(** [l]: the deltas of [n] in ascending order; only the newest [k] if there is a
    limit [k] *)
Definition newest (limit : option nat) (n : notification) (l : list delta_info) : Prop :=
  exists older, older ++ l ≡ₚ n_deltas n /\
    StronglySorted (fun a b => (di_serial a <= di_serial b)%N) (older ++ l) /\
    length older = match limit with Some k => length (n_deltas n) - k | None => 0 end.
(** each serial is one more than that before *)
Definition consecutive (l : list N) : Prop :=
  forall i a b, l !! i = Some a -> l !! S i = Some b -> b = (a + 1)%N.
(** The newest deltas of [n0] are [l], with no gap.  If there are deltas, some are
    left, and if the library insists on that, they end at the serial of [n0]. *)
Definition ungapped (x : ext) (limit : option nat) (n0 : notification) (l : list delta_info) : Prop :=
  newest limit n0 l /\ consecutive (di_serial <$> l) /\
  (n_deltas n0 <> [] -> exists d, last l = Some d /\ (x_sav_last x = true -> di_serial d = n_serial n0)).
(** [n] is [n0] with those deltas *)
Definition in_use (x : ext) (limit : option nat) (n0 n : notification) : Prop :=
  n_session n = n_session n0 /\ n_serial n = n_serial n0 /\ n_snap_uri n = n_snap_uri n0 /\ n_snap_hash n = n_snap_hash n0 /\
  ungapped x limit n0 (n_deltas n).
(** ... and there is no other such notification *)
Definition usable_notif (x : ext) (limit : option nat) (n0 n : notification) : Prop :=
  in_use x limit n0 n /\ NoDup (di_serial <$> n_deltas n0).

Lemma sorted_serials l : StronglySorted (fun a b => (di_serial a <= di_serial b)%N) l -> StronglySorted N.le (di_serial <$> l).
Proof.
  induction 1 as [|d l _ IH H]; [constructor|]. cbn. constructor; [done|]. by apply Forall_fmap.
Qed.
Lemma consecutive_no_gaps d l : consecutive (di_serial <$> d :: l) -> no_gaps (di_serial d) l = true.
Proof.
  revert d. induction l as [|d' l IH]; intros d H; [done|]. cbn.
  rewrite (H 0 (di_serial d) (di_serial d')) by done. rewrite N.eqb_refl.
  rewrite <- (H 0 (di_serial d) (di_serial d')) by done. apply IH. intros i a b H1 H2. by apply (H (S i)).
Qed.
Lemma no_gaps_consecutive d l : no_gaps (di_serial d) l = true -> consecutive (di_serial <$> d :: l).
Proof.
  revert d. induction l as [|d' l IH]; intros d H i a b Ha Hb.
  - by destruct i.
  - cbn in H. destruct (N.eqb_spec (di_serial d + 1) (di_serial d')) as [E|]; [|done].
    destruct i as [|i]; [cbn in Ha, Hb; congruence|]. by apply (IH d' H i).
Qed.
Lemma consecutive_ext (l l' : list delta_info) d l1 : di_serial <$> l' = di_serial <$> l -> l' = d :: l1 ->
  consecutive (di_serial <$> l) -> no_gaps (di_serial d) l1 = true.
Proof. intros E -> H. apply consecutive_no_gaps. by rewrite E. Qed.
Lemma limit_length limit (l : list delta_info) :
  exists k, limit_deltas limit l = drop k l /\ k = match limit with Some j => length l - j | None => 0 end.
Proof.
  unfold limit_deltas. destruct limit as [j|]; [|by exists 0]. destruct (Nat.ltb_spec j (length l)); [by eexists|].
  exists 0. split; [done|lia].
Qed.

(** the serials of the newest deltas are those the library keeps *)
Lemma newest_serials limit n0 l : newest limit n0 l ->
  di_serial <$> limit_deltas limit (sort_by_key di_serial (n_deltas n0)) = di_serial <$> l.
Proof.
  intros (older & Hp & Hs & Hlen).
  assert (E : di_serial <$> sort_by_key di_serial (n_deltas n0) = di_serial <$> (older ++ l)).
  { apply (StronglySorted_unique N.le).
    - apply sorted_serials. eapply StronglySorted_weaken; [|apply sort_by_key_sorted]. done.
    - by apply sorted_serials.
    - apply fmap_Permutation. by rewrite sort_by_key_perm, Hp. }
  destruct (limit_length limit (sort_by_key di_serial (n_deltas n0))) as (k & -> & Hk).
  assert (Ek : k = length older).
  { rewrite Hk, Hlen. destruct limit; [|done]. by rewrite (Permutation_length (sort_by_key_perm di_serial (n_deltas n0))). }
  rewrite fmap_drop, E, fmap_app, Ek. rewrite drop_app_alt; [done|]. by rewrite fmap_length.
Qed.
Lemma ungapped_sav x limit n0 l : ungapped x limit n0 l -> exists n, sort_and_verify x limit n0 = Some (n, true).
Proof.
  intros (Hn & Hc & Hl). unfold sort_and_verify. destruct (n_deltas n0) as [|d0 l0] eqn:E0; [by eexists|].
  cbv zeta. destruct (Hl ltac:(done)) as (dl & Hd & Hlast).
  pose proof (newest_serials _ _ _ Hn) as Es. rewrite E0 in Es.
  destruct (limit_deltas limit (sort_by_key di_serial (d0 :: l0))) as [|d1 l1] eqn:E1.
  { destruct l; [done|]. by apply (f_equal length) in Es. }
  eexists. f_equal. f_equal. apply andb_true_iff. split; [by eapply (consecutive_ext l (d1 :: l1))|].
  destruct (x_sav_last x); [|done]. cbn [negb orb]. apply N.eqb_eq. rewrite <- (Hlast eq_refl).
  apply (f_equal last) in Es. rewrite !fmap_last, Hd in Es. cbn [fmap option_fmap option_map] in Es.
  destruct (last (d1 :: l1)) as [d2|] eqn:E2; [|done]. injection Es as Es. rewrite <- Es. f_equal.
  apply last_Some in E2 as (k & ->). by rewrite List.last_last.
Qed.

(** with distinct serials there is only one such list *)
Lemma serial_inj l (a b : delta_info) : NoDup (di_serial <$> l) -> a ∈ l -> b ∈ l -> di_serial a = di_serial b -> a = b.
Proof.
  induction l as [|d l IH]; intros Hn Ha Hb E; [by apply elem_of_nil in Ha|]. cbn in Hn. apply NoDup_cons in Hn as [Hd Hn].
  apply elem_of_cons in Ha as [->|Ha], Hb as [->|Hb]; [done| | |by apply IH].
  - exfalso. apply Hd. rewrite E. apply elem_of_list_fmap. by exists b.
  - exfalso. apply Hd. rewrite <- E. apply elem_of_list_fmap. by exists a.
Qed.
Lemma same_serials (L l l' : list delta_info) : NoDup (di_serial <$> L) -> (forall d, d ∈ l -> d ∈ L) -> (forall d, d ∈ l' -> d ∈ L) ->
  di_serial <$> l = di_serial <$> l' -> l = l'.
Proof.
  intros Hn. revert l'. induction l as [|d l IH]; intros [|d' l'] H1 H2 E; [done..|]. cbn in E. injection E as E1 E2.
  f_equal; [|apply IH; [| |done]].
  - eapply serial_inj; [exact Hn|apply H1; constructor|apply H2; constructor|done].
  - intros k Hk. apply H1. by constructor.
  - intros k Hk. apply H2. by constructor.
Qed.
Lemma newest_sub limit n l d : newest limit n l -> d ∈ l -> d ∈ n_deltas n.
Proof. intros (older & Hp & _ & _) Hd. rewrite <- Hp. apply elem_of_app. by right. Qed.
Lemma newest_limited x limit n0 n b : sort_and_verify x limit n0 = Some (n, b) -> newest limit n0 (n_deltas n).
Proof.
  unfold sort_and_verify. destruct (n_deltas n0) as [|d0 l0] eqn:E0.
  - intros [= <- _]. rewrite E0. exists []. rewrite E0. split; [done|]. split; [constructor|]. by destruct limit.
  - cbv zeta. destruct (limit_deltas limit (sort_by_key di_serial (d0 :: l0))) as [|d1 l1] eqn:E1; [done|].
    intros [= <- _]. cbn [n_deltas]. rewrite <- E1. clear E1 d1 l1 b. unfold newest. rewrite E0.
    set (l := d0 :: l0) in *. clearbody l. pose proof (sort_by_key_perm di_serial l) as P.
    pose proof (sort_by_key_sorted di_serial l) as S.
    assert (Hlen : length (sort_by_key di_serial l) = length l) by (by rewrite P).
    unfold limit_deltas. destruct limit as [k|]; [|by exists []].
    rewrite Hlen. destruct (Nat.ltb_spec k (length l)).
    + exists (take (length l - k) (sort_by_key di_serial l)). rewrite take_drop. split; [done|]. split; [done|].
      rewrite take_length. lia.
    + exists []. split; [done|]. split; [done|]. cbn. lia.
Qed.
Lemma sav_in_use x limit n0 n : sort_and_verify x limit n0 = Some (n, true) -> in_use x limit n0 n.
Proof.
  intros Hv. destruct (sav_same _ _ _ _ _ Hv) as (V1 & V2 & V3 & V4). repeat (split; [done|]).
  split; [by eapply newest_limited|]. unfold sort_and_verify in Hv. destruct (n_deltas n0) as [|d0 l0] eqn:E0.
  - injection Hv as <-. rewrite E0. split; [|done]. intros i a b H. by destruct i.
  - cbv zeta in Hv. destruct (limit_deltas limit (sort_by_key di_serial (d0 :: l0))) as [|d1 l1] eqn:E1; [done|].
    injection Hv as <- Hg. apply andb_true_iff in Hg as [Hg Hl]. cbn [n_deltas]. split; [by apply no_gaps_consecutive|].
    intros _. destruct (last (d1 :: l1)) as [d2|] eqn:E2; [|by apply last_None in E2]. exists d2. split; [done|].
    intros Hx. rewrite Hx in Hl. cbn [negb orb] in Hl. apply N.eqb_eq in Hl. rewrite <- Hl. f_equal.
    change (d2 = List.last (d1 :: l1) d1). apply last_Some in E2 as (k & E2). rewrite E2. by rewrite List.last_last.
Qed.
(** what the library makes of a notification with distinct serials *)
Lemma usable_sav x limit n0 n : usable_notif x limit n0 n -> sort_and_verify x limit n0 = Some (n, true).
Proof.
  intros ((H1 & H2 & H3 & H4 & Hu) & Hn). destruct (ungapped_sav _ _ _ _ Hu) as [n' Hv]. rewrite Hv. do 2 f_equal.
  destruct (sav_same _ _ _ _ _ Hv) as (V1 & V2 & V3 & V4).
  assert (E : n_deltas n' = n_deltas n).
  { pose proof (newest_limited _ _ _ _ _ Hv) as Hn'. destruct Hu as (Hnn & _).
    apply (same_serials (n_deltas n0) _ _ Hn).
    - intros d. by eapply newest_sub.
    - intros d. by eapply newest_sub.
    - by rewrite <- (newest_serials _ _ _ Hn'), <- (newest_serials _ _ _ Hnn). }
  destruct n, n'. cbn in *. congruence.
Qed.
Definition distinct_serials (n : notification) : bool := bool_decide (NoDup (di_serial <$> n_deltas n)).
Lemma sav_usable x limit n0 n : distinct_serials n0 = true -> sort_and_verify x limit n0 = Some (n, true) -> usable_notif x limit n0 n.
Proof. intros Hn%bool_decide_eq_true Hv. split; [by apply sav_in_use|done]. Qed.
Lemma in_use_sav x limit n0 n : distinct_serials n0 = true -> in_use x limit n0 n -> sort_and_verify x limit n0 = Some (n, true).
Proof. intros Hn%bool_decide_eq_true Hv. by apply usable_sav. Qed.
Lemma in_use_refs x limit n0 n u h : in_use x limit n0 n -> (u, h) ∈ refs n -> (u, h) ∈ refs n0.
Proof.
  intros (_ & _ & E1 & E2 & Hv & _). unfold refs. rewrite E1, E2, !elem_of_cons, !elem_of_list_fmap.
  intros [?|(d & ? & Hd)]; [by left|]. right. exists d. split; [done|]. by eapply newest_sub.
Qed.

(** the notification [n] that a run works with, and that of the source *)
Definition takes (c : config) (e : env) (f : fs) (n0 n : notification) : Prop :=
  offers c e f n0 /\ in_use (e_ext e) (c_max_deltas c) n0 n.
Lemma source_takes c e f n0 n : from_source c e f n0 n -> takes c e f n0 n.
Proof. intros [Ho Hv]. split; [done|by apply sav_in_use]. Qed.
