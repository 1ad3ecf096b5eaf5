(** * C87: a mirror can be the source of another *)
From Coq Require Import Sorted ZifyN ZifyNat ZifyBool.
From stdpp Require Import sorting.
From Verif Require Import DemoRun PropsCopied PropsBlocked PropsClient PropsHistory Chain RunDone PropsAgree.
From Verif Require Import FsWf HistoryProofs.
Import PropsAgree.

(** ** Specification *)
(** the serials of a session do not go down *)
Definition rising (src : nat -> notification) : Prop :=
  forall i j, i <= j -> n_session (src i) = n_session (src j) -> (n_serial (src i) <= n_serial (src j))%N.
(** A mirror of [src] shows, at one time or another, each of [src2 0], [src2 1], ...;
    and they are read in an order in which the serials do not go down. *)
Record relayed (c : config) (base name : string) (x : ext) (src src2 : nat -> notification) : Prop := {
  re_shown : forall j, exists k f, keeps_up c base name x src k f /\ displays c name x f (src2 j);
  re_order : rising src2 }.
(** the smaller of two limits *)
Definition tighter (l1 l2 : option nat) : option nat :=
  match l1, l2 with Some a, Some b => Some (a `min` b) | Some a, None => Some a | None, l => l end.

(** ** Proofs *)
Lemma consec_at l h i v : consecutive l -> l !! 0 = Some h -> l !! i = Some v -> v = (h + N.of_nat i)%N.
Proof.
  intros Hc Hh. revert v. induction i as [|i IH]; intros v Hv; [assert (v = h) by congruence; lia|].
  destruct (l !! i) as [u|] eqn:E; [|apply lookup_ge_None in E; apply lookup_lt_Some in Hv; lia].
  rewrite (Hc i u v E Hv), (IH u eq_refl). lia.
Qed.
Lemma consec_range l m v : consecutive l -> last l = Some m -> v ∈ l -> (v <= m < v + N.of_nat (length l))%N.
Proof.
  intros Hc Hl [i Hi]%elem_of_list_lookup. rewrite last_lookup in Hl. pose proof (lookup_lt_Some _ _ _ Hi) as Hlt.
  destruct (l !! 0) as [h|] eqn:Hh; [|apply lookup_ge_None in Hh; lia].
  rewrite (consec_at l h _ _ Hc Hh Hl), (consec_at l h _ _ Hc Hh Hi). lia.
Qed.
Lemma consec_drop l k : consecutive l -> consecutive (drop k l).
Proof. intros Hc i a b. rewrite !lookup_drop. intros Ha Hb. eapply (Hc (k + i)); [done|]. by replace (S (k + i)) with (k + S i) by lia. Qed.
Lemma sorted_app_r {A} (R : A -> A -> Prop) l k : StronglySorted R (l ++ k) -> StronglySorted R k.
Proof. induction l as [|a l IH]; [done|]. intros H. apply IH. by inversion H. Qed.
Lemma sorted_split {A} (R : A -> A -> Prop) l k a b : StronglySorted R (l ++ k) -> a ∈ l -> b ∈ k -> R a b.
Proof.
  induction l as [|y l IH]; [by intros _ ?%elem_of_nil|]. cbn. intros H. inversion H as [|? ? H1 H2]; subst.
  intros [->|Ha]%elem_of_cons Hb; [|by apply IH]. rewrite Forall_forall in H2. apply H2, elem_of_app. by right.
Qed.
Lemma sorted_perm (l k : list delta_info) : NoDup (di_serial <$> k) -> l ≡ₚ k ->
  StronglySorted (fun a b => (di_serial a <= di_serial b)%N) l -> StronglySorted (fun a b => (di_serial a <= di_serial b)%N) k -> l = k.
Proof.
  intros Hn Hp Hl Hk. apply (same_serials k); [done|intros d Hd; by rewrite <- Hp|done|].
  apply (StronglySorted_unique N.le); [by apply sorted_serials..|]. by rewrite Hp.
Qed.
Lemma used_once x limit n0 n : NoDup (di_serial <$> n_deltas n0) -> in_use x limit n0 n -> NoDup (di_serial <$> n_deltas n).
Proof.
  intros Hn (_ & _ & _ & _ & (older & Hp & _) & _). rewrite <- Hp in Hn. rewrite fmap_app in Hn. by apply NoDup_app in Hn as (_ & _ & ?).
Qed.
(** the last of the deltas in use is that to the serial of the version *)
Lemma used_last x limit n0 n : ends_at_serial n0 -> in_use x limit n0 n -> n_deltas n0 <> [] ->
  last (di_serial <$> n_deltas n) = Some (n_serial n0).
Proof.
  intros He (_ & _ & _ & _ & (older & Hp & Hso & _) & _ & Hl) Hne. destruct (Hl Hne) as (m & Hm & _).
  destruct (He Hne) as [E1 E2]. rewrite fmap_last, Hm. cbn. f_equal. apply N.le_antisymm.
  - apply E2. rewrite <- Hp. apply elem_of_app. right. by apply last_Some_elem_of.
  - apply elem_of_list_fmap in E1 as (d & -> & Hd). rewrite <- Hp in Hd. apply elem_of_app in Hd as [Hd|Hd].
    + apply (sorted_split _ _ _ _ _ Hso Hd). by apply last_Some_elem_of.
    + apply last_Some in Hm as [l' Hm]. rewrite Hm in Hd, Hso. apply elem_of_app in Hd as [Hd| ->%elem_of_list_singleton]; [|done].
      apply sorted_app_r in Hso. apply (sorted_split _ _ _ _ _ Hso Hd). left.
Qed.
Lemma used_empty x limit n0 n : in_use x limit n0 n -> n_deltas n0 = [] -> n_deltas n = [].
Proof.
  intros (_ & _ & _ & _ & (older & Hp & _) & _) E. rewrite E in Hp. apply Permutation_nil_r, app_eq_nil in Hp. tauto.
Qed.

(** what is in use of what a mirror shows *)
Lemma tighter_use x l1 l2 n0 n1 n1' n2 : NoDup (di_serial <$> n_deltas n0) ->
  in_use x l1 n0 n1 -> turned n1 n1' -> in_use x l2 n1' n2 -> in_use x (tighter l1 l2) n0 n2.
Proof.
  intros Hn Hu1 -> Hu2. pose proof (used_once _ _ _ _ Hn Hu1) as Hn1.
  destruct Hu1 as (A1 & A2 & A3 & A4 & (o1 & P1 & S1 & L1) & C1 & E1).
  destruct Hu2 as (B1 & B2 & B3 & B4 & (o2 & P2 & S2 & L2) & C2 & E2). cbn in *.
  assert (E : o2 ++ n_deltas n2 = n_deltas n1).
  { apply sorted_perm; [done|by rewrite P2, reverse_Permutation|done|by eapply sorted_app_r]. }
  do 4 (split; [congruence|]). split; [|split; [done|]].
  - exists (o1 ++ o2). rewrite <- (assoc_L (++)), E. split; [done|]. split; [done|].
    rewrite app_length, L1, L2, reverse_length. apply Permutation_length in P1. rewrite app_length in P1.
    unfold tighter. destruct l1, l2; lia.
  - intros Hne. destruct E2 as (d & Hd & Hx).
    + intros Hr. destruct (E1 Hne) as (m & Hm & _). apply (f_equal reverse) in Hr. rewrite reverse_involutive in Hr. by rewrite Hr in Hm.
    + exists d. split; [done|]. intros Hs. rewrite (Hx Hs). done.
Qed.

Section relay.
  Context (c : config) (base name : string) (x : ext) (src src2 : nat -> notification).
  Context (Hc : cfg_ok c base name) (Ho : orderly src) (Hri : rising src) (Hg : forall i, good_notif base name (src i)) (Hx : clean_snapshots x).
  Context (Hinj : forall n n', x_write_notif x n = x_write_notif x n' -> n = n') (Hre : relayed c base name x src src2).

  Lemma relay_shown j : exists a n, in_use x (c_max_deltas c) (src a) n /\ turned n (src2 j).
  Proof using Hc Ho Hg Hx Hinj Hre.
    destruct (re_shown _ _ _ _ _ _ Hre j) as (k & f & Hk & Hd).
    destruct (shown_version c base name x src Hc Ho Hg Hx Hinj k f (src2 j) Hk Hd) as (a & n & _ & Hu & Ht). by exists a, n.
  Qed.
  Lemma relay_good j : good_notif base name (src2 j).
  Proof using Hc Ho Hg Hx Hinj Hre.
    destruct (relay_shown j) as (a & n & Hu & Ht). intros u h rel Hin. apply (Hg a u h). eapply in_use_refs; [exact Hu|].
    rewrite Ht in Hin. unfold refs in *. cbn in Hin. apply elem_of_cons in Hin as [Hin|Hin]; apply elem_of_cons; [by left|right].
    apply elem_of_list_fmap in Hin as (d & E & Hd). apply elem_of_list_fmap. exists d. by rewrite <- elem_of_reverse.
  Qed.
  Lemma relay_orderly : orderly src2.
  Proof using Hc Ho Hri Hg Hx Hinj Hre.
    split.
    - intros i j E1 E2. destruct (relay_shown i) as (a & n & Hu & Ht), (relay_shown j) as (b & m & Hv & Hw).
      rewrite Ht, Hw in *. cbn in E1, E2.
      assert (E : src b = src a).
      { destruct Hu as (U1 & U2 & _), Hv as (V1 & V2 & _). apply (od_version _ Ho); congruence. }
      rewrite E in Hv. pose proof (usable_sav _ _ _ _ (conj Hu (od_once _ Ho a))) as F1.
      pose proof (usable_sav _ _ _ _ (conj Hv (od_once _ Ho a))) as F2. congruence.
    - intros j. destruct (relay_shown j) as (a & n & Hu & ->). cbn. rewrite fmap_reverse, reverse_Permutation.
      eapply used_once; [apply (od_once _ Ho)|exact Hu].
    - intros j. destruct (relay_shown j) as (a & n & Hu & ->). unfold ends_at_serial. cbn. intros Hne.
      assert (Hne0 : n_deltas (src a) <> []) by (intros E; apply Hne; rewrite (used_empty _ _ _ _ Hu E); apply reverse_nil).
      pose proof (used_last _ _ _ _ (od_ends _ Ho a) Hu Hne0) as Hl. split.
      + rewrite fmap_reverse, elem_of_reverse, (proj1 (proj2 Hu)). by apply last_Some_elem_of.
      + intros d Hd. rewrite elem_of_reverse in Hd. rewrite (proj1 (proj2 Hu)). apply (proj2 (od_ends _ Ho a Hne0)). destruct Hu as (_ & _ & _ & _ & Hnw & _). by apply (Limited.newest_sub _ _ _ _ Hnw).
    - intros i j d Hij Es Hd Hle. pose proof (re_order _ _ _ _ _ _ Hre i j Hij Es) as Hser.
      destruct (relay_shown i) as (a & n & Hu & Ht), (relay_shown j) as (b & m & Hv & Hw).
      rewrite Ht, Hw in *. cbn in *. rewrite elem_of_reverse in Hd |- *.
      pose proof Hu as (U1 & U2 & _ & _ & (o & P & So & L) & C & _). pose proof Hv as (V1 & V2 & _ & _ & (o' & P' & S' & L') & C' & _).
      assert (Hdb : d ∈ n_deltas (src b)) by (rewrite <- P'; apply elem_of_app; by right).
      assert (Hda : d ∈ n_deltas (src a)).
      { destruct (decide (a <= b)) as [Hab|Hab]; [apply (od_front _ Ho a b); [done|congruence|done|by rewrite <- U2]|].
        rewrite (od_version _ Ho a b); [done|congruence|]. apply N.le_antisymm; [congruence|]. apply Hri; [lia|congruence]. }
      pose proof Hda as Hin. rewrite <- P in Hin. apply elem_of_app in Hin as [Hin|?]; [exfalso|done].
      assert (Hna : n_deltas (src a) <> []) by (intros E; rewrite E in Hda; by apply elem_of_nil in Hda).
      assert (Hnb : n_deltas (src b) <> []) by (intros E; rewrite E in Hdb; by apply elem_of_nil in Hdb).
      pose proof (used_last _ _ _ _ (od_ends _ Ho a) Hu Hna) as La. pose proof (used_last _ _ _ _ (od_ends _ Ho b) Hv Hnb) as Lb.
      destruct (consec_range _ _ (di_serial d) C' Lb) as [_ R2]; [apply elem_of_list_fmap; by exists d|].
      destruct (di_serial <$> n_deltas n) as [|h l] eqn:El; [done|].
      assert (Hh : (di_serial d < h)%N).
      { destruct (n_deltas n) as [|dh dl] eqn:En; [done|]. injection El as Eh _.
        assert (Hle2 : (di_serial d <= di_serial dh)%N) by (apply (sorted_split _ _ _ _ _ So Hin); left).
        pose proof (od_once _ Ho a) as Hno. rewrite <- P, fmap_app in Hno. apply NoDup_app in Hno as (_ & Hno & _).
        assert (di_serial d <> di_serial dh); [|lia]. intros E. apply (Hno (di_serial d)); [apply elem_of_list_fmap; by exists d|].
        rewrite E. left. }
      rewrite last_lookup in La. pose proof (consec_at _ h _ _ C eq_refl La) as Ea. cbn [length] in Ea.
      assert (Hll : length (n_deltas n) = S (length l)) by (rewrite <- (fmap_length di_serial), El; done).
      rewrite fmap_length in R2. apply Permutation_length in P, P'. rewrite app_length in P, P'.
      assert (Hol : length o <> 0) by (destruct o; [by apply elem_of_nil in Hin|done]).
      destruct (c_max_deltas c) as [q|]; [|lia]. rewrite U2, V2 in Hser. cbn in Ea. lia.
  Qed.
End relay.

(** ** Theorems *)
(** What the first mirror shows is accepted by the second, which uses the newest
    deltas of it that its own limit allows. *)
Theorem C87_accepted c base name x src k f n1 limit :
  cfg_ok c base name -> orderly src -> (forall i, good_notif base name (src i)) -> clean_snapshots x ->
  (forall n n', x_write_notif x n = x_write_notif x n' -> n = n') ->
  keeps_up c base name x src k f -> displays c name x f n1 -> limit <> Some 0 ->
  good_notif base name n1 /\ exists n, usable_notif x limit n1 n.
Proof.
  intros Hc Ho Hg Hx Hinj Hk Hd Hlim. destruct (shown_version c base name x src Hc Ho Hg Hx Hinj k f n1 Hk Hd) as (a & n & _ & Hu & ->).
  unfold version in Hu. split.
  { intros u h rel Hin. apply (Hg a u h). eapply in_use_refs; [exact Hu|]. unfold refs in *. cbn in Hin.
    apply elem_of_cons in Hin as [Hin|Hin]; apply elem_of_cons; [by left|right].
    apply elem_of_list_fmap in Hin as (d & E & Hd'). apply elem_of_list_fmap. exists d. by rewrite <- elem_of_reverse. }
  pose proof (used_once _ _ _ _ (od_once _ Ho a) Hu) as Hn.
  pose proof Hu as (U1 & U2 & U3 & U4 & (o & P & S & L) & C & E).
  set (j := match limit with Some q => length (n_deltas n) - q | None => 0 end).
  exists (mkNotif (n_session n) (n_serial n) (n_snap_uri n) (n_snap_hash n) (drop j (n_deltas n))).
  split; [|cbn; by rewrite fmap_reverse, reverse_Permutation]. do 4 (split; [done|]). split; [|split].
  - exists (take j (n_deltas n)). cbn. rewrite take_drop, reverse_Permutation, reverse_length. split; [done|]. split; [by eapply sorted_app_r|].
    rewrite take_length. unfold j. destruct limit; lia.
  - cbn. rewrite fmap_drop. by apply consec_drop.
  - cbn. intros Hne. assert (Hne1 : n_deltas n <> []) by (intros E0; rewrite E0 in Hne; done).
    destruct E as (d & Hl & Hs); [intros E0; by rewrite (used_empty _ _ _ _ Hu E0) in Hne1|].
    exists d. split; [|by rewrite U2]. rewrite last_lookup in Hl |- *. rewrite lookup_drop, drop_length. rewrite <- Hl. f_equal.
    assert (j < length (n_deltas n)); [|lia]. unfold j. destruct (n_deltas n); [done|]. cbn. destruct limit as [[|q]|]; [done|lia..].
Qed.

(** A mirror of a mirror shows, at every instant and whatever happened before,
    exactly a version of the first source, with its newest deltas, as many as the
    smaller of the two limits allows. *)
Theorem C87_relay c1 c2 base name x src src2 k f :
  cfg_ok c1 base name -> cfg_ok c2 base name -> orderly src -> rising src -> (forall i, good_notif base name (src i)) -> clean_snapshots x ->
  (forall n n', x_write_notif x n = x_write_notif x n' -> n = n') ->
  relayed c1 base name x src src2 -> keeps_up c2 base name x src2 k f ->
  f !! notif_path c2 name = None \/
  exists i n n', in_use x (tighter (c_max_deltas c1) (c_max_deltas c2)) (src i) n /\ turned n n' /\
    f !! notif_path c2 name = Some (File (x_write_notif x n') None).
Proof.
  intros Hc1 Hc2 Ho Hri Hg Hx Hinj Hre Hk.
  pose proof (relay_orderly c1 base name x src src2 Hc1 Ho Hri Hg Hx Hinj Hre) as Ho2.
  pose proof (relay_good c1 base name x src src2 Hc1 Ho Hg Hx Hinj Hre) as Hg2.
  destruct (C78_shows c2 base name x src2 k f Hc2 Ho2 Hg2 Hx Hk) as [?|(j & n & n' & _ & Hu & Ht & Hd)]; [by left|right].
  destruct (relay_shown c1 base name x src src2 Hc1 Ho Hg Hx Hinj Hre j) as (a & m & Hm & Hmt).
  exists a, n, n'. split; [|done]. eapply tighter_use; [apply (od_once _ Ho)|exact Hm|exact Hmt|exact Hu].
Qed.

(** And so on for any number of mirrors in a row: what a mirror shows is an orderly
    source again. *)
Theorem C87_again c base name x src src2 :
  cfg_ok c base name -> orderly src -> rising src -> (forall i, good_notif base name (src i)) -> clean_snapshots x ->
  (forall n n', x_write_notif x n = x_write_notif x n' -> n = n') -> relayed c base name x src src2 ->
  orderly src2 /\ rising src2 /\ forall i, good_notif base name (src2 i).
Proof.
  intros Hc Ho Hri Hg Hx Hinj Hre. split; [by apply (relay_orderly c base name x src src2)|]. split; [apply Hre|]. by apply (relay_good c base name x src src2).
Qed.

(** ** Example *)
(** The first mirror takes two deltas at most; it has shown serial 3 and then serial
    5.  The second has read both from it, and shows serial 5 with two deltas, while
    the source lists three. *)
Definition relay_src (j : nat) : notification :=
  match j with 0 => notif_for uuid_A 3 [3; 2]%N | _ => notif_for uuid_A 5 [5; 4]%N end.
Definition relay_docs (j : nat) : list (string * string) :=
  match j with 0 => docs_for uuid_A 3 [3; 2]%N | _ => docs_for uuid_A 5 [5; 4]%N end.
Definition relay_env (j : nat) : env := run_env (relay_docs j) (1000 * Z.of_nat j).
Definition second1 : fs := after (run server2 (relay_env 0) start_tree).
Definition second2 : fs := after (run server2 (relay_env 1) second1).
Definition shows_b (c : config) (f : fs) (n : notification) : bool :=
  bool_decide (f !! notif_path c name = Some (File (x_write_notif safe_ext n) None)).
Definition relay_b (o1 o2 s1 s2 : fs) : bool :=
  shows_b (limited 2) o1 (relay_src 0) && shows_b (limited 2) o2 (relay_src 1) &&
  shows_b server2 s1 (relay_src 0) && shows_b server2 s2 (relay_src 1).
Lemma relay_checked : relay_b one1 one2 second1 second2 = true.
Proof. vm_cast_no_check (eq_refl true). Qed.
Lemma relay_facts o1 o2 s1 s2 : relay_b o1 o2 s1 s2 = true ->
  displays (limited 2) name safe_ext o1 (relay_src 0) /\ displays (limited 2) name safe_ext o2 (relay_src 1) /\
  displays server2 name safe_ext s1 (relay_src 0) /\ displays server2 name safe_ext s2 (relay_src 1).
Proof.
  intros [[[H1 H2]%andb_true_iff H3]%andb_true_iff H4]%andb_true_iff. apply bool_decide_eq_true in H1, H2, H3, H4. done.
Qed.
Lemma relay_offers j f n : j <= 1 -> offers server2 (relay_env j) f n -> n = relay_src j.
Proof.
  intros Hj H. apply serve_offers in H as (b & H1 & H2); [|done..].
  assert (E : x_parse_notif safe_ext (json_text (j_notif (relay_src j))) = Some (relay_src j) /\
          Demo.assoc (relay_docs j) notif_uri = Some (json_text (j_notif (relay_src j)))).
  { destruct j as [|[|j]]; [..|lia]; by vm_compute. }
  destruct E as [E4 E5]. congruence.
Qed.
Lemma ku_second j f g : j <= 1 -> keeps_up server2 base name safe_ext relay_src 0 f -> g ∈ instants server2 (relay_env j) f ->
  keeps_up server2 base name safe_ext relay_src j g.
Proof.
  intros Hj H Hg. eapply (ku_run _ _ _ _ _ 0 j f server2 (relay_env j)); [exact H|done|done|done|lia| |exact Hg].
  intros n ->%relay_offers; [|done]. exists j. split; [lia|]. done.
Qed.
Lemma ku_second0 : keeps_up server2 base name safe_ext relay_src 0 start_tree.
Proof. apply ku_start; [apply start_wf|done|done]. Qed.
Lemma src3_rising : rising src3.
Proof.
  intros i j Hij. destruct i as [|[|i]], j as [|[|j]]; try lia; cbn [src3]; intros E; try (by vm_compute in E); by vm_compute.
Qed.
Opaque run.
Lemma relay_relayed : displays (limited 2) name safe_ext one1 (relay_src 0) -> displays (limited 2) name safe_ext one2 (relay_src 1) ->
  relayed (limited 2) base name safe_ext src3 relay_src.
Proof.
  intros H1 H2. pose proof (ku_one 0 start_tree one1 (Nat.le_0_l 1) ku_one0 (after_instant (limited 2) (env3 0) start_tree)) as K1.
  pose proof (ku_one 1 one1 one2 (le_n 1) K1 (after_instant (limited 2) (env3 1) one1)) as K2. split.
  - intros [|j]; [exists 0, one1; exact (conj K1 H1)|exists 1, one2; exact (conj K2 H2)].
  - intros [|i] [|j] Hij _; [by vm_compute..|lia|by vm_compute].
Qed.
Example C87_applies :
  cfg_ok (limited 2) base name /\ cfg_ok server2 base name /\ orderly src3 /\ rising src3 /\
  (forall i, good_notif base name (src3 i)) /\ clean_snapshots safe_ext /\
  (forall n n', x_write_notif safe_ext n = x_write_notif safe_ext n' -> n = n') /\
  keeps_up (limited 2) base name safe_ext src3 1 one2 /\ displays (limited 2) name safe_ext one2 (relay_src 1) /\
  relayed (limited 2) base name safe_ext src3 relay_src /\
  keeps_up server2 base name safe_ext relay_src 1 second2 /\
  displays server2 name safe_ext second2 (read5 [5; 4]%N) /\ length (n_deltas (src3 1)) = 3.
Proof.
  destruct (relay_facts _ _ _ _ relay_checked) as (H1 & H2 & _ & H4).
  split; [exact (limited_ok 2)|]. split; [exact server2_ok|]. split; [exact src3_orderly|]. split; [exact src3_rising|].
  split; [exact src3_good|]. split; [exact safe_clean|]. split; [exact demo_write_inj|].
  split; [exact (ku_one 1 one1 one2 (le_n 1) (ku_one 0 start_tree one1 (Nat.le_0_l 1) ku_one0 (after_instant (limited 2) (env3 0) start_tree))
      (after_instant (limited 2) (env3 1) one1))|].
  split; [exact H2|]. split; [exact (relay_relayed H1 H2)|].
  split; [|split; [exact H4|reflexivity]].
  exact (ku_second 1 second1 second2 (le_n 1) (ku_second 0 start_tree second1 (Nat.le_0_l 1) ku_second0 (after_instant server2 (relay_env 0) start_tree))
    (after_instant server2 (relay_env 1) second1)).
Qed.
Transparent run.
Print Assumptions C87_accepted.
Print Assumptions C87_relay.
Print Assumptions C87_again.
