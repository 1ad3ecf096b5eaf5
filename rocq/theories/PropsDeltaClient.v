(** * A client that follows the deltas gets what the snapshot contains: C67 *)
From Coq Require Import ZifyN ZifyNat ZifyBool.
From Verif Require Import DemoRun Chain PropsCopied PropsClient PropsHistory PropsLive.
From Verif Require Import FsWf HistoryProofs.

(** ** The specification *)
(** what a repository holds: names of objects and their contents *)
Notation objects := (gmap string string).

(** the snapshot file [b] lists exactly the objects [o] *)
Definition snapshot_says (x : ext) (b : string) (o : objects) : Prop :=
  exists els, x_snapshot x b = (els, true) /\
    forall u a, o !! u = Some a <-> exists r, rsync_str r = u /\ (r, Some a) ∈ els.

(** one element of a delta file, RFC 8182 section 3.5.3.3: a new object is
    added, an object with the given hash is replaced, or withdrawn *)
Inductive changes (x : ext) : delta_element -> objects -> objects -> Prop :=
| ch_add u a o : o !! rsync_str u = None -> changes x (DPublish u a) o (<[rsync_str u := a]> o)
| ch_replace u h a a' o : o !! rsync_str u = Some a' -> x_hash x a' = h ->
    changes x (DUpdate u h a) o (<[rsync_str u := a]> o)
| ch_withdraw u h a' o : o !! rsync_str u = Some a' -> x_hash x a' = h ->
    changes x (DWithdraw u h) o (delete (rsync_str u) o).
Inductive all_changes (x : ext) : list delta_element -> objects -> objects -> Prop :=
| ac_nil o : all_changes x [] o o
| ac_cons el l o o' o'' : changes x el o o' -> all_changes x l o' o'' -> all_changes x (el :: l) o o''.
(** the delta file [b] turns [o] into [o'] *)
Definition delta_takes (x : ext) (b : string) (o o' : objects) : Prop :=
  exists els, x_delta x b = Some els /\ all_changes x els o o'.

(** [content s k]: the source's objects in session [s] at serial [k].  All its
    snapshot and delta files say so, and nothing else has their hashes. *)
Record says (x : ext) (src : nat -> notification) (content : uuid -> N -> objects) : Prop := {
  sy_snapshot : forall i b, x_hash x b = n_snap_hash (src i) ->
    snapshot_says x b (content (n_session (src i)) (n_serial (src i)));
  sy_delta : forall i d k b, d ∈ n_deltas (src i) -> di_serial d = (k + 1)%N -> x_hash x b = di_hash d ->
    delta_takes x b (content (n_session (src i)) k) (content (n_session (src i)) (k + 1)%N) }.

(** A client that has read [n] and holds the objects [o] of serial [k] fetches
    the delta for the next serial, checks its hash and makes its changes, and so
    on up to the serial of [n]; it then has the objects [o'].  [fetches u b]:
    fetching [u] can give [b]. *)
Inductive catches_up (x : ext) (fetches : https -> string -> Prop) (n : notification) : N -> objects -> objects -> Prop :=
| cu_done o : catches_up x fetches n (n_serial n) o o
| cu_next k d b o o' o'' : d ∈ n_deltas n -> di_serial d = (k + 1)%N -> fetches (di_uri d) b -> x_hash x b = di_hash d ->
    delta_takes x b o o' -> catches_up x fetches n (k + 1)%N o' o'' -> catches_up x fetches n k o o''.

(** fetching from the mirror, at any time since the client has read [n], with
    any runs in between, until the cleanup time is over *)
Definition from_mirror (c : config) (base name : string) (x : ext) (src : nat -> notification) (T : Z) (n : notification)
    (u : https) (b : string) : Prop :=
  exists k f rel m, client c base name x src T n k f /\ u = base +:+ rel /\ f !! public_path c rel = Some (File b m).

(** ** Proof *)
Section genuine.
  Context (c : config) (base name : string) (x : ext) (src : nat -> notification).
  Context (Hc : cfg_ok c base name) (Hstable : stable_source x (c_max_deltas c) src)
    (Hgood : forall i, good_notif base name (src i)) (Hsnap : clean_snapshots x).
  Context (Hinj : forall n n', x_write_notif x n = x_write_notif x n' -> n = n').
  Context (Hends : forall i, ends_at_serial (src i)).

  Lemma follows_mirror k f : follows c base name x src k f -> mirror ends_at_serial c base name f.
  Proof.
    induction 1 as [f Hwf E _ _|k k' f c' e g Hf IH Hpl Hmax Hx _ _ _ _ Hoff Hg|k f g Hf IH Hwf Ho].
    - by apply mi_start.
    - eapply (mi_run _ _ _ _ f c' e); [done|done| | |done].
      + split; [|by rewrite Hx]. intros n (i & _ & _ & ->)%Hoff. apply Hgood.
      + intros n (i & _ & _ & ->)%Hoff. apply Hends.
    - by eapply mi_else.
  Qed.

  (** all that a served notification says is taken from the source's *)
  Definition genuine (n : notification) : Prop :=
    (forall a, a ∈ listings n -> exists i, a ∈ listings (src i)) /\ unbroken n.

  Lemma listed_src k se ki rel sr h : listed c base x src k se ki rel sr h ->
    exists i, mkListing (base +:+ rel) h se sr ki ∈ listings (src i).
  Proof. intros (i & n & _ & Hv & Ha). exists i. by eapply version_listing. Qed.

  Lemma follows_genuine k f n : follows c base name x src k f -> displays c name x f n -> genuine n.
  Proof.
    intros Hf. revert n. induction Hf as [f Hwf E HN _|k k' f c' e g Hf IH Hpl Hmax Hx H304 Hcopy Hpat Hkk Hoff Hg|k f g Hf IH Hwf Ho]; intros n Hn.
    - unfold displays in Hn. congruence.
    - destruct (follows_inv c base name x src Hc Hstable Hgood Hsnap k f Hf) as [L Hi].
      assert (Hs : sane c' base name e f) by (eapply (run_sane c base name x src Hc Hgood Hsnap k k' L); eauto).
      unfold displays in *. rewrite <- (places_N c c' name Hpl) in *.
      destruct (instant_notif c' base name e f g Hs Hg) as [E|(st & n0 & n1 & sg & f1 & v & st' & f2 & cb & st2 & f3 & f4 & n' & Ha & Hn' & E)].
      { apply IH. by rewrite <- E. }
      assert (Hset : chain_setting c' base name e f).
      { split; [by apply (places_cfg c c' base name Hpl)| | |].
        - apply (mirror_places _ c); [done|]. by eapply follows_mirror.
        - split; [|by rewrite Hx]. intros n2 (i & _ & _ & ->)%Hoff. apply Hgood.
        - intros n2 (i & _ & _ & ->)%Hoff. apply Hends. }
      destruct (C08_unbroken c' base name e f g Hset Hg) as [E'|(n2 & E' & Hub)].
      { apply IH. by rewrite <- E'. }
      rewrite Hx in E, E'. rewrite E in Hn, E'. injection Hn as Hn. injection E' as E'. apply Hinj in Hn, E'. subst n' n2.
      split; [|done].
      assert (HS : state_inv c base x src k' st2) by (eapply (new_state_inv c base name x src); eauto).
      destruct Hn' as (s & Es & ->). intros a [->|(d' & -> & (d & -> & Hd)%elem_of_list_fmap)%elem_of_list_fmap]%elem_of_cons.
      + eapply listed_src. by apply (si_snap _ _ _ _ _ _ HS).
      + destruct (si_deltas _ _ _ _ _ _ HS d Hd) as (s' & Es' & Hl). rewrite Es in Es'. injection Es' as <-.
        by eapply listed_src.
    - apply IH. unfold displays in *. rewrite <- Ho; [done|]. right. left. apply under_app.
  Qed.

  Lemma client_genuine T n k f : client c base name x src T n k f -> genuine n.
  Proof.
    induction 1 as [k f Hf Hn|k k' f c' e i g j g' Hf Hw H1 H2 H3 H4|k k' f c' e g Hcl IH Hw Hg|k f g Hcl IH H1 H2].
    - by eapply follows_genuine.
    - apply (follows_genuine k' g); [|done].
      eapply (fo_run _ _ _ _ _ k k' f c' e); [done|apply Hw..|intros Hm; by destruct (rw_rename _ _ _ _ _ _ _ _ _ Hw)| |apply Hw|apply Hw|].
      + by eapply within_patient.
      + by eapply elem_of_list_lookup_2.
    - done.
    - done.
  Qed.
End genuine.

(** the serials of an unbroken notification *)
Lemma unbroken_serials n : unbroken n -> forall i d, n_deltas n !! i = Some d -> (di_serial d + N.of_nat i)%N = n_serial n.
Proof.
  intros [U1 U2]. induction i as [|i IH]; intros d Hd.
  - rewrite <- (U1 d); [lia|]. by rewrite head_lookup.
  - destruct (n_deltas n !! i) as [d'|] eqn:E.
    + specialize (IH _ eq_refl). pose proof (U2 _ _ _ E Hd). lia.
    + apply lookup_ge_None in E. apply lookup_lt_Some in Hd. lia.
Qed.
(** with one serial, all later ones up to the notification's *)
Lemma unbroken_next n d k : unbroken n -> d ∈ n_deltas n -> (di_serial d <= k + 1)%N -> (k < n_serial n)%N ->
  exists d', d' ∈ n_deltas n /\ di_serial d' = (k + 1)%N.
Proof.
  intros Hu [i Hi]%elem_of_list_lookup_1 H1 H2. pose proof (unbroken_serials n Hu _ _ Hi) as H3.
  destruct (lookup_lt_is_Some_2 (n_deltas n) (N.to_nat (n_serial n - (k + 1)))) as [d' Hd'].
  - apply lookup_lt_Some in Hi. lia.
  - exists d'. split; [by eapply elem_of_list_lookup_2|]. pose proof (unbroken_serials n Hu _ _ Hd'). lia.
Qed.

(** making changes has one result *)
Lemma all_changes_det x els o o1 o2 : all_changes x els o o1 -> all_changes x els o o2 -> o1 = o2.
Proof.
  intros H. revert o2. induction H as [o|el l o o' o'' H1 H2 IH]; intros o2 H3; inversion H3 as [|? ? ? o3 ? H4 H5]; subst; [done|].
  apply IH. enough (o' = o3) by congruence. inversion H1; subst; inversion H4; subst; done.
Qed.
Lemma delta_takes_det x b o o1 o2 : delta_takes x b o o1 -> delta_takes x b o o2 -> o1 = o2.
Proof.
  intros (els & E & H1) (els' & E' & H2). rewrite E in E'. injection E' as <-. by eapply all_changes_det.
Qed.

(** ** C67 *)
(** A client has read the notification [n] from the mirror and holds the source's
    objects of an earlier serial [j], and [n] lists the next delta.  It can catch
    up, with the files that it fetches from the mirror while other runs go on;
    however it does, it ends with the source's objects of the serial of [n]; and
    these are the objects in the snapshot that it could have fetched instead.  No
    file it can fetch has another hash than the listed one. *)
Theorem C67_catches_up c base name x src content T n k f j :
  cfg_ok c base name ->
  stable_source x (c_max_deltas c) src ->
  (forall i, good_notif base name (src i)) ->
  clean_snapshots x ->
  (forall n n', x_write_notif x n = x_write_notif x n' -> n = n') ->
  (forall i, ends_at_serial (src i)) ->
  says x src content ->
  client c base name x src T n k f ->
  (j = n_serial n \/ (exists d, d ∈ n_deltas n /\ di_serial d = (j + 1)%N)) ->
  let s := n_session n in
  let fetches := from_mirror c base name x src T n in
  (exists o, catches_up x fetches n j (content s j) o) /\
  (forall o, catches_up x fetches n j (content s j) o -> o = content s (n_serial n)) /\
  (exists b, fetches (n_snap_uri n) b) /\
  (forall b, fetches (n_snap_uri n) b -> snapshot_says x b (content s (n_serial n))) /\
  (forall u h b, (u, h) ∈ refs n -> fetches u b -> x_hash x b = h).
Proof.
  intros Hc Hst Hg Hsn Hinj Hends Hsay Hcl Hj s fetches.
  destruct (client_genuine c base name x src Hc Hst Hg Hsn Hinj Hends T n k f Hcl) as [Hgen Hub].
  assert (Hfetch : forall u h, (u, h) ∈ refs n -> exists b, fetches u b /\ x_hash x b = h).
  { intros u h Hin. destruct (C62_fetchable c base name x src T n k f Hc Hst Hg Hsn Hinj Hcl u h Hin) as (rel & b & m & H1 & H2 & H3).
    exists b. split; [|done]. by exists k, f, rel, m. }
  assert (Hfetched : forall u h b, (u, h) ∈ refs n -> fetches u b -> x_hash x b = h).
  { intros u h b Hin (k' & f' & rel & m & Hcl' & -> & Hb).
    destruct (C62_fetchable c base name x src T n k' f' Hc Hst Hg Hsn Hinj Hcl' _ h Hin) as (rel' & b' & m' & H1 & H2 & H3).
    apply sapp_inv_head in H1 as <-. congruence. }
  assert (Hdelta : forall d i b, d ∈ n_deltas n -> di_serial d = (i + 1)%N -> x_hash x b = di_hash d ->
    delta_takes x b (content s i) (content s (i + 1)%N)).
  { intros d i b Hd Es Hb. destruct (Hgen (mkListing (di_uri d) (di_hash d) s (di_serial d) DeltaFile)) as [v Hv].
    { right. apply elem_of_list_fmap. by exists d. }
    apply elem_of_cons in Hv as [[=]|(d' & [= E1 E2 E3 E4] & Hd')%elem_of_list_fmap].
    rewrite E3. eapply (sy_delta _ _ _ Hsay v d'); [done|congruence|congruence]. }
  assert (Hsnap : forall b, x_hash x b = n_snap_hash n -> snapshot_says x b (content s (n_serial n))).
  { intros b Hb. destruct (Hgen (mkListing (n_snap_uri n) (n_snap_hash n) s (n_serial n) SnapshotFile)) as [v Hv].
    { left. }
    apply elem_of_cons in Hv as [[= E1 E2 E3 E4]|(d' & [=] & _)%elem_of_list_fmap].
    rewrite E3, E4. apply (sy_snapshot _ _ _ Hsay v). congruence. }
  assert (Hle : forall d, d ∈ n_deltas n -> (di_serial d <= n_serial n)%N).
  { intros d [i Hi]%elem_of_list_lookup_1. pose proof (unbroken_serials n Hub _ _ Hi). lia. }
  split; [|split; [|split; [|split; [|done]]]].
  - assert (Hup : forall m i, (i + N.of_nat m)%N = n_serial n -> (j <= i)%N -> exists o, catches_up x fetches n i (content s i) o).
    { induction m as [|m IH]; intros i Em Hi.
      - exists (content s i). replace i with (n_serial n) by lia. constructor.
      - destruct Hj as [->|(d0 & Hd0 & Es0)]; [lia|].
        destruct (unbroken_next n d0 i Hub Hd0) as (d & Hd & Es); [lia..|].
        destruct (IH (i + 1)%N) as [o Ho]; [lia..|]. exists o.
        destruct (Hfetch (di_uri d) (di_hash d)) as (b & Hb & Eb).
        { right. apply elem_of_list_fmap. by exists d. }
        by apply (cu_next x fetches n i d b (content s i) (content s (i + 1)%N) o); [..|eapply Hdelta|]. }
    apply (Hup (N.to_nat (n_serial n - j)) j); [|lia]. destruct Hj as [->|(d & Hd & Es)]; [lia|].
    specialize (Hle d Hd). lia.
  - intros o Ho. clear Hj. remember (content s j) as o0 eqn:E0.
    induction Ho as [o|i d b o o' o'' Hd Es Hb Eb Ht Ho IH]; [done|]. apply IH.
    eapply delta_takes_det; [exact Ht|]. rewrite E0. by eapply Hdelta.
  - destruct (Hfetch (n_snap_uri n) (n_snap_hash n)) as (b & Hb & _); [left|]. by exists b.
  - intros b Hb. apply Hsnap. eapply Hfetched; [|done]. left.
Qed.

(** *** A case: every version has two objects, one of them new; a client that
    holds serial 3 has read serial 5, and then a new session has begun *)
Definition dc_objects (s : uuid) (k : N) : list (rsync_uri * string) := [obj (sid s); obj (pretty k)].
Definition dc_content (s : uuid) (k : N) : objects :=
  list_to_map ((fun r => (rsync_str r.1, r.2)) <$> dc_objects s k).
Definition dc_delta (k : N) : string :=
  let old := obj (pretty (k - 1)%N) in let new := obj (pretty k) in
  delta_text [DWithdraw old.1 ("h:" +:+ old.2); DPublish new.1 new.2].
Definition dc_notif (s : uuid) (k : N) (ds : list N) : notification :=
  mkNotif s k (base +:+ snap_rel s k) ("h:" +:+ snap_doc s k)
    ((fun i => mkDI i (base +:+ delta_rel s i) ("h:" +:+ dc_delta i)) <$> ds).
Definition dc_src (i : nat) : notification :=
  match i with 0 => dc_notif uuid_A 4 [4]%N | 1 => dc_notif uuid_A 5 [4; 5]%N | _ => dc_notif uuid_B 1 [] end.
Definition dc_docs (i : nat) : list (string * string) :=
  let n := dc_src i in
  (notif_uri, json_text (j_notif n)) :: (n_snap_uri n, snap_doc (n_session n) (n_serial n)) ::
  ((fun d => (di_uri d, dc_delta (di_serial d))) <$> n_deltas n).
Definition dc_env (i : nat) : env := fixed_env (dc_docs i) 1000.
Definition dc_t1 : fs := after (run demo_config (dc_env 0) start_tree).
Definition dc_t2 : fs := after (run demo_config (dc_env 1) dc_t1).
Definition dc_t3 : fs := after (run demo_config (dc_env 2) dc_t2).
(** what the client has read *)
Definition dc_read : notification := dc_notif uuid_A 5 [5; 4]%N.

Lemma dc_cases i : dc_src i = dc_src 0 \/ dc_src i = dc_src 1 \/ dc_src i = dc_src 2.
Proof. destruct i as [|[|i]]; auto. Qed.
Lemma dc_good i : good_notif base DemoRun.name (dc_src i).
Proof. apply good_check_ok. destruct (dc_cases i) as [->|[->| ->]]; by vm_compute. Qed.
Lemma dc_gone : forall i j l, i <= j -> j <= l ->
  lists_check (sort_and_verify live_ext (Some 100) (dc_src i)) (sort_and_verify live_ext (Some 100) (dc_src j))
    (sort_and_verify live_ext (Some 100) (dc_src l)) = true.
Proof.
  intros i j l H1 H2.
  destruct i as [|[|i]], j as [|[|j]], l as [|[|l]]; try lia; cbn [dc_src]; by vm_compute.
Qed.
Lemma dc_distinct i : distinct_serials (dc_src i) = true.
Proof. destruct (dc_cases i) as [->|[->| ->]]; by vm_compute. Qed.
Lemma dc_stable : stable_source live_ext (c_max_deltas demo_config) dc_src.
Proof.
  split.
  - intros i j a b. apply unique_check_ok.
    destruct (dc_cases i) as [->|[->| ->]], (dc_cases j) as [->|[->| ->]]; by vm_compute.
  - intros i j l ni nj nl u H1 H2 Vi Vj Vl. rewrite !lists_uri. pose proof (dc_gone i j l H1 H2) as H.
    apply (in_use_sav _ _ _ _ (dc_distinct _)) in Vi, Vj, Vl.
    change (c_max_deltas demo_config) with (Some 100) in *. rewrite Vi, Vj, Vl in H.
    apply bool_decide_eq_true in H. rewrite Forall_forall in H. intros Hi Hl. by apply H.
Qed.
Lemma dc_ends i : ends_at_serial (dc_src i).
Proof.
  assert (H : forall n, bool_decide (n_deltas n = []) ||
      bool_decide (n_serial n ∈ (di_serial <$> n_deltas n) /\ Forall (fun d => (di_serial d <= n_serial n)%N) (n_deltas n)) = true ->
      ends_at_serial n).
  { intros n [H|H]%orb_true_iff; apply bool_decide_eq_true in H; [done|]. intros _. destruct H as [H1 H2]. split; [done|].
    by rewrite Forall_forall in H2. }
  apply H. destruct (dc_cases i) as [->|[->| ->]]; by vm_compute.
Qed.
Lemma dc_offers i f n : i <= 2 -> offers demo_config (dc_env i) f n -> n = dc_src i.
Proof.
  intros Hi (b & H1 & H2)%fixed_offers.
  assert (E : x_parse_notif live_ext (json_text (j_notif (dc_src i))) = Some (dc_src i) /\
          Demo.assoc (dc_docs i) notif_uri = Some (json_text (j_notif (dc_src i)))).
  { destruct i as [|[|[|i]]]; [..|lia]; by vm_compute. }
  destruct E as [E1 E2]. rewrite E2 in H1. injection H1 as <-. rewrite E1 in H2. by injection H2 as <-.
Qed.
(** the snapshots and deltas say what they should *)
Lemma dc_snapshot s k : x_snapshot live_ext (snap_doc s k) = ((fun r => (r.1, Some r.2)) <$> dc_objects s k, true) ->
  NoDup ((fun r => rsync_str r.1) <$> dc_objects s k) -> snapshot_says live_ext (snap_doc s k) (dc_content s k).
Proof.
  intros H1 H2. eexists. split; [exact H1|]. intros u a. unfold dc_content.
  rewrite <- elem_of_list_to_map by (by rewrite <- list_fmap_compose). rewrite elem_of_list_fmap. split.
  - intros ([r b] & [= -> ->] & Hr). exists r. split; [done|]. apply elem_of_list_fmap. by exists (r, b).
  - intros (r & <- & ([r' b] & [= -> ->] & Hr)%elem_of_list_fmap). by exists (r', b).
Qed.
Definition dc_old (k : N) : rsync_uri * string := obj (pretty (k - 1)%N).
Definition dc_new (k : N) : rsync_uri * string := obj (pretty k).
Global Instance delta_element_eq_dec : EqDecision delta_element.
Proof. solve_decision. Defined.
Definition dc_delta_check (k : N) : bool :=
  bool_decide (x_delta live_ext (dc_delta (k + 1)) =
    Some [DWithdraw (dc_old (k + 1)).1 ("h:" +:+ (dc_old (k + 1)).2); DPublish (dc_new (k + 1)).1 (dc_new (k + 1)).2]) &&
  bool_decide (dc_content uuid_A k !! rsync_str (dc_old (k + 1)).1 = Some (dc_old (k + 1)).2) &&
  bool_decide (delete (rsync_str (dc_old (k + 1)).1) (dc_content uuid_A k) !! rsync_str (dc_new (k + 1)).1 = None) &&
  bool_decide (<[rsync_str (dc_new (k + 1)).1 := (dc_new (k + 1)).2]> (delete (rsync_str (dc_old (k + 1)).1) (dc_content uuid_A k)) =
    dc_content uuid_A (k + 1)).
Lemma dc_deltas k : dc_delta_check k = true -> delta_takes live_ext (dc_delta (k + 1)) (dc_content uuid_A k) (dc_content uuid_A (k + 1)).
Proof.
  unfold dc_delta_check. intros [[[H1 H2]%andb_true_iff H3]%andb_true_iff H4]%andb_true_iff.
  apply bool_decide_eq_true in H1, H2, H3, H4. eexists. split; [exact H1|]. rewrite <- H4.
  eapply ac_cons; [eapply ch_withdraw; [exact H2|reflexivity]|]. eapply ac_cons; [|apply ac_nil]. by apply ch_add.
Qed.
Definition dc_says_check : bool :=
  forallb (fun sk => bool_decide (x_snapshot live_ext (snap_doc sk.1 sk.2) = ((fun r => (r.1, Some r.2)) <$> dc_objects sk.1 sk.2, true)) &&
     bool_decide (NoDup ((fun r => rsync_str r.1) <$> dc_objects sk.1 sk.2))) [(uuid_A, 4%N); (uuid_A, 5%N); (uuid_B, 1%N)] &&
  forallb dc_delta_check [3; 4]%N.
Lemma dc_says_ok : dc_says_check = true.
Proof. vm_cast_no_check (eq_refl true). Qed.
Opaque snap_doc dc_delta dc_content.
Lemma dc_says : says live_ext dc_src dc_content.
Proof.
  pose proof dc_says_ok as H. unfold dc_says_check in H. apply andb_true_iff in H as [H1 H2]. rewrite forallb_forall in H1, H2. split.
  - intros i b Hb.
    assert (Hin : In (n_session (dc_src i), n_serial (dc_src i)) [(uuid_A, 4%N); (uuid_A, 5%N); (uuid_B, 1%N)]).
    { destruct (dc_cases i) as [->|[->| ->]]; cbn; auto. }
    assert (E : b = snap_doc (n_session (dc_src i)) (n_serial (dc_src i))).
    { destruct (dc_cases i) as [E|[E|E]]; rewrite E in Hb |- *; exact (sapp_inv_head _ _ _ Hb). }
    rewrite E. apply H1, andb_true_iff in Hin as [H3 H4]. apply bool_decide_eq_true in H3, H4. by apply dc_snapshot.
  - intros i d k b Hd Ek Hb.
    assert (HA : n_session (dc_src i) = uuid_A /\ In k [3; 4]%N /\ di_hash d = "h:" +:+ dc_delta (di_serial d)).
    { destruct (dc_cases i) as [E|[E|E]]; rewrite E in Hd |- *; cbn in Hd; rewrite ?elem_of_cons, ?elem_of_nil in Hd.
      - destruct Hd as [->|[]]. cbn in Ek. assert (k = 3%N) by lia. subst k. cbn. auto.
      - destruct Hd as [->|[->|[]]]; cbn in Ek.
        + assert (k = 3%N) by lia. subst k. cbn. auto.
        + assert (k = 4%N) by lia. subst k. cbn. auto.
      - done. }
    destruct HA as (-> & Hk & Eh). rewrite Eh in Hb. apply sapp_inv_head in Hb as ->. rewrite Ek. by apply dc_deltas, H2.
Qed.
Definition dc_check (f g : fs) : bool :=
  bool_decide (f !! notif_path demo_config DemoRun.name = Some (File (x_write_notif live_ext dc_read) None)) &&
  match shown g with
  | Some n3 => bool_decide (Forall (fun r => r ∉ refs n3) (refs dc_read))
  | None => false
  end.
Lemma dc_facts : dc_check dc_t2 dc_t3 = true.
Proof. vm_cast_no_check (eq_refl true). Qed.
Lemma dc_within i f : i <= 2 -> run_within 1000 demo_config live_ext dc_src (pred i) i demo_config (dc_env i) f.
Proof.
  intros Hi. split; [done|done|done| | | |lia|].
  - intros k u m hdr b. cbn. unfold serve. by destruct (Demo.assoc (dc_docs i) u).
  - intros [n H]. done.
  - intros a. cbn. lia.
  - intros n Hn. apply dc_offers in Hn as ->; [|done]. exists i. split; [lia|]. done.
Qed.
Lemma dc_step k f i : i <= 2 -> k = pred i -> follows demo_config base DemoRun.name live_ext dc_src k f ->
  follows demo_config base DemoRun.name live_ext dc_src i (after (run demo_config (dc_env i) f)).
Proof.
  intros Hi -> Hf. pose proof (dc_within i f Hi) as Hw.
  eapply (fo_run _ _ _ _ _ (pred i) i f demo_config (dc_env i)); [done|apply Hw..| | |apply Hw|apply Hw|apply after_instant].
  - intros Hm. by destruct (rw_rename _ _ _ _ _ _ _ _ _ Hw).
  - intros a b. cbn. lia.
Qed.
Opaque dc_docs dc_src.
Lemma dc_start : follows demo_config base DemoRun.name live_ext dc_src 0 start_tree.
Proof.
  apply fo_start; [apply start_wf|done|done|]. intros p t _ E. unfold start_tree, start in E. cbn [w_fs] in E.
  apply lookup_insert_Some in E as [[_ ?]|[_ E]]; [done|]. apply lookup_insert_Some in E as [[_ ?]|[_ E]]; [done|].
  by rewrite lookup_empty in E.
Qed.
Lemma dc_follows : follows demo_config base DemoRun.name live_ext dc_src 1 dc_t2.
Proof.
  assert (L0 : 0 <= 2) by lia. assert (L1 : 1 <= 2) by lia.
  exact (dc_step 0 dc_t1 1 L1 eq_refl (dc_step 0 start_tree 0 L0 eq_refl dc_start)).
Qed.
Lemma dc_lists : exists d, d ∈ n_deltas dc_read /\ di_serial d = (3 + 1)%N.
Proof. eexists. split; [apply elem_of_list_further, elem_of_list_here|done]. Qed.
Example C67_applies :
  stable_source live_ext (c_max_deltas demo_config) dc_src /\ (forall i, good_notif base DemoRun.name (dc_src i)) /\
  clean_snapshots live_ext /\ (forall n n', x_write_notif live_ext n = x_write_notif live_ext n' -> n = n') /\
  (forall i, ends_at_serial (dc_src i)) /\ says live_ext dc_src dc_content /\
  client demo_config base DemoRun.name live_ext dc_src 1000 dc_read 2 dc_t3 /\
  (exists d, d ∈ n_deltas dc_read /\ di_serial d = (3 + 1)%N) /\ n_serial dc_read = 5%N /\
  exists n3, shown dc_t3 = Some n3 /\ forall r, r ∈ refs dc_read -> r ∉ refs n3.
Proof.
  pose proof dc_facts as H. unfold dc_check in H. apply andb_true_iff in H as [H1 H2]. apply bool_decide_eq_true in H1.
  split; [exact dc_stable|]. split; [exact dc_good|]. split; [exact safe_clean|]. split; [exact demo_write_inj|].
  split; [exact dc_ends|]. split; [exact dc_says|]. split.
  { assert (L2 : 2 <= 2) by lia.
    exact (cl_run _ _ _ _ _ _ _ 1 2 dc_t2 demo_config (dc_env 2) _ (cl_rest _ _ _ _ _ _ _ 1 dc_t2 dc_follows H1)
      (dc_within 2 dc_t2 L2) (after_instant _ _ _)). }
  split; [exact dc_lists|]. split; [reflexivity|]. destruct (shown dc_t3) as [n3|]; [|discriminate]. exists n3. split; [reflexivity|].
  apply bool_decide_eq_true in H2. rewrite Forall_forall in H2. exact H2.
Qed.
Print Assumptions C67_catches_up.
