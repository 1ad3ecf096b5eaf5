(** * Invariants of histories *)
From Coq Require Import ZifyN ZifyNat ZifyBool Sorting.Sorted.
From Verif Require Export History.

Section places.
  Context (c c' : config) (base name : string) (Hsp : same_places c c').
  Lemma places_cfg : cfg_ok c base name -> cfg_ok c' base name.
  Proof using Hsp.
    destruct Hsp as (E1 & E2 & E3 & E4). intros [H1 H2 H3 H4 H5 H6 H7 H8 H9 H10 H11 H12 H13].
    unfold staging_dir, rrdp_state_path, rsync_state_path in *.
    split; unfold staging_dir, rrdp_state_path, rsync_state_path; rewrite ?E1, ?E2, ?E3, ?E4; done.
  Qed.
  Lemma places_sp : rrdp_state_path c' = rrdp_state_path c.
  Proof using Hsp. destruct Hsp as (E1 & E2 & E3 & E4). unfold rrdp_state_path. by rewrite E2. Qed.
  Lemma places_s : staging_dir c' = staging_dir c.
  Proof using Hsp. destruct Hsp as (E1 & E2 & E3 & E4). unfold staging_dir. by rewrite E2. Qed.
  Lemma places_N : notif_path c' name = notif_path c name.
  Proof using Hsp. destruct Hsp as (E1 & E2 & E3 & E4). unfold notif_path. by rewrite E3. Qed.
  Lemma places_public rel : public_path c' rel = public_path c rel.
  Proof using Hsp. destruct Hsp as (E1 & E2 & E3 & E4). unfold public_path. by rewrite E3. Qed.
  Lemma places_good st : good_state c' base name st <-> good_state c base name st.
  Proof using Hsp.
    split; intros [G1 G2 G3 G4 G5 G6]; split; try done; destruct Hsp as (E1 & E2 & E3 & E4).
    - by rewrite <- E1. - by rewrite <- E3.
    - intros d Hd. destruct (G5 d Hd) as (rel & H1 & H2). exists rel. by rewrite <- places_public.
    - by rewrite E1. - by rewrite E3.
    - intros d Hd. destruct (G5 d Hd) as (rel & H1 & H2). exists rel. by rewrite places_public.
  Qed.
  Lemma places_recorded f st : recorded c' f st <-> recorded c f st.
  Proof using Hsp. unfold recorded. by rewrite places_sp. Qed.
  Lemma places_starts f st : starts_from c' base name f st <-> starts_from c base name f st.
  Proof using Hsp.
    unfold starts_from. rewrite places_sp, places_recorded. destruct Hsp as (E1 & E2 & E3 & E4).
    unfold first_state. by rewrite E1, E3.
  Qed.
  Lemma places_own f : own_tree c' base name f <-> own_tree c base name f.
  Proof using Hsp.
    unfold own_tree. rewrite places_sp. split; intros (H1 & H2 & H3); (split; [done|]); (split; [done|]); intros st Hst.
    - apply places_good, H3. by apply places_recorded.
    - apply places_good, H3. by apply places_recorded.
  Qed.
  Lemma own_to f : own_tree c base name f -> own_tree c' base name f.
  Proof using Hsp. apply (proj2 (places_own f)). Qed.
  Lemma own_back f : own_tree c' base name f -> own_tree c base name f.
  Proof using Hsp. apply (proj1 (places_own f)). Qed.
  Lemma places_published x g en : published x c' g en <-> published x c g en.
  Proof using Hsp. unfold published. by rewrite places_public. Qed.
End places.

Lemma starts_unique c base name f st st' :
  starts_from c base name f st -> starts_from c base name f st' -> st = st'.
Proof.
  intros [[H1 (b & H2 & H3)]|[H1 H2]] [[H1' (b' & H2' & H3')]|[H1' H2']]; congruence.
Qed.

Lemma own_start c base name f : wf f -> f !! rrdp_state_path c = None -> own_tree c base name f.
Proof.
  intros Hwf E. split; [done|]. split; [by rewrite E|]. intros st (b & Hb & _). unfold op_read, fs_stat in Hb.
  rewrite fs_get_nonroot, E in Hb by apply state_path_ne. done.
Qed.
Lemma own_else c base name f g : own_tree c base name f -> wf g -> g !! rrdp_state_path c = f !! rrdp_state_path c ->
  own_tree c base name g.
Proof.
  intros (H1 & H2 & H3) Hg E. split; [done|]. split; [by rewrite E|]. intros st (b & Hb & Hp). apply H3. exists b.
  by rewrite <- (read_plain f g _ E).
Qed.
Lemma owned_sp c : owned c (rrdp_state_path c).
Proof. unfold owned. tauto. Qed.

(** every tree of a history has only krill-sync's own state in it *)
Lemma mirror_own P c base name f : cfg_ok c base name -> mirror P c base name f -> own_tree c base name f.
Proof.
  intros Hc. induction 1 as [f Hwf E|f c' e g Hm IH Hsp [Hw1 Hw2] _ Hg|f g Hm IH Hwf Ho].
  - by apply own_start.
  - apply (own_back c c' base name Hsp). apply (phase_own c' base name e f).
    + split; [by eapply places_cfg|by eapply own_to|done|done].
    + apply instant_phase; [|done]. split; [by eapply places_cfg|by eapply own_to|done|done].
  - eapply own_else; [done|done|]. apply Ho, owned_sp.
Qed.
Lemma mirror_sane P c base name c' e f : cfg_ok c base name -> mirror P c base name f -> same_places c c' ->
  good_world c' base name e f -> sane c' base name e f.
Proof.
  intros Hc Hm Hsp [H1 H2]. split; [by eapply places_cfg| |done|done]. eapply own_to; [exact Hsp|]. by eapply mirror_own.
Qed.
Lemma same_places_refl c : same_places c c.
Proof. done. Qed.
Lemma setting_sane c base name e f : setting c base name e f -> sane c base name e f.
Proof. intros [H1 H2 H3]. by apply (mirror_sane any_notif c base name c e f). Qed.

(** ** The deltas of a limited notification *)
Lemma limit_sorted limit l : StronglySorted (fun a b => (di_serial a <= di_serial b)%N) l ->
  StronglySorted (fun a b => (di_serial a <= di_serial b)%N) (limit_deltas limit l).
Proof.
  intros H. unfold limit_deltas. destruct limit as [k|]; [|done]. destruct (Nat.ltb k (length l)); [|done].
  rewrite <- (take_drop (length l - k) l) in H. apply StronglySorted_app in H. apply H.
Qed.
Lemma version_sorted x limit src i n : version x limit src i n ->
  StronglySorted (fun a b => (di_serial a <= di_serial b)%N) (n_deltas n).
Proof.
  intros (_ & _ & _ & _ & (older & _ & H & _) & _). apply StronglySorted_app in H. apply H.
Qed.
Lemma version_cutoff x limit src i n d : version x limit src i n -> d ∈ n_deltas n -> (cutoff_of n <= di_serial d)%N.
Proof.
  intros Hv%version_sorted Hd. unfold cutoff_of. destruct (n_deltas n) as [|d0 l]; [by apply elem_of_nil in Hd|].
  apply StronglySorted_inv in Hv as [_ Hf]. apply elem_of_cons in Hd as [->|Hd]; [lia|].
  rewrite Forall_forall in Hf. by apply Hf.
Qed.
Lemma version_listing x limit src i n a : version x limit src i n -> a ∈ listings n -> a ∈ listings (src i).
Proof.
  intros (E1 & E2 & E3 & E4 & Hv & _). unfold listings.
  rewrite E1, E2, E3, E4, !elem_of_cons, !elem_of_list_fmap. intros [?|(d & ? & Hd)]; [by left|]. right.
  exists d. split; [done|]. by eapply newest_sub.
Qed.
Lemma listing_ref n u h : (u, h) ∈ refs n <-> exists a, a ∈ listings n /\ li_uri a = u /\ li_hash a = h.
Proof.
  unfold refs, listings. rewrite elem_of_cons, elem_of_list_fmap. split.
  - intros [[= -> ->]|(d & [= -> ->] & Hd)].
    + eexists. split; [constructor|done].
    + eexists. split; [right; apply elem_of_list_fmap; by exists d|done].
  - intros (a & [->|(d & -> & Hd)%elem_of_list_fmap]%elem_of_cons & <- & <-); [by left|]. right. by exists d.
Qed.

(** where a descending list is split *)
Lemma split_before_spec k l : StronglySorted (fun a b => (ds_serial b <= ds_serial a)%N) l ->
  (forall d, d ∈ (split_before k l).1 -> (k <= ds_serial d)%N) /\
  (forall d, d ∈ (split_before k l).2 -> (ds_serial d < k)%N).
Proof.
  induction 1 as [|d l Hl [IH1 IH2] Hd]; cbn.
  - split; intros d H; by apply elem_of_nil in H.
  - destruct (N.ltb_spec (ds_serial d) k).
    + cbn. split; intros d' H'; [by apply elem_of_nil in H'|]. apply elem_of_cons in H' as [->|H']; [done|].
      rewrite Forall_forall in Hd. specialize (Hd _ H'). lia.
    + destruct (split_before k l) as [a b]. cbn in *. split; [|done]. intros d' [->|H']%elem_of_cons; auto.
Qed.

(** ** The served notification never dangles *)
Section dangle.
  Context (c : config) (base name : string) (x : ext) (src : nat -> notification).
  Context (Hc : cfg_ok c base name) (Hstable : stable_source x (c_max_deltas c) src)
    (Hgood : forall i, good_notif base name (src i)) (Hsnap : clean_snapshots x).
  Notation ver := (version x (c_max_deltas c) src).
  Notation NF := (notif_path c name).

  (** some version up to [k] lists this *)
  Definition listed (k : nat) (se : uuid) (ki : kind) (rel : string) (sr : N) (h : hash) : Prop :=
    exists i n, i <= k /\ ver i n /\ mkListing (base +:+ rel) h se sr ki ∈ listings n.
  (** no version from [k] on lists this *)
  Definition dead (k : nat) (rel : string) : Prop :=
    forall i n, k <= i -> ver i n -> ~ lists n (base +:+ rel).

  Record state_inv (k : nat) (st : rrdp_state) : Prop := {
    si_snap : forall s, st_snap st = Some s -> listed k (ss_session s) SnapshotFile (ss_rel s) (ss_serial s) (ss_hash s);
    si_deltas : forall d, d ∈ st_deltas st -> exists s, st_snap st = Some s /\
      listed k (ss_session s) DeltaFile (ds_rel d) (ds_serial d) (ds_hash d);
    si_dead : forall d, d ∈ st_deprecated st -> exists rel, dp_path d = public_path c rel /\ dead k rel;
    si_apart : forall d rel h, d ∈ st_deprecated st -> (rel, h) ∈ state_files st -> dp_path d <> public_path c rel }.

  (** [L]: the files of the served notification *)
  Record inv (k : nat) (L : list (string * hash)) (g : fs) : Prop := {
    iv_own : own_tree c base name g;
    iv_links : no_links (staging_dir c) g;
    iv_notif : (L = [] /\ g !! NF = None) \/
      exists n, g !! NF = Some (File (x_write_notif x n) None) /\ refs n = (fun en => (base +:+ en.1, en.2)) <$> L;
    iv_listed : forall rel h, (rel, h) ∈ L -> exists se ki sr, listed k se ki rel sr h;
    iv_files : forall en, en ∈ L -> published x c g en;
    iv_state : forall st, starts_from c base name g st -> state_inv k st /\
      (forall en, en ∈ state_files st -> published x c g en) /\
      (forall d rel h, d ∈ st_deprecated st -> (rel, h) ∈ L -> dp_path d <> public_path c rel) }.

  Lemma listed_mono k k' se ki rel sr h : k <= k' -> listed k se ki rel sr h -> listed k' se ki rel sr h.
  Proof. intros Hk (i & n & H1 & H2 & H3). exists i, n. split; [lia|done]. Qed.
  Lemma dead_mono k k' rel : k <= k' -> dead k rel -> dead k' rel.
  Proof. intros Hk H i n Hi. apply H. lia. Qed.
  Lemma state_inv_mono k k' st : k <= k' -> state_inv k st -> state_inv k' st.
  Proof.
    intros Hk [S1 S2 S3 S4]. split; [|..].
    - intros s Es. eapply listed_mono; [done|by apply S1].
    - intros d Hd. destruct (S2 d Hd) as (s & Es & Hl). exists s. split; [done|]. by eapply (listed_mono k).
    - intros d Hd. destruct (S3 d Hd) as (rel & H1 & H2). exists rel. split; [done|]. by eapply (dead_mono k).
    - done.
  Qed.
  Lemma state_inv_validator k st v : state_inv k (set_validator st v) <-> state_inv k st.
  Proof. split; intros []; by split. Qed.
  Lemma files_listed k st rel h : state_inv k st -> (rel, h) ∈ state_files st -> exists se ki sr, listed k se ki rel sr h.
  Proof.
    intros [S1 S2 _ _]. unfold state_files. rewrite elem_of_app. intros [H|H].
    - destruct (st_snap st) as [s|] eqn:E; cbn in H; [|by apply elem_of_nil in H].
      apply elem_of_list_singleton in H as [= -> ->]. do 3 eexists. by apply S1.
    - apply elem_of_list_fmap in H as (d & [= -> ->] & Hd). destruct (S2 d Hd) as (s & _ & H). eauto.
  Qed.
  (** two listings of one URI agree *)
  Lemma listed_eq k k' se ki rel sr h se' ki' sr' h' :
    listed k se ki rel sr h -> listed k' se' ki' rel sr' h' -> se = se' /\ ki = ki' /\ sr = sr' /\ h = h'.
  Proof.
    intros (i & n & _ & Hv & Ha) (j & n' & _ & Hv' & Ha').
    pose proof (sb_unique _ _ _ Hstable i j _ _ (version_listing _ _ _ _ _ _ Hv Ha) (version_listing _ _ _ _ _ _ Hv' Ha') eq_refl) as E.
    by injection E as -> -> -> ->.
  Qed.
  Lemma ver_listed i n k a rel : ver i n -> i <= k -> a ∈ listings n -> li_uri a = base +:+ rel ->
    listed k (li_session a) (li_kind a) rel (li_serial a) (li_hash a).
  Proof. intros Hv Hi Ha Eu. exists i, n. split; [done|]. split; [done|]. rewrite <- Eu. by destruct a. Qed.
  (** what has been dropped stays dropped *)
  Lemma dropped_dead k j n se ki rel sr h : listed k se ki rel sr h -> k <= j -> ver j n ->
    ~ lists n (base +:+ rel) -> dead j rel.
  Proof.
    intros (i & n' & Hi & Hv & Ha) Hk Hvn Hno l nl Hl Hvl Hin. apply Hno.
    eapply (sb_gone _ _ _ Hstable i j l n' n nl); try done; [lia|]. eexists. split; [exact Ha|done].
  Qed.

  (** *** one run *)
  Section one_run.
    Context (k k' : nat) (L : list (string * hash)) (f : fs) (c' : config) (e : env).
    Context (Hinv : inv k L f) (Hpl : same_places c c') (Hmax : c_max_deltas c' = c_max_deltas c) (Hx : e_ext e = x)
      (H304 : no_bad_304 e) (Hcopy : may_copy e -> settled c base name x f) (Hpat : patient c' e) (Hkk : k <= k')
      (Hoff : forall n, offers c' e f n -> exists i, k <= i /\ i <= k' /\ n = src i).

    Lemma run_sane : sane c' base name e f.
    Proof.
      split; [by eapply places_cfg|eapply own_to; [exact Hpl|]; apply Hinv| |by rewrite Hx].
      intros n Hn. destruct (Hoff n Hn) as (i & _ & _ & ->). apply Hgood.
    Qed.
    Lemma run_honest_ : honest_run c' e f.
    Proof.
      split; [done|]. split; [rewrite (places_s c c' Hpl); apply Hinv|]. intros n Hn.
      destruct (Hoff n Hn) as (i & _ & _ & ->). intros u h h' (a & Ha & Eu & <-)%listing_ref (b & Hb & Eu' & <-)%listing_ref.
      f_equal. apply (sb_unique _ _ _ Hstable i i); [done|done|congruence].
    Qed.
    Lemma src_version n0 n : from_source c' e f n0 n -> exists j, k <= j /\ j <= k' /\ ver j n.
    Proof.
      intros [Ho Hsv]. destruct (Hoff _ Ho) as (j & H1 & H2 & ->). exists j. split; [done|]. split; [done|].
      unfold version. rewrite <- Hx, <- Hmax. by apply sav_in_use.
    Qed.
    Lemma patient_clean cb t : clean_time c' e cb -> run_clock e t -> (cb < t)%Z.
    Proof.
      intros [a ->] [b ->]. destruct (Hpat a b) as [H1 H2]. unfold wrap64. rewrite Z.mod_small by lia. lia.
    Qed.
    (** files of the served notification, of the recorded state and of the new
        version do not expire in this run *)
    Lemma no_expiry rel : (forall st d, starts_from c base name f st -> d ∈ st_deprecated st -> dp_path d <> public_path c rel) ->
      forall cb t, clean_time c' e cb -> recorded_at c' base name e f (public_path c' rel) t -> (cb < t)%Z.
    Proof.
      intros Hno cb t Hcb (st & Hst & [(d & Hd & Hp & <-)|[Ht _]]); [|by apply patient_clean].
      exfalso. rewrite (places_public c c' Hpl) in Hp. eapply Hno; [|exact Hd|done]. by apply (places_starts c c').
    Qed.
    Lemma L_safe rel h : (rel, h) ∈ L ->
      forall st d, starts_from c base name f st -> d ∈ st_deprecated st -> dp_path d <> public_path c rel.
    Proof. intros Hin st d Hst Hd. by eapply (iv_state _ _ _ Hinv st Hst). Qed.
    Lemma state_safe st rel h : starts_from c base name f st -> (rel, h) ∈ state_files st ->
      forall st d, starts_from c base name f st -> d ∈ st_deprecated st -> dp_path d <> public_path c rel.
    Proof.
      intros Hst Hin st' d Hst' Hd. rewrite (starts_unique _ _ _ _ _ _ Hst' Hst) in Hd.
      destruct (iv_state _ _ _ Hinv st Hst) as [H _]. by eapply (si_apart _ _ H).
    Qed.
    Lemma new_safe n0 n rel : from_source c' e f n0 n -> lists n (base +:+ rel) ->
      forall st d, starts_from c base name f st -> d ∈ st_deprecated st -> dp_path d <> public_path c rel.
    Proof.
      intros Hsrc Hl st d Hst Hd Ep. destruct (iv_state _ _ _ Hinv st Hst) as [H _].
      destruct (si_dead _ _ H d Hd) as (rel' & Ep' & Hdead). rewrite Ep in Ep'. apply public_path_inj in Ep'. subst rel'.
      destruct (src_version _ _ Hsrc) as (j & H1 & _ & Hv). by apply (Hdead j n).
    Qed.
    (** files of the recorded version are not staged again *)
    Lemma not_restaged st n0 n sg f1 rel h h' st' : at_move c' base name e f st n0 n sg f1 ->
      starts_from c base name f st' -> (rel, h) ∈ state_files st' -> (rel, h') ∈ staged_entries sg -> False.
    Proof.
      intros [A1 A2 _ _] Hst' Hin Hen. assert (Hst : starts_from c base name f st) by (by apply (places_starts c c')).
      rewrite (starts_unique _ _ _ _ _ _ Hst' Hst) in Hin. clear st' Hst'.
      destruct (iv_state _ _ _ Hinv st Hst) as [[S1 S2 _ _] _].
      destruct (src_version _ _ (so_source _ _ _ _ _ _ _ _ A2)) as (j & _ & Hj & Hv).
      destruct (so_snap _ _ _ _ _ _ _ _ A2) as (N1 & N2 & N3 & N4 & _).
      pose proof (so_new _ _ _ _ _ _ _ _ A2) as Hnew. unfold compare_version in Hnew.
      unfold state_files in Hin. apply elem_of_app in Hin.
      apply elem_of_cons in Hen as [[= -> ->]|(ds & [= -> ->] & Hds)%elem_of_list_fmap].
      - pose proof (ver_listed j n k' (mkListing (n_snap_uri n) (n_snap_hash n) (n_session n) (n_serial n) SnapshotFile)
          _ Hv Hj ltac:(constructor) N4) as Hl. cbn in Hl.
        destruct Hin as [Hin|(d & [= E ->] & Hd)%elem_of_list_fmap].
        + destruct (st_snap st) as [s|] eqn:Es; cbn in Hin; [|by apply elem_of_nil in Hin].
          apply elem_of_list_singleton in Hin as [= E ->]. specialize (S1 s eq_refl). rewrite <- E in S1.
          destruct (listed_eq _ _ _ _ _ _ _ _ _ _ _ Hl S1) as (E1 & _ & E2 & _).
          rewrite bool_decide_true in Hnew by done. cbn in Hnew. rewrite <- E2, N.compare_refl in Hnew. done.
        + destruct (S2 d Hd) as (s & _ & Hl'). rewrite <- E in Hl'.
          by destruct (listed_eq _ _ _ _ _ _ _ _ _ _ _ Hl Hl') as (_ & ? & _).
      - destruct (elem_of_list_lookup_1 _ _ Hds) as [i Hi].
        destruct (Forall2_lookup_r _ _ _ _ _ (so_deltas _ _ _ _ _ _ _ _ A2) Hi) as (di & Hdi & D1 & D2 & D3 & _).
        apply elem_of_list_lookup_2 in Hdi. apply elem_of_list_filter in Hdi as [Hn Hdi].
        pose proof (ver_listed j n k' (mkListing (di_uri di) (di_hash di) (n_session n) (di_serial di) DeltaFile) (ds_rel ds) Hv Hj) as Hl.
        cbn in Hl. specialize (Hl ltac:(right; apply elem_of_list_fmap; by exists di) D3).
        destruct Hin as [Hin|(d & [= E ->] & Hd)%elem_of_list_fmap].
        + destruct (st_snap st) as [s|] eqn:Es; cbn in Hin; [|by apply elem_of_nil in Hin].
          apply elem_of_list_singleton in Hin as [= E ->]. specialize (S1 s eq_refl). rewrite <- E in S1.
          by destruct (listed_eq _ _ _ _ _ _ _ _ _ _ _ Hl S1) as (_ & ? & _).
        + destruct (S2 d Hd) as (s & Es & Hl'). rewrite <- E in Hl'.
          destruct (listed_eq _ _ _ _ _ _ _ _ _ _ _ Hl Hl') as (E1 & _ & E2 & _).
          rewrite Es in Hnew. rewrite bool_decide_true in Hnew by done. cbn in Hnew.
          destruct (ss_serial s ?= n_serial n)%N; try done. injection Hnew as Hres. rewrite <- Hres in Hn.
          unfold delta_is_new in Hn. cbn in Hn.
          assert (Hso : StronglySorted (fun a b => (ds_serial b <= ds_serial a)%N) (st_deltas st)).
          { apply (gs_sorted c' base name). by eapply start_good; [exact run_sane|]. }
          destruct (st_deltas st) as [|d0 l]; [by apply elem_of_nil in Hd|]. apply N.ltb_lt in Hn.
          apply StronglySorted_inv in Hso as [_ Hf]. rewrite Forall_forall in Hf.
          apply elem_of_cons in Hd as [->|Hd]; [lia|]. specialize (Hf _ Hd). cbn in Hf. lia.
    Qed.
    (** published files of known content stay *)
    Lemma survives g en : good_rel name en.1 -> phase c' base name e f g ->
      (forall st d, starts_from c base name f st -> d ∈ st_deprecated st -> dp_path d <> public_path c en.1) ->
      (exists se ki sr, listed k se ki en.1 sr en.2) ->
      (may_copy e -> exists st, starts_from c base name f st /\ en ∈ state_files st) ->
      published x c f en -> published x c g en.
    Proof.
      intros Hr Hg Hsafe (se & ki & sr & Hl) Hcp Hp. destruct en as [rel h]. cbn in *.
      pose proof run_sane as Hs. pose proof run_honest_ as Hh.
      destruct (phase_fate c' base name e f Hs Hh g (public_path c' rel)) as [E|[(n0 & n & rel' & h' & F1 & F2 & F3 & F4 & F5)|(E & cb & t & Hcb & Hrec & Hle)]].
      - apply public_under.
      - destruct (good_rel_apart c' name rel Hr) as [Ha _]. by apply apart_neq.
      - destruct (good_rel_apart c' name rel Hr) as [_ Ha]. by apply apart_neq.
      - done.
      - eapply published_view; [|exact Hp]. cbn. by rewrite <- (places_public c c' Hpl).
      - apply public_path_inj in F4. subst rel'. destruct F5 as [F5|(Hm & _ & st & sg & f1 & Ham & Hen)].
        2: { exfalso. destruct (Hcp Hm) as (st' & Hst' & Hin). by apply (not_restaged st n0 n sg f1 rel h h' st'). }
        rewrite Hx in F5. apply (places_published c c' Hpl) in F5.
        enough (h' = h) by (by subst h'). destruct (src_version _ _ F1) as (j & _ & Hj & Hv).
        apply listing_ref in F2 as (a & Ha & Eu & <-).
        pose proof (ver_listed j n k' a rel Hv Hj Ha Eu) as Hl'. by destruct (listed_eq _ _ _ _ _ _ _ _ _ _ _ Hl' Hl) as (_ & _ & _ & ?).
      - exfalso. pose proof (no_expiry rel Hsafe cb t Hcb Hrec). lia.
    Qed.
    Lemma L_good en : en ∈ L -> good_rel name en.1.
    Proof.
      destruct en as [rel h]. intros Hin. destruct (iv_listed _ _ _ Hinv _ _ Hin) as (se & ki & sr & i & n & _ & Hv & Ha).
      cbn. eapply (Hgood i _ h); [|done]. eapply in_use_refs; [exact Hv|]. apply listing_ref. by eexists.
    Qed.
    Lemma L_survives g en : en ∈ L -> phase c' base name e f g -> published x c g en.
    Proof.
      intros Hin Hg. apply survives; [by apply L_good|done| | | |].
      - destruct en. by eapply L_safe.
      - destruct en. by apply (iv_listed _ _ _ Hinv).
      - intros Hm. destruct (iv_notif _ _ _ Hinv) as [[-> _]|(n & En & Er)]; [by apply elem_of_nil in Hin|].
        destruct (Hcopy Hm n En) as (st & Hst & Hall). exists st. split; [done|]. destruct en as [rel h].
        destruct (Hall (base +:+ rel) h) as (rel' & E & Hr).
        { rewrite Er. apply elem_of_list_fmap. by exists (rel, h). }
        by apply sapp_inv_head in E as ->.
      - by apply (iv_files _ _ _ Hinv).
    Qed.
    Lemma state_survives g st en : starts_from c base name f st -> en ∈ state_files st -> phase c' base name e f g -> published x c g en.
    Proof.
      intros Hst Hin Hg. destruct (iv_state _ _ _ Hinv st Hst) as (HS & Hpub & _). destruct en as [rel h].
      apply survives; [|done| | | |].
      - eapply (state_files_good c' base name st); [|done]. eapply start_good; [exact run_sane|]. by apply (places_starts c c').
      - by eapply state_safe.
      - by eapply files_listed.
      - intros _. by exists st.
      - by apply Hpub.
    Qed.

    (** *** the new state *)
    Section new_state.
      Context st n0 n sg f1 v st' f2 cb st2 f3 f4
        (Ha : at_notify c' base name e f st n0 n sg f1 v st' f2 cb st2 f3 f4).
      Let Hstart : starts_from c base name f st.
      Proof. apply (places_starts c c' base name Hpl). apply Ha. Qed.
      Let Hst : state_inv k st.
      Proof. by apply (iv_state _ _ _ Hinv st Hstart). Qed.
      Let Hsg : staged_ok c' e f base st sg n0 n.
      Proof. apply Ha. Qed.
      Let Hm : merged e (set_validator st v) sg st'.
      Proof. apply Ha. Qed.
      Let Hgs : good_state c base name st.
      Proof. apply (places_good c c' base name Hpl). eapply start_good; [exact run_sane|]. by apply (places_starts c c'). Qed.

      Lemma new_version : exists j, k <= j /\ j <= k' /\ ver j n.
      Proof using All. apply (src_version n0). apply Hsg. Qed.
      Lemma st2_snap : st_snap st2 = Some (sg_snap sg).
      Proof using All.
        rewrite (ar_cleaned _ _ _ _ _ _ _ _ _ _ _ _ _ _ _ _ (an_rsync _ _ _ _ _ _ _ _ _ _ _ _ _ _ _ _ _ Ha)). cbn. apply (mg_snap _ _ _ _ Hm).
      Qed.
      Lemma st2_delta d : d ∈ st_deltas st2 <-> d ∈ kept st sg \/ d ∈ sg_deltas sg.
      Proof using All.
        rewrite (ar_cleaned _ _ _ _ _ _ _ _ _ _ _ _ _ _ _ _ (an_rsync _ _ _ _ _ _ _ _ _ _ _ _ _ _ _ _ _ Ha)). cbn. rewrite (mg_deltas _ _ _ _ Hm).
        rewrite elem_of_reverse, sort_by_key_perm, elem_of_app. done.
      Qed.
      Lemma st2_dep d : d ∈ st_deprecated st2 -> d ∈ st_deprecated st \/ dp_path d ∈ dropped st sg.
      Proof using All.
        rewrite (ar_cleaned _ _ _ _ _ _ _ _ _ _ _ _ _ _ _ _ (an_rsync _ _ _ _ _ _ _ _ _ _ _ _ _ _ _ _ _ Ha)). cbn. intros [_ Hd]%elem_of_list_filter.
        destruct (mg_deprecated _ _ _ _ Hm) as (deps & M1 & M2 & _). rewrite M1 in Hd.
        apply elem_of_app in Hd as [Hd|Hd]; [by left|]. right.
        change (dropped st sg) with (dropped (set_validator st v) sg). rewrite <- M2.
        apply elem_of_list_fmap. by exists d.
      Qed.
      Lemma st2_files rel h : (rel, h) ∈ state_files st2 ->
        (rel, h) ∈ staged_entries sg \/ exists d, d ∈ kept st sg /\ rel = ds_rel d /\ h = ds_hash d.
      Proof using All.
        unfold state_files. rewrite st2_snap. cbn. rewrite elem_of_cons, elem_of_list_fmap. unfold staged_entries.
        intros [[= -> ->]|(d & [= -> ->] & Hd)]; [left; constructor|]. apply st2_delta in Hd as [Hd|Hd]; [right; eauto|].
        left. right. apply elem_of_list_fmap. by exists d.
      Qed.
      Lemma snap_listing : mkListing (base +:+ ss_rel (sg_snap sg)) (ss_hash (sg_snap sg)) (ss_session (sg_snap sg))
          (ss_serial (sg_snap sg)) SnapshotFile ∈ listings n.
      Proof using All.
        destruct (so_snap _ _ _ _ _ _ _ _ Hsg) as (S1 & S2 & S3 & S4 & _). unfold listings.
        rewrite S1, S2, S3, <- S4. constructor.
      Qed.
      Lemma delta_listing d : d ∈ sg_deltas sg ->
        mkListing (base +:+ ds_rel d) (ds_hash d) (ss_session (sg_snap sg)) (ds_serial d) DeltaFile ∈ listings n.
      Proof using All.
        intros Hd. destruct (so_snap _ _ _ _ _ _ _ _ Hsg) as (S1 & _).
        destruct (Forall2_elem_of_r _ _ _ _ (so_deltas _ _ _ _ _ _ _ _ Hsg) Hd) as (di & (D1 & D2 & D3 & _) & Hdi).
        apply elem_of_list_filter in Hdi as [_ Hdi]. unfold listings. right. apply elem_of_list_fmap.
        exists di. by rewrite D1, D2, D3, S1.
      Qed.
      Lemma entry_lists rel h : (rel, h) ∈ staged_entries sg -> lists n (base +:+ rel).
      Proof using All.
        unfold staged_entries. intros [[= -> ->]|(d & [= -> ->] & Hd)%elem_of_list_fmap]%elem_of_cons.
        - eexists. split; [apply snap_listing|done].
        - eexists. split; [by apply delta_listing|done].
      Qed.
      (** kept deltas: same session *)
      Lemma kept_facts d : d ∈ kept st sg -> d ∈ st_deltas st /\ (cutoff_of n <= ds_serial d)%N /\
        exists s, st_snap st = Some s /\ ss_session s = ss_session (sg_snap sg).
      Proof using All.
        intros Hd. assert (Hd' : d ∈ st_deltas st) by (apply (kept_gone st sg); by left). split; [done|].
        unfold kept in Hd. destruct (sg_reset sg) eqn:Hr; [by apply elem_of_nil in Hd|].
        destruct (split_before_spec (sg_cutoff sg) _ (gs_sorted _ _ _ _ Hgs)) as [H1 _].
        split; [rewrite <- (so_cutoff _ _ _ _ _ _ _ _ Hsg); by apply H1|].
        destruct (si_deltas _ _ Hst d Hd') as (s & Es & _). exists s. split; [done|].
        pose proof (so_new _ _ _ _ _ _ _ _ Hsg) as Hv. unfold compare_version in Hv. rewrite Es, Hr in Hv.
        destruct (so_snap _ _ _ _ _ _ _ _ Hsg) as (S1 & _). rewrite S1.
        destruct (bool_decide (ss_session s = n_session n)) eqn:Eb; [by apply bool_decide_eq_true in Eb|done].
      Qed.
      (** dropped paths are not listed by the new version *)
      Lemma dropped_facts p : p ∈ dropped st sg -> exists rel se ki sr h, p = public_path c rel /\
        listed k se ki rel sr h /\ ~ lists n (base +:+ rel) /\
        (forall d, d ∈ kept st sg -> ds_rel d <> rel).
      Proof using All.
        intros Hp. unfold dropped in Hp. destruct new_version as (j & Hj1 & Hj2 & Hvj).
        destruct (so_snap _ _ _ _ _ _ _ _ Hsg) as (S1 & S2 & _).
        pose proof (so_new _ _ _ _ _ _ _ _ Hsg) as Hcv. unfold compare_version in Hcv.
        apply elem_of_app in Hp as [Hp|Hp].
        - unfold snapshot_path in Hp. destruct (st_snap st) as [s|] eqn:Es; cbn in Hp; [|by apply elem_of_nil in Hp].
          apply elem_of_list_singleton in Hp as ->. pose proof (si_snap _ _ Hst _ Es) as Hl.
          exists (ss_rel s), (ss_session s), SnapshotFile, (ss_serial s), (ss_hash s).
          split; [eapply public_mp; [exact Hgs|]; by apply (gs_snap _ _ _ _ Hgs)|]. split; [done|]. split.
          + intros (a & Ha' & Eu). pose proof (ver_listed j n k' a _ Hvj Hj2 Ha' Eu) as Hl'.
            destruct (listed_eq _ _ _ _ _ _ _ _ _ _ _ Hl Hl') as (E1 & E2 & E3 & _).
            unfold listings in Ha'. apply elem_of_cons in Ha' as [->|(d & -> & _)%elem_of_list_fmap]; cbn in *; [|done].
            rewrite E1 in Hcv. rewrite bool_decide_true in Hcv by done. cbn in Hcv. by rewrite E3, N.compare_refl in Hcv.
          + intros d Hd Er. destruct (kept_facts d Hd) as (Hd1 & _). destruct (si_deltas _ _ Hst d Hd1) as (s' & _ & Hl').
            rewrite Er in Hl'. by destruct (listed_eq _ _ _ _ _ _ _ _ _ _ _ Hl Hl') as (_ & E2 & _).
        - apply elem_of_list_fmap in Hp as (d & -> & Hd).
          assert (Hd' : d ∈ st_deltas st) by (apply (kept_gone st sg); by right).
          destruct (si_deltas _ _ Hst d Hd') as (s & Es & Hl).
          exists (ds_rel d), (ss_session s), DeltaFile, (ds_serial d), (ds_hash d).
          split; [eapply public_mp; [exact Hgs|]; by apply (gs_deltas _ _ _ _ Hgs)|]. split; [done|]. split.
          + intros (a & Ha' & Eu). pose proof (ver_listed j n k' a _ Hvj Hj2 Ha' Eu) as Hl'.
            destruct (listed_eq _ _ _ _ _ _ _ _ _ _ _ Hl Hl') as (E1 & E2 & E3 & _).
            unfold listings in Ha'. apply elem_of_cons in Ha' as [->|(di & -> & Hdi)%elem_of_list_fmap]; cbn in *; [done|].
            rewrite Es in Hcv. rewrite E1, bool_decide_true in Hcv by done. cbn in Hcv.
            assert (Hr : sg_reset sg = false) by (destruct (ss_serial s ?= n_serial n)%N; congruence).
            unfold gone in Hd. rewrite Hr in Hd.
            destruct (split_before_spec (sg_cutoff sg) _ (gs_sorted _ _ _ _ Hgs)) as [_ H2]. specialize (H2 _ Hd).
            pose proof (version_cutoff _ _ _ _ _ _ Hvj Hdi). rewrite (so_cutoff _ _ _ _ _ _ _ _ Hsg) in H2. lia.
          + intros d' Hdk Er. destruct (kept_facts d' Hdk) as (Hd1 & Hcut & _).
            destruct (si_deltas _ _ Hst d' Hd1) as (s' & _ & Hl').
            rewrite Er in Hl'. destruct (listed_eq _ _ _ _ _ _ _ _ _ _ _ Hl Hl') as (_ & _ & E3 & _).
            unfold gone, kept in *. destruct (sg_reset sg); [by apply elem_of_nil in Hdk|].
            destruct (split_before_spec (sg_cutoff sg) _ (gs_sorted _ _ _ _ Hgs)) as [_ H2]. specialize (H2 _ Hd).
            rewrite (so_cutoff _ _ _ _ _ _ _ _ Hsg) in H2. lia.
      Qed.
      Lemma new_listed rel h : (rel, h) ∈ state_files st2 -> exists se ki sr, listed k' se ki rel sr h.
      Proof using All.
        destruct new_version as (j & Hj1 & Hj2 & Hvj).
        intros [Hin|(d & Hd & -> & ->)]%st2_files.
        - unfold staged_entries in Hin. apply elem_of_cons in Hin as [[= -> ->]|(d & [= -> ->] & Hd)%elem_of_list_fmap].
          + do 3 eexists. exists j, n. split; [done|]. split; [done|]. apply snap_listing.
          + do 3 eexists. exists j, n. split; [done|]. split; [done|]. by apply delta_listing.
        - destruct (kept_facts d Hd) as (Hd1 & _). destruct (si_deltas _ _ Hst d Hd1) as (s & _ & Hl).
          do 3 eexists. by eapply (listed_mono k).
      Qed.
      Lemma new_apart rel h : (rel, h) ∈ state_files st2 -> forall d, d ∈ st_deprecated st -> dp_path d <> public_path c rel.
      Proof using All.
        intros [Hin|(d' & Hd' & -> & ->)]%st2_files d Hd.
        - eapply (new_safe n0 n); [apply Hsg|by eapply entry_lists|exact Hstart|done].
        - eapply (si_apart _ _ Hst); [done|]. apply elem_of_app. right. apply elem_of_list_fmap. exists d'. split; [done|].
          by apply kept_facts.
      Qed.
      Lemma new_state_inv : state_inv k' st2.
      Proof using All.
        destruct new_version as (j & Hj1 & Hj2 & Hvj). split.
        - rewrite st2_snap. intros s [= <-]. exists j, n. split; [done|]. split; [done|]. apply snap_listing.
        - intros d Hd. exists (sg_snap sg). split; [apply st2_snap|]. apply st2_delta in Hd as [Hd|Hd].
          + destruct (kept_facts d Hd) as (Hd1 & _ & s & Es & <-). destruct (si_deltas _ _ Hst d Hd1) as (s' & Es' & Hl).
            rewrite Es in Es'. injection Es' as <-. by eapply (listed_mono k).
          + exists j, n. split; [done|]. split; [done|]. by apply delta_listing.
        - intros d [Hd|Hd]%st2_dep.
          + destruct (si_dead _ _ Hst d Hd) as (rel & H1 & H2). exists rel. split; [done|]. by eapply (dead_mono k).
          + destruct (dropped_facts _ Hd) as (rel & se & ki & sr & h & H1 & H2 & H3 & _). exists rel. split; [done|].
            eapply (dead_mono j); [done|]. by eapply dropped_dead.
        - intros d rel h [Hd|Hd]%st2_dep Hin Ep; [by eapply new_apart|].
          destruct (dropped_facts _ Hd) as (rel' & se & ki & sr & h' & H1 & H2 & H3 & H4). rewrite Ep in H1.
          apply public_path_inj in H1. subst rel'. destruct (st2_files _ _ Hin) as [Hin'|(d' & Hd' & -> & _)].
          + by eapply H3, entry_lists.
          + by eapply H4.
      Qed.
      (** all files of the new state are there *)
      Lemma new_files g en : en ∈ state_files st2 -> phase c' base name e f g ->
        (forall rel, good_rel name rel -> view g (public_path c' rel) = view f4 (public_path c' rel)) -> published x c g en.
      Proof using All.
        destruct en as [rel h]. intros Hin Hg Hview. destruct (st2_files _ _ Hin) as [Hen|(d & Hd & -> & ->)].
        - apply (places_published c c' Hpl). rewrite <- Hx. eapply published_view; [apply Hview|].
          + cbn. eapply (staged_good c' base name e f run_sane _ _ _ _ _ (rel, h)); [apply Ha|done].
          + eapply (arrives c' base name e f run_sane run_honest_); [exact Ha|done|].
            cbn. apply no_expiry. eapply new_safe; [apply Hsg|]. by eapply entry_lists.
        - apply (state_survives g st); [done| |done]. apply elem_of_app. right. apply elem_of_list_fmap. exists d. split; [done|].
          by apply kept_facts.
      Qed.
    End new_state.

    Lemma refs_of st2 n' : notif_of base st2 n' -> refs n' = (fun en => (base +:+ en.1, en.2)) <$> state_files st2.
    Proof.
      intros (s & Es & ->). unfold refs, state_files. rewrite Es. cbn. f_equal. rewrite <- !list_fmap_compose. done.
    Qed.

    Lemma run_inv g : g ∈ instants c' e f -> exists L', inv k' L' g.
    Proof.
      intros Hg%(instant_phase c' base name e f run_sane).
      pose proof run_sane as Hs. pose proof run_honest_ as Hh. pose proof (sn_cfg _ _ _ _ _ Hs) as Hc'.
      assert (Hown : own_tree c base name g) by (apply (own_back c c' base name Hpl); by eapply phase_own).
      assert (Hlinks : no_links (staging_dir c) g) by (rewrite <- (places_s c c' Hpl); by eapply phase_links).
      (* the notification is still the old one *)
      assert (Hold : g !! NF = f !! NF ->
        (forall st, starts_from c base name g st -> starts_from c base name f st) -> exists L', inv k' L' g).
      { intros EN Hst. exists L. split; [done|done| | | |].
        - rewrite EN. apply Hinv.
        - intros rel h Hin. destruct (iv_listed _ _ _ Hinv rel h Hin) as (se & ki & sr & Hl). do 3 eexists.
          by eapply (listed_mono k).
        - intros en Hin. by apply L_survives.
        - intros st H%Hst. destruct (iv_state _ _ _ Hinv st H) as (H1 & H2 & H3). split; [by eapply state_inv_mono|].
          split; [|done]. intros en Hin. by eapply state_survives. }
      (* the new notification *)
      assert (Hnew : forall st n0 n sg f1 v st' f2 cb st2 f3 f4 n',
        at_notify c' base name e f st n0 n sg f1 v st' f2 cb st2 f3 f4 -> notif_of base st2 n' ->
        (forall rel, good_rel name rel -> view g (public_path c' rel) = view f4 (public_path c' rel)) ->
        g !! NF = Some (File (x_write_notif x n') None) ->
        (forall st, starts_from c base name g st -> starts_from c base name f st \/ exists v', st = set_validator st2 v') ->
        exists L', inv k' L' g).
      { intros st n0 n sg f1 v st' f2 cb st2 f3 f4 n' Ha Hn' Hview EN Hst. exists (state_files st2).
        assert (Hstart : starts_from c base name f st) by (apply (places_starts c c' base name Hpl); apply Ha).
        split; [done|done| | | |].
        - right. exists n'. split; [done|]. by apply refs_of.
        - intros rel h Hin. by eapply new_listed.
        - intros en Hin. by eapply new_files.
        - intros st1 H1. destruct (Hst st1 H1) as [H|[v' ->]].
          + destruct (iv_state _ _ _ Hinv st1 H) as (H2 & H3 & H4). split; [by eapply state_inv_mono|].
            split; [intros en Hin; by eapply state_survives|]. intros d rel h Hd Hin.
            rewrite (starts_unique _ _ _ _ _ _ H Hstart) in Hd. by eapply new_apart.
          + pose proof (new_state_inv _ _ _ _ _ _ _ _ _ _ _ _ Ha) as HS. split; [by apply state_inv_validator|].
            split; [intros en Hin; by eapply new_files|]. intros d rel h Hd Hin. by eapply (si_apart _ _ HS). }
      assert (Hnv : forall doc f4 g', notifying c' name doc f4 g' ->
        forall rel, good_rel name rel -> view g' (public_path c' rel) = view f4 (public_path c' rel)).
      { intros doc f4 g' Hn rel Hr. destruct (good_rel_apart c' name rel Hr) as [H1 H2].
        eapply (notify_view c' name); [by apply apart_neq|by apply apart_neq|exact Hn]. }
      rewrite <- (places_N c c' name Hpl) in *.
      destruct Hg as [H|st n0 n sg f1 v st' f2 cb st2 f3 f4 n' H1 H2 H3|st n0 n sg f1 v st' f2 cb st2 f3 f4 n' f5 H1 H2].
      - apply Hold; [by eapply front_N|]. intros st Hst. apply (places_starts c c' base name Hpl) in Hst.
        apply (places_starts c c' base name Hpl). eapply start_plain; [exact Hs| |exact Hst]. by eapply front_sp.
      - assert (Hst1 : forall st, starts_from c base name g st -> starts_from c base name f st).
        { intros st1 Hst. apply (places_starts c c' base name Hpl) in Hst.
          apply (places_starts c c' base name Hpl). eapply start_plain; [exact Hs| |exact Hst]. by eapply notify_sp. }
        assert (EN4 : f4 !! notif_path c' name = f !! notif_path c' name).
        { destruct (N_quiet c' base name Hc') as (Q1 & Q2 & Q3 & Q4 & _). eapply notify_path; eauto. }
        destruct (no_notif _ _ _ _ _ H3) as [E|E].
        + apply Hold; [by rewrite E|done].
        + eapply Hnew; [exact H1|exact H2|by eapply Hnv|by rewrite E, Hx|]. intros st1 Hst. left. by apply Hst1.
      - pose proof H1 as [H1a H1b H1c H1d]. eapply Hnew; [exact H1a|exact H1b| | |].
        + intros rel Hr. rewrite (save_view c' base name e f Hs _ _ _ _ (public_under c' rel) H2). by eapply Hnv.
        + rewrite (save_N c' base name Hc' _ _ _ H2). by rewrite H1d, Hx.
        + intros st1 Hst. apply (places_starts c c' base name Hpl) in Hst.
          destruct (saved_state c' base name Hc' e f Hs f5 g st2 st1) as [H|H]; try done.
          * eapply save_good; [exact Hs|exact H1a].
          * by eapply notify_sp.
          * left. by apply (places_starts c c' base name Hpl).
          * by right.
    Qed.
  End one_run.

  Lemma follows_inv k g : follows c base name x src k g -> exists L, inv k L g.
  Proof.
    induction 1 as [f H1 H2 H3 H4|k k' f c' e g Hf [L IH] H1 H2 H3 H4 H5 H6 H7 H8 H9|k f g Hf [L IH] H1 H2].
    - exists []. split; [by apply own_start|done|by left| | |].
      + intros rel h Hin. by apply elem_of_nil in Hin.
      + intros en Hin. by apply elem_of_nil in Hin.
      + intros st [[Hx _]|[_ ->]].
        * unfold fs_exists, fs_stat in Hx. rewrite fs_get_nonroot, H2 in Hx by apply state_path_ne. done.
        * split; [|split; [intros en Hin; by apply elem_of_nil in Hin|intros d rel h Hd; by apply elem_of_nil in Hd]].
          split; cbn; try done; try (intros d Hd; by apply elem_of_nil in Hd). intros d rel h Hd. by apply elem_of_nil in Hd.
    - by eapply run_inv.
    - exists L.
      assert (HN : owned c NF) by (right; left; apply under_app).
      assert (Hpub : forall en, published x c f en -> published x c g en).
      { intros en (b & m & E & Eh). exists b, m. split; [|done]. rewrite H2; [done|]. right. left. apply public_under. }
      pose proof IH as [I1 I2 I3 I4 I5 I6]. split.
      + eapply own_else; [done|done|]. apply H2, owned_sp.
      + intros p t Hp. rewrite H2 by (by left). by apply I2.
      + by rewrite H2.
      + done.
      + auto.
      + intros st Hst. assert (Hst' : starts_from c base name f st).
        { eapply starts_plain; [apply H2, owned_sp| |done]. apply I1. }
        destruct (I6 st Hst') as (J1 & J2 & J3). split; [done|]. split; [auto|done].
  Qed.
End dangle.
