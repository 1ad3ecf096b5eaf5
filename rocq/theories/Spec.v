(** * Vocabulary of the properties about whole runs *)
From Verif Require Export FetchProofs UriProofs CodecProofs ListProofs FsWf.

(** [p] lies in (or is) the directory [d] *)
Definition under (d p : path) : Prop := d `prefix_of` p.
(** neither contains the other *)
Definition apart (d d' : path) : Prop := ~ under d d' /\ ~ under d' d.

(** The notification has the URI [base ++ name], and the configured directories
    are made of file names and do not contain each other.  (The staging
    directory and the state files are in the state directory; the RRDP and
    rsync directories may be, too.) *)
Record cfg_ok (c : config) (base name : string) : Prop := {
  ck_uri : c_notif_uri c = base +:+ name;
  ck_parent : https_parent (c_notif_uri c) = Some base;
  ck_name : file_name name;
  ck_state : clean_path (c_state_dir c);
  ck_rrdp : clean_path (c_rrdp_dir c);
  ck_rsync : clean_path (c_rsync_dir c);
  ck_s_r : apart (staging_dir c) (c_rrdp_dir c);
  ck_s_y : apart (staging_dir c) (c_rsync_dir c);
  ck_r_y : apart (c_rrdp_dir c) (c_rsync_dir c);
  ck_sp_r : apart (rrdp_state_path c) (c_rrdp_dir c);
  ck_sp_y : apart (rrdp_state_path c) (c_rsync_dir c);
  ck_yp_r : apart (rsync_state_path c) (c_rrdp_dir c);
  ck_yp_y : apart (rsync_state_path c) (c_rsync_dir c) }.

(** where the notification is published, and the file it is prepared in *)
Definition notif_path (c : config) (name : string) : path := c_rrdp_dir c ++ [name].
Definition notif_tmp (c : config) (name : string) : path := c_rrdp_dir c ++ [name +:+ ".tmp"].
(** where the file with the URI [base ++ rel] is published *)
Definition public_path (c : config) (rel : string) : path := c_rrdp_dir c ++ split_on slash rel.

(** A relative path made of file names that is not, and is not below, the
    notification or its temporary file. *)
Definition good_rel (name rel : string) : Prop :=
  clean_rel rel /\ List.hd "" (split_on slash rel) <> name /\
  List.hd "" (split_on slash rel) <> name +:+ ".tmp".

(** the files a notification lists, with their hashes *)
Definition refs (n : notification) : list (https * hash) :=
  (n_snap_uri n, n_snap_hash n) :: ((fun d => (di_uri d, di_hash d)) <$> n_deltas n).
Definition good_notif (base name : string) (n : notification) : Prop :=
  forall u h rel, (u, h) ∈ refs n -> u = base +:+ rel -> good_rel name rel.
(** no URI is listed with two hashes *)
Definition one_hash (n : notification) : Prop :=
  forall u h h', (u, h) ∈ refs n -> (u, h') ∈ refs n -> h = h'.

(** the source has this notification at the start of the run *)
Definition offers (c : config) (e : env) (f : fs) (n : notification) : Prop :=
  offered_notif e f (config_fetcher c) n.
(** the source never answers 304 to a request without ETag *)
Definition no_bad_304 (e : env) : Prop :=
  forall k u m hdr b, e_http e k u m None <> HReply 304 hdr b.

(** no symbolic links in this directory *)
Definition no_links (d : path) (f : fs) : Prop := forall p t, under d p -> f !! p <> Some (Link t).

(** ** Paths *)
Lemma under_refl d : under d d.
Proof. by exists []; rewrite app_nil_r. Qed.
Lemma under_app d q : under d (d ++ q).
Proof. by exists q. Qed.
Lemma under_trans a b p : under a b -> under b p -> under a p.
Proof. unfold under. intros. by transitivity b. Qed.
Lemma under_total (a b p : path) : under a p -> under b p -> under a b \/ under b a.
Proof.
  unfold under. revert b p. induction a as [|x a IH]; intros b p Ha Hb; [left; by apply prefix_nil|].
  destruct b as [|y b]; [right; by apply prefix_nil|].
  destruct p as [|z p]; [by apply prefix_nil_not in Ha|].
  apply prefix_cons_inv_1 in Ha as Ex. apply prefix_cons_inv_2 in Ha.
  apply prefix_cons_inv_1 in Hb as Ey. apply prefix_cons_inv_2 in Hb. subst.
  destruct (IH b p Ha Hb); [left|right]; by apply prefix_cons.
Qed.
Lemma apart_disjoint a b p : apart a b -> under a p -> under b p -> False.
Proof. intros [H1 H2] Ha Hb. destruct (under_total a b p Ha Hb); auto. Qed.
Lemma apart_sym a b : apart a b -> apart b a.
Proof. intros []. by split. Qed.
Lemma apart_app a b q : apart a b -> apart (a ++ q) b.
Proof.
  intros H. split; intros Hu.
  - eapply (apart_disjoint a b b); [done| |apply under_refl]. eapply under_trans; [apply under_app|exact Hu].
  - eapply (apart_disjoint a b (a ++ q)); [done|apply under_app|exact Hu].
Qed.
Lemma below_under q p : below q p -> under q p.
Proof. by intros []. Qed.
(** what is above a path in [a] is above [a] or in [a] *)
Lemma below_split a q p : under a p -> below q p -> below q a \/ under a q.
Proof.
  intros Ha [Hq Hne]. destruct (under_total a q p Ha Hq) as [?|Hqa]; [by right|].
  destruct (decide (q = a)) as [->|]; [right; apply under_refl|]. by left.
Qed.
Lemma apart_below a b q : apart a b -> below q a -> ~ under b q.
Proof.
  intros H [Hq _] Hb. eapply (apart_disjoint a b a); [done|apply under_refl|]. by eapply under_trans.
Qed.
Lemma apart_nonroot a b : apart a b -> a <> [] /\ b <> [].
Proof. intros [H1 H2]. split; intros ->; [apply H1|apply H2]; apply prefix_nil. Qed.
Lemma apart_neq a b : apart a b -> a <> b.
Proof. intros [H _] ->. apply H, under_refl. Qed.

Section cfg.
  Context (c : config) (base name : string) (Hc : cfg_ok c base name).

  Lemma staging_eq : staging_dir c = c_state_dir c ++ ["pre-validate-staging"].
  Proof. unfold staging_dir. apply path_join_name. by repeat split. Qed.
  Lemma rrdp_state_eq : rrdp_state_path c = c_state_dir c ++ ["rrdp-state.json"].
  Proof. unfold rrdp_state_path. apply path_join_name. by repeat split. Qed.
  Lemma rsync_state_eq : rsync_state_path c = c_state_dir c ++ ["rsync-state.json"].
  Proof. unfold rsync_state_path. apply path_join_name. by repeat split. Qed.
  Lemma apart_names (d : path) a b : a <> b -> apart (d ++ [a]) (d ++ [b]).
  Proof. intros H. split; intros [k Hk]; rewrite <- app_assoc in Hk; apply app_inv_head in Hk; by injection Hk. Qed.
  Lemma apart_s_sp : apart (staging_dir c) (rrdp_state_path c).
  Proof. rewrite staging_eq, rrdp_state_eq. by apply apart_names. Qed.
  Lemma apart_s_yp : apart (staging_dir c) (rsync_state_path c).
  Proof. rewrite staging_eq, rsync_state_eq. by apply apart_names. Qed.
  Lemma apart_sp_yp : apart (rrdp_state_path c) (rsync_state_path c).
  Proof. rewrite rrdp_state_eq, rsync_state_eq. by apply apart_names. Qed.

  Lemma ends_with_tmp_noslash : file_name (name +:+ ".tmp").
  Proof using Hc.
    destruct (ck_name _ _ _ Hc) as (H1 & H2 & H3 & H4). destruct name as [|a n]; [done|].
    split; [done|]. split; [|split].
    - rewrite sapp_cons. destruct n; done.
    - rewrite sapp_cons. destruct n as [|? [|]]; done.
    - apply noslash_app; done.
  Qed.
  Lemma name_tmp_ne : name +:+ ".tmp" <> name.
  Proof. intros H. apply (f_equal String.length) in H. rewrite slen_app in H. cbn in H. lia. Qed.

  Lemma staging_path_clean rel : clean_rel rel -> staging_path c rel = staging_dir c ++ split_on slash rel.
  Proof. apply path_join_clean. Qed.
  Lemma staging_path_under rel : clean_rel rel -> under (staging_dir c) (staging_path c rel).
  Proof. intros H. rewrite staging_path_clean by done. apply under_app. Qed.
  Lemma app_split_ne (d : path) rel : d ++ split_on slash rel <> d.
  Proof.
    intros E. apply (f_equal length) in E. rewrite app_length in E.
    pose proof (split_on_nonempty slash rel). destruct (split_on slash rel); [done|]. cbn in E. lia.
  Qed.
  Lemma staging_ne : staging_dir c <> [].
  Proof. rewrite staging_eq. by destruct (c_state_dir c). Qed.
  Lemma rrdp_ne : c_rrdp_dir c <> [].
  Proof using Hc. apply (apart_nonroot _ _ (ck_s_r _ _ _ Hc)). Qed.
  Lemma rsync_ne : c_rsync_dir c <> [].
  Proof using Hc. apply (apart_nonroot _ _ (ck_s_y _ _ _ Hc)). Qed.
  Lemma public_under rel : under (c_rrdp_dir c) (public_path c rel).
  Proof. apply under_app. Qed.
  Lemma public_path_inj rel rel' : public_path c rel = public_path c rel' -> rel = rel'.
  Proof. unfold public_path. intros E%app_inv_head. by eapply split_on_inj. Qed.

  (** good files are elsewhere than the notification *)
  Lemma good_rel_apart rel : good_rel name rel ->
    apart (public_path c rel) (notif_path c name) /\ apart (public_path c rel) (notif_tmp c name).
  Proof.
    intros (H1 & H2 & H3). unfold public_path, notif_path, notif_tmp.
    pose proof (split_on_nonempty slash rel) as Hn.
    destruct (split_on slash rel) as [|s l]; [done|]. cbn in H2, H3.
    split; split; intros [k Hk]; rewrite <- app_assoc in Hk; apply app_inv_head in Hk; cbn in Hk;
      injection Hk as Hk _; congruence.
  Qed.
  Lemma notif_tmp_apart : apart (notif_path c name) (notif_tmp c name).
  Proof. apply apart_names. apply not_eq_sym, name_tmp_ne. Qed.
End cfg.
