(** * The rsync tree: C18, C19, C21, C25 *)
From Coq Require Import ZifyN ZifyNat ZifyBool.
From Verif Require Import RsyncRun DemoRun Refuted PropsClean.
From Verif Require Import FsWf.

(** ** Specification *)
(** where an object goes, below the directory of the revision *)
Definition object_rel (c : config) (u : rsync_uri) : path :=
  (if c_include_host c then [ru_auth u; ru_module u] else []) ++ split_on slash (ru_path u).
(** [b] is the content of the last element of the snapshot that goes to [q] *)
Definition carries (c : config) (els : list (rsync_uri * option string)) (q : path) (b : string) : Prop :=
  exists l1 u l2, els = l1 ++ (u, Some b) :: l2 /\ object_rel c u = q /\
    forall v o, (v, o) ∈ l2 -> object_rel c v <> q.
(** the directory of a revision *)
Definition rev_dir (c : config) (r : revision) : path := c_rsync_dir c ++ [dir_name r].
Definition revision_of (n : notification) : revision := mkRev (n_session n) (n_serial n).
(** the directory rsync clients see *)
Definition current_path (c : config) : path := c_rsync_dir c ++ ["current"].
Definition serves (c : config) (g : fs) (root : path) : Prop :=
  if c_force_moves c then root = current_path c
  else exists d, g !! current_path c = Some (Link d) /\ root = c_rsync_dir c ++ [d].
(** what the rsync state file says *)
Definition recorded_rsync (c : config) (f : fs) (rs : rsync_state) : Prop :=
  (f !! rsync_state_path c = None /\ rs = mkRs None []) \/
  exists b m, f !! rsync_state_path c = Some (File b m) /\ rsync_state_parse b = Some rs.
Definition plain_record (c : config) (f : fs) : Prop := forall t, f !! rsync_state_path c <> Some (Link t).
(** the revision is not recorded there *)
Definition unseen (c : config) (f : fs) (r : revision) : Prop :=
  forall rs, recorded_rsync c f rs -> rs_current rs <> Some r /\ forall o, o ∈ rs_old rs -> or_rev o <> r.
(** the place for the directory of the revision is free, or a directory *)
Definition slot_free (c : config) (f : fs) (r : revision) : Prop :=
  f !! rev_dir c r = None \/ f !! rev_dir c r = Some Dir.
(** the time an object says it was made *)
Definition stamp (x : ext) (file b : string) : option Z :=
  if ends_with ".cer" file then ct_not_before <$> x_cert x b
  else if ends_with ".crl" file then cl_this_update <$> x_crl x b
  else match x_sigobj x b with Some (Some t, _) => Some t | Some (None, nb) => Some nb | None => None end.

(** ** Lemmas *)
Lemma rev_dir_eq c r : rev_path c r = rev_dir c r.
Proof. apply rev_path_eq. Qed.
Lemma current_eq c : rsync_current c = current_path c.
Proof. apply rsync_current_eq. Qed.
Lemma object_path_rel c out u : clean_uri u -> object_path (c_include_host c) out u = out ++ object_rel c u.
Proof.
  intros H. unfold object_rel. destruct (c_include_host c).
  - rewrite object_path_host by done. done.
  - rewrite object_path_nohost by apply H. done.
Qed.
Lemma object_rel_ne c u : object_rel c u <> [].
Proof.
  unfold object_rel. destruct (c_include_host c); [done|]. cbn.
  pose proof (split_on_nonempty slash (ru_path u)). done.
Qed.

Lemma last_elem_unique {A} (P : A -> Prop) (l1 l2 l1' l2' : list A) a a' :
  l1 ++ a :: l2 = l1' ++ a' :: l2' -> P a -> P a' ->
  (forall x, x ∈ l2 -> ~ P x) -> (forall x, x ∈ l2' -> ~ P x) -> a = a'.
Proof.
  intros E Ha Ha' Hl Hl'. destruct (decide (length l1 = length l1')) as [El|El].
  { apply app_inj_1 in E as [_ E]; [|done]. by injection E. }
  exfalso. destruct (decide (length l1 < length l1')) as [Hlt|Hlt].
  - apply (Hl a'); [|done].
    assert (H : (l1 ++ a :: l2) !! length l1' = Some a') by (rewrite E, lookup_app_r, Nat.sub_diag by lia; done).
    rewrite lookup_app_r in H by lia. destruct (length l1' - length l1) as [|k] eqn:Ek; [lia|].
    cbn in H. by eapply elem_of_list_lookup_2.
  - apply (Hl' a); [|done].
    assert (H : (l1' ++ a' :: l2') !! length l1 = Some a) by (rewrite <- E, lookup_app_r, Nat.sub_diag by lia; done).
    rewrite lookup_app_r in H by lia. destruct (length l1 - length l1') as [|k] eqn:Ek; [lia|].
    cbn in H. by eapply elem_of_list_lookup_2.
Qed.
Lemma carries_unique c els q b b' : carries c els q b -> carries c els q b' -> b = b'.
Proof.
  intros (l1 & u & l2 & E & Hu & Hl) (l1' & u' & l2' & E' & Hu' & Hl').
  assert (H : (u, Some b) = (u', Some b')); [|by injection H].
  apply (last_elem_unique (fun x => object_rel c x.1 = q) l1 l2 l1' l2'); [congruence|done|done| |].
  - intros [v o]. apply Hl.
  - intros [v o]. apply Hl'.
Qed.

Section objects.
  Context (c : config) (e : env) (out : path) (els : list (rsync_uri * option string)).
  Context (Hcl : forall u o, (u, o) ∈ els -> clean_uri u).
  Notation op := (object_path (c_include_host c) out).

  Lemma carries_last q b : carries c els q b <-> last_at (c_include_host c) out els (out ++ q) b.
  Proof using Hcl.
    split; intros (l1 & u & l2 & E & Hu & Hl); exists l1, u, l2; (split; [done|]).
    - assert (Hcu : clean_uri u) by (eapply Hcl; rewrite E; apply elem_of_app; right; constructor).
      split; [rewrite object_path_rel by done; by rewrite Hu|]. intros v o Hv.
      assert (Hcv : clean_uri v) by (eapply (Hcl v o); rewrite E; apply elem_of_app; right; by constructor).
      rewrite object_path_rel by done. intros Eq%app_inv_head. by apply (Hl v o).
    - assert (Hcu : clean_uri u) by (eapply Hcl; rewrite E; apply elem_of_app; right; constructor).
      rewrite object_path_rel in Hu by done. apply app_inv_head in Hu. split; [done|]. intros v o Hv Eq.
      assert (Hcv : clean_uri v) by (eapply (Hcl v o); rewrite E; apply elem_of_app; right; by constructor).
      apply (Hl v o Hv). rewrite object_path_rel by done. by rewrite Eq.
  Qed.
  Lemma last_not_none p b : last_at (c_include_host c) out els p b -> ~ none_at (c_include_host c) out els p.
  Proof using.
    intros (l1 & u & l2 & E & Hu & Hl) Hn. apply (Hn u (Some b)); [|done]. rewrite E. apply elem_of_app. right. constructor.
  Qed.
End objects.

(** the file time depends on the last component only *)
Lemma ends_with_slash s a t : (forall x y, s <> x +:+ String slash y) ->
  ends_with s (a +:+ String slash t) = ends_with s t.
Proof.
  intros Hs. apply eq_true_iff_eq. rewrite !ends_with_spec. split.
  - intros [r Hr]. revert r Hr. induction a as [|h a IH]; intros r Hr.
    + rewrite sapp_nil_l in Hr. destruct r as [|k r]; [rewrite sapp_nil_l in Hr; by destruct (Hs "" t)|].
      rewrite sapp_cons in Hr. injection Hr as _ ->. by exists r.
    + destruct r as [|k r]; [rewrite sapp_nil_l in Hr; by destruct (Hs (String h a) t)|].
      rewrite !sapp_cons in Hr. injection Hr as _ Hr. by apply (IH r).
  - intros [r ->]. exists (a +:+ String slash r). by rewrite sapp_assoc, sapp_cons.
Qed.
Lemma no_slash_cer : (forall x y, ".cer" <> x +:+ String slash y) /\ (forall x y, ".crl" <> x +:+ String slash y).
Proof.
  split; intros x y E.
  all: do 5 (destruct x as [|? x]; [rewrite sapp_nil_l in E; discriminate E|rewrite sapp_cons in E;
    first [discriminate E|injection E as _ E]]).
Qed.

Lemma path_str_last (d : path) q s : q <> [] -> (forall x y, s <> x +:+ String slash y) ->
  ends_with s (path_str (d ++ q)) = ends_with s (List.last q "").
Proof.
  intros Hq Hs. assert (H : forall p, p <> [] -> ends_with s (path_tail_str p) = ends_with s (List.last p "")).
  { clear Hq. intros p. induction p as [|a p IH]; intros Hp; [done|]. cbn [path_tail_str].
    destruct p as [|b p].
    - cbn [path_tail_str List.last]. rewrite sapp_nil_r. change ("/" +:+ a) with ("" +:+ String slash a).
      by apply ends_with_slash.
    - specialize (IH ltac:(done)). change (List.last (a :: b :: p) "") with (List.last (b :: p) ""). rewrite <- IH.
      cbn [path_tail_str]. set (t := b +:+ path_tail_str p).
      transitivity (ends_with s (("/" +:+ a) +:+ String slash t)); [by rewrite sapp_assoc|].
      rewrite ends_with_slash by done. symmetry.
      transitivity (ends_with s ("" +:+ String slash t)); [done|]. by apply ends_with_slash. }
  assert (El : List.last (d ++ q) "" = List.last q "").
  { destruct (exists_last Hq) as (q' & a & ->). by rewrite app_assoc, !List.last_last. }
  rewrite <- El, <- H by (by destruct d, q). unfold path_str. by destruct d, q.
Qed.
Lemma object_stamp x d q b : q <> [] -> object_time x (d ++ q) b = stamp x (List.last q "") b.
Proof.
  intros Hq. unfold object_time, stamp. cbv zeta.
  rewrite !(path_str_last d q) by (done || apply no_slash_cer).
  repeat case_match; try done.
Qed.

(** *** renaming a directory *)
Lemma op_rename_other p q f g k : op_rename p q f = Some ([], g) -> ~ under p k -> ~ under q k -> g !! k = f !! k.
Proof.
  intros E Hp Hq. unfold op_rename in E. destruct p as [|p0 p']; [done|].
  assert (Hk1 : k <> p0 :: p') by (intros ->; apply Hp, under_refl).
  assert (Hk2 : k <> q) by (intros ->; apply Hq, under_refl).
  assert (HF : forall nd, (<[q := nd]> (delete (p0 :: p') f) : fs) !! k = f !! k).
  { intros nd. by rewrite lookup_insert_ne, lookup_delete_ne. }
  assert (HD : move_tree (p0 :: p') q f !! k = f !! k).
  { rewrite move_tree_other by done. by rewrite decide_False. }
  destruct (fs_get f (p0 :: p')) as [[| |]|]; [| | |done].
  - destruct (parent_is_dir f q); [|done]. destruct (fs_get f q) as [[| |]|]; try done; by injection E as <-.
  - destruct (_ && _); [|done]. destruct (fs_get f q) as [[| |]|]; try done; [|by injection E as <-].
    destruct (decide _); [by injection E as <-|]. destruct (has_children f q); [done|by injection E as <-].
  - destruct (parent_is_dir f q); [|done]. destruct (fs_get f q) as [[| |]|]; try done; by injection E as <-.
Qed.
Lemma op_rename_dir p q f g r : op_rename p q f = Some ([], g) -> f !! p = Some Dir -> p <> q -> p <> [] ->
  g !! (q ++ r) = f !! (p ++ r).
Proof.
  intros E Hd Hpq Hp. unfold op_rename in E. destruct p as [|p0 p']; [done|].
  rewrite fs_get_nonroot in E by done. rewrite Hd in E. destruct (_ && _); [|done].
  assert (Em : g = move_tree (p0 :: p') q f).
  { destruct (fs_get f q) as [[| |]|]; try done; [|by injection E as <-].
    destruct (decide _); [done|]. destruct (has_children f q); [done|by injection E as <-]. }
  rewrite Em. destruct (f !! ((p0 :: p') ++ r)) eqn:Er.
  - rewrite move_tree_target by (by rewrite Er). done.
  - by rewrite move_tree_target_None.
Qed.

Lemma starts_recorded c f rs : rsync_state_path c <> [] -> plain_record c f -> rsync_starts c f rs -> recorded_rsync c f rs.
Proof.
  intros Hne Hpl H. unfold rsync_starts, fs_exists, op_read, fs_stat in H. rewrite fs_get_nonroot in H by done.
  destruct (f !! rsync_state_path c) as [[b m| |t]|] eqn:E.
  - destruct H as [[_ (b' & [= <-] & Hp)]|[? _]]; [|done]. right. by exists b, m.
  - by destruct H as [[_ (b' & ? & _)]|[? _]].
  - by destruct (Hpl t).
  - destruct H as [[? _]|[_ ->]]; [done|]. by left.
Qed.

Lemma rsync_state_path_ne c : rsync_state_path c <> [].
Proof. rewrite rsync_state_eq. by destruct (c_state_dir c). Qed.

Section run.
  Context (c : config) (base name : string) (e : env) (f : fs) (Hs : sane c base name e f).
  Let Hc : cfg_ok c base name := sn_cfg _ _ _ _ _ Hs.

  (** what the published revision is *)
  Record source_of (n : notification) (rel b : string) (els : list (rsync_uri * option string)) : Prop := {
    sf_offer : offers c e f n;
    sf_rel : n_snap_uri n = base +:+ rel;
    sf_good : good_rel name rel;
    sf_doc : x_snapshot (e_ext e) b = (els, true);
    sf_clean : forall u o, (u, o) ∈ els -> clean_uri u;
    sf_hash : honest_run c e f -> x_hash (e_ext e) b = n_snap_hash n }.

  Lemma published_source st n0 n sg f1 v st' f2 cb st2 f3 snap rs g1 b els g2 :
    at_rsync c base name e f st n0 n sg f1 v st' f2 cb st2 f3 ->
    rsync_pub c e st2 f3 snap rs g1 b els g2 ->
    source_of n0 (ss_rel snap) b els /\ rev_of snap = revision_of n0 /\
    op_read f3 (public_path c (ss_rel snap)) = Some b.
  Proof using Hs.
    intros Ha [P1 P2 P3 P4 P5 P6 P7 P8 P9 P10].
    destruct (new_deltas c base name e f _ _ _ _ _ _ _ _ _ _ _ Ha) as [_ Hsn].
    rewrite P1 in Hsn. injection Hsn as ->.
    pose proof (ar_clean _ _ _ _ _ _ _ _ _ _ _ _ _ _ _ _ Ha) as Hcl.
    pose proof (ac_move _ _ _ _ _ _ _ _ _ _ _ _ _ Hcl) as Hmv.
    destruct (am_staged _ _ _ _ _ _ _ _ _ _ Hmv) as [[So1 So2] _ (S1 & S2 & S3 & S4 & _) _ _].
    destruct (sav_same _ _ _ _ _ So2) as (V1 & V2 & V3 & V4).
    assert (Hgr : good_rel name (ss_rel (sg_snap sg))).
    { eapply (sn_notif _ _ _ _ _ Hs n0 So1); [left|]. by rewrite <- V3. }
    assert (Hg2 : good_state c base name st2).
    { destruct Ha as [H1 _ H2 _ _]. eapply good_cleaned; [|exact H2]. by eapply merged_good. }
    rewrite (public_mp c base name st2 _ Hg2) in P6 by apply Hgr.
    split; [|split; [|done]].
    - split; [done|by rewrite <- V3|done|done| |].
      + intros u o Hu. eapply (sn_snap _ _ _ _ _ Hs b). by rewrite P7.
      + intros Hh. destruct (ac_files _ _ _ _ _ _ _ _ _ _ _ _ _ Hcl (run_honest c base name e f Hs Hh _ _ _ _ _ Hmv)) as [_ Hpub].
        rewrite Forall_forall in Hpub. destruct (Hpub (ss_rel (sg_snap sg), ss_hash (sg_snap sg)) ltac:(left)) as (b' & m & Hb & Hx).
        cbn in Hb, Hx. unfold op_read, fs_stat in P6.
        rewrite fs_get_nonroot in P6 by (unfold public_path; pose proof (split_on_nonempty slash (ss_rel (sg_snap sg))); by destruct (c_rrdp_dir c), (split_on slash (ss_rel (sg_snap sg)))).
        destruct (f3 !! public_path c (ss_rel (sg_snap sg))) as [nd|] eqn:E3; [|done].
        pose proof (cl_sub _ _ _ _ (ar_tree _ _ _ _ _ _ _ _ _ _ _ _ _ _ _ _ Ha)) as Hsub.
        apply (lookup_weaken _ _ _ _ E3) in Hsub. rewrite Hb in Hsub. injection Hsub as <-. injection P6 as <-.
        rewrite Hx. congruence.
    - unfold rev_of, revision_of. congruence.
  Qed.

  (** the records of the run are those of the tree it started from *)
  Lemma run_recorded st n0 n sg f1 v st' f2 cb st2 f3 rs :
    at_rsync c base name e f st n0 n sg f1 v st' f2 cb st2 f3 -> plain_record c f ->
    rsync_starts c f3 rs -> recorded_rsync c f rs.
  Proof using Hs.
    intros Ha Hpl H. assert (E : f3 !! rsync_state_path c = f !! rsync_state_path c).
    { apply (own_before c base name e f Hs) with (2 := Ha). by right. }
    assert (Hr : recorded_rsync c f3 rs).
    { apply starts_recorded; [apply rsync_state_path_ne| |done]. intros t. rewrite E. apply Hpl. }
    unfold recorded_rsync in *. by rewrite E in Hr.
  Qed.
  Lemma old_ne rs r rs1 cb p : next_rsync e rs r rs1 -> rs_current rs <> Some r ->
    (forall o, o ∈ rs_old rs -> or_rev o <> r) -> rev_paths c rs1 cb p -> ~ under (rev_path c r) p.
  Proof using.
    intros Hn Hcur Hold (o & [Ho _] & Hp) Hr. assert (Hne : or_rev o <> r).
    { unfold next_rsync in Hn. destruct (rs_current rs) as [cur|].
      - destruct Hn as (now & _ & ->). cbn in Ho. apply elem_of_app in Ho as [Ho|Ho%elem_of_list_singleton]; [by apply Hold|].
        rewrite Ho. cbn. congruence.
      - rewrite Hn in Ho. by apply Hold. }
    by apply (apart_disjoint _ _ p (revs_apart c _ _ Hne)).
  Qed.
  Lemma rev_paths_not_current rs cb p : rev_paths c rs cb p -> ~ under (rsync_current c) p.
  Proof using.
    intros (o & _ & Hp) Hr. by apply (apart_disjoint _ _ p (rev_current_apart c (or_rev o))).
  Qed.
  Lemma saving_dir txt (g g' : fs) p : rsync_saving c txt g g' -> under (c_rsync_dir c) p -> g' !! p = g !! p.
  Proof using Hc.
    intros [Hm _] Hp. pose proof (ck_yp_y _ _ _ Hc) as Ha. apply (mods_same _ _ _ _ _ Hm).
    - intros <-. by apply (apart_disjoint _ _ (rsync_state_path c) Ha); [apply under_refl|].
    - intros Hb. apply below_under in Hb. apply (apart_disjoint _ _ (rsync_state_path c) Ha (under_refl _)).
      by eapply under_trans.
  Qed.
  Lemma rev_under r : under (c_rsync_dir c) (rev_path c r).
  Proof using. rewrite rev_path_eq. apply under_app. Qed.
  Lemma current_under : under (c_rsync_dir c) (rsync_current c).
  Proof using. rewrite rsync_current_eq. apply under_app. Qed.

  (** after turning to the new revision, rsync clients see what was published *)
  Definition new_root (r : revision) : path := if use_symlinks c then rev_path c r else rsync_current c.
  Lemma turned_root r rs f2 f3 q : turned c r rs f2 f3 -> rs_current rs <> Some r ->
    (use_symlinks c = false -> f2 !! rev_path c r = Some Dir) ->
    f3 !! (new_root r ++ q) = f2 !! (rev_path c r ++ q).
  Proof using.
    unfold turned, new_root. destruct (use_symlinks c).
    - intros [_ ->] _ _. pose proof (rev_current_apart c r) as H1. pose proof (rev_tmp_apart c r) as H2.
      rewrite lookup_insert_ne, lookup_delete_ne; [done| |].
      + intros E. apply (apart_disjoint _ _ (link_tmp c) H2); [rewrite E; apply under_app|apply under_refl].
      + intros E. apply (apart_disjoint _ _ (rsync_current c) H1); [rewrite E; apply under_app|apply under_refl].
    - intros (fa & Hm & Hr) Hcur Hd. specialize (Hd eq_refl).
      assert (Ha : forall k, under (rev_path c r) k -> fa !! k = f2 !! k).
      { intros k Hk. unfold moved_aside in Hm. destruct (rs_current rs) as [cur|]; [|by rewrite Hm].
        destruct (fs_exists f2 (rsync_current c)); [|by rewrite Hm].
        apply (op_rename_other _ _ _ _ _ Hm); intros Hu.
        - by apply (apart_disjoint _ _ k (rev_current_apart c r)).
        - apply (apart_disjoint (rev_path c cur) (rev_path c r) k); [apply revs_apart; congruence|done|done]. }
      rewrite <- Ha by apply under_app. apply (op_rename_dir _ _ _ _ _ Hr).
      + by rewrite Ha by apply under_refl.
      + apply apart_neq, rev_current_apart.
      + rewrite rev_path_eq. by destruct (c_rsync_dir c).
  Qed.
  Lemma new_root_under r q : under (c_rsync_dir c) (new_root r ++ q).
  Proof using.
    eapply under_trans; [|apply under_app]. unfold new_root. destruct (use_symlinks c); [apply rev_under|apply current_under].
  Qed.
  Lemma new_root_kept rs r rs1 cb q : next_rsync e rs r rs1 -> rs_current rs <> Some r ->
    (forall o, o ∈ rs_old rs -> or_rev o <> r) -> ~ rev_paths c rs1 cb (new_root r ++ q).
  Proof using.
    intros Hn H1 H2 Hp. unfold new_root in Hp. destruct (use_symlinks c).
    - eapply old_ne; [done|done|done|done|apply under_app].
    - eapply rev_paths_not_current; [done|apply under_app].
  Qed.
  Lemma done_root st f0 snap rs g1 b els g2 g3 rs1 cb g4 g q :
    rsync_done c e st f0 snap rs g1 b els g2 g3 rs1 cb g4 g ->
    rs_current rs <> Some (rev_of snap) -> (forall o, o ∈ rs_old rs -> or_rev o <> rev_of snap) ->
    (use_symlinks c = false -> g2 !! rev_path c (rev_of snap) = Some Dir) ->
    g !! (new_root (rev_of snap) ++ q) = g2 !! (rev_path c (rev_of snap) ++ q) /\ serves c g (new_root (rev_of snap)).
  Proof using Hc.
    intros [D1 D2 D3 D4 D5 D6 D7 D8] H1 H2 H3. split.
    - rewrite (saving_dir _ _ _ _ D7) by apply new_root_under.
      destruct (D5 (new_root (rev_of snap) ++ q)) as [->|[_ Hl]].
      + by eapply turned_root.
      + exfalso. by eapply new_root_kept.
    - unfold serves, new_root, use_symlinks in *. unfold turned, use_symlinks in D2.
      destruct (c_force_moves c); cbn [negb] in *; [by rewrite current_eq|]. rewrite <- (current_eq c). exists (dir_name (rev_of snap)). split; [|by rewrite rev_path_eq].
      rewrite (saving_dir _ _ _ _ D7) by apply current_under.
      destruct (D5 (rsync_current c)) as [->|[_ Hl]].
      + destruct D2 as [_ ->]. by rewrite lookup_insert.
      + exfalso. eapply rev_paths_not_current; [done|apply under_refl].
  Qed.


  (** what is at [q] in the new tree: the object the snapshot has there, or what
      the directory of that revision had there already *)
  Inductive new_at (n : notification) (els : list (rsync_uri * option string)) (q : path) (nd : option node) : Prop :=
  | new_object b m : carries c els q b -> nd = Some (File b m) ->
      (m = stamp (e_ext e) (List.last q "") b \/ (m = None /\ exists k, e_fault e k OSetMtime <> None)) -> new_at n els q nd
  | new_same : (forall b, ~ carries c els q b) -> nd = f !! (rev_dir c (revision_of n) ++ q) -> new_at n els q nd
  | new_dir : (forall b, ~ carries c els q b) -> f !! (rev_dir c (revision_of n) ++ q) = None -> nd = Some Dir ->
      new_at n els q nd.

  Lemma carries_ne els q b : carries c els q b -> q <> [].
  Proof using. intros (l1 & u & l2 & _ & <- & _). apply object_rel_ne. Qed.

  Lemma published_at st n0 n sg f1 v st' f2 cb st2 f3 snap rs g1 b els g2 q :
    at_rsync c base name e f st n0 n sg f1 v st' f2 cb st2 f3 ->
    rsync_pub c e st2 f3 snap rs g1 b els g2 ->
    new_at n0 els q (g2 !! (rev_path c (rev_of snap) ++ q)).
  Proof using Hs.
    intros Ha Hp. destruct (published_source _ _ _ _ _ _ _ _ _ _ _ _ _ _ _ _ _ Ha Hp) as ([_ _ _ _ Hcl _] & Hr & _).
    assert (Hf : f3 !! (rev_path c (rev_of snap) ++ q) = f !! (rev_dir c (revision_of n0) ++ q)).
    { rewrite <- Hr, <- rev_dir_eq. apply (own_before c base name e f Hs) with (2 := Ha). left.
      eapply under_trans; [apply rev_under|apply under_app]. }
    destruct Hp as [P1 P2 P3 P4 P5 P6 P7 P8 P9 P10].
    assert (Hnone : none_at (c_include_host c) (rev_path c (rev_of snap)) els (rev_path c (rev_of snap) ++ q) -> forall b', ~ carries c els q b').
    { intros Hn b' Hb'. apply (carries_last c (rev_path c (rev_of snap)) els Hcl) in Hb'. by eapply last_not_none. }
    destruct (P9 (rev_path c (rev_of snap) ++ q)) as [b' m H1 H2 H3|H1 H2|u o H1 H2 H3 H4 H5].
    - apply (carries_last c (rev_path c (rev_of snap)) els Hcl) in H1. eapply new_object; [done|done|].
      unfold time_of in H3. rewrite object_stamp in H3 by (by eapply carries_ne). done.
    - rewrite H2. destruct (P3 (rev_path c (rev_of snap) ++ q)) as [E|(_ & E1 & E2)].
      + apply new_same; [by apply Hnone|]. by rewrite E.
      + apply new_dir; [by apply Hnone| |done]. by rewrite <- Hf.
    - rewrite H3. destruct (P3 (rev_path c (rev_of snap) ++ q)) as [E|(_ & E1 & E2)]; [|congruence].
      apply new_dir; [by apply Hnone| |done]. by rewrite <- Hf, <- E.
  Qed.

  Lemma published_dir st n0 n sg f1 v st' f2 cb st2 f3 snap rs g1 b els g2 :
    at_rsync c base name e f st n0 n sg f1 v st' f2 cb st2 f3 ->
    rsync_pub c e st2 f3 snap rs g1 b els g2 -> slot_free c f (revision_of n0) ->
    g2 !! rev_path c (rev_of snap) = Some Dir.
  Proof using Hs.
    intros Ha Hp Hsl. destruct (published_source _ _ _ _ _ _ _ _ _ _ _ _ _ _ _ _ _ Ha Hp) as (Hsf & Hr & _).
    assert (Hf : f3 !! rev_path c (rev_of snap) = f !! rev_dir c (revision_of n0)).
    { rewrite <- Hr, <- rev_dir_eq. apply (own_before c base name e f Hs) with (2 := Ha). left. apply rev_under. }
    unfold slot_free in Hsl. rewrite <- Hf in Hsl.
    destruct Hp as [P1 P2 P3 P4 P5 P6 P7 P8 P9 P10].
    assert (H1 : g1 !! rev_path c (rev_of snap) = Some Dir).
    { destruct (P3 (rev_path c (rev_of snap))) as [E|(_ & _ & E)]; [|done]. rewrite E. destruct Hsl as [Hsl|Hsl]; [|done].
      unfold fs_exists, fs_stat in P4. rewrite fs_get_nonroot in P4 by (rewrite rev_path_eq; by destruct (c_rsync_dir c)).
      rewrite E, Hsl in P4. done. }
    destruct (P9 (rev_path c (rev_of snap))) as [b' m H2 H3 H4|H2 H3|u o H2 H3 H4 H5 H6]; [|by rewrite H3|done].
    exfalso. rewrite <- (app_nil_r (rev_path c (rev_of snap))) in H2 at 2.
    apply (carries_last c (rev_path c (rev_of snap)) els (sf_clean _ _ _ _ Hsf)) in H2. by apply carries_ne in H2.
  Qed.

  (** after a completed run *)
  Lemma rsync_result w : rsync_enabled c = true -> plain_record c f ->
    (forall n, offers c e f n -> unseen c f (revision_of n) /\ slot_free c f (revision_of n)) ->
    run c e f = (Ok tt, w) ->
    w_fs w = f \/
    exists n n' rel b els root, source_of n rel b els /\
      w_fs w !! notif_path c name = Some (File (x_write_notif (e_ext e) n') None) /\
      (n_session n' = n_session n /\ n_serial n' = n_serial n /\ n_snap_uri n' = n_snap_uri n /\ n_snap_hash n' = n_snap_hash n) /\
      (forall b' m, w_fs w !! public_path c rel = Some (File b' m) -> b' = b) /\
      serves c (w_fs w) root /\ forall q, new_at n els q (w_fs w !! (root ++ q)).
  Proof using Hs.
    intros Hr Hpl Hof E. destruct (rsync_completed c base name e f Hs w E Hr)
      as [?|(st & n0 & n & sg & f1 & v & st' & f2 & cb & st2 & f3 & snap & rs & g1 & b & els & g2 & g3 & rs1 & cy & g4 & f4 & n' & f5 & Hsv & Hsa & Hd & Hw & Hf)]; [by left|right].
    pose proof (as_notify _ _ _ _ _ _ _ _ _ _ _ _ _ _ _ _ _ _ _ Hsv) as Hn.
    pose proof (an_rsync _ _ _ _ _ _ _ _ _ _ _ _ _ _ _ _ _ Hn) as Ha.
    pose proof (rd_pub _ _ _ _ _ _ _ _ _ _ _ _ _ _ _ Hd) as Hp.
    destruct (published_source _ _ _ _ _ _ _ _ _ _ _ _ _ _ _ _ _ Ha Hp) as (Hsf & Hrv & Hrd).
    destruct (Hof n0 (sf_offer _ _ _ _ Hsf)) as [Hun Hsl].
    pose proof (run_recorded _ _ _ _ _ _ _ _ _ _ _ _ Ha Hpl (rp_start _ _ _ _ _ _ _ _ _ _ Hp)) as Hrec.
    destruct (Hun rs Hrec) as [Hcur Hold]. rewrite <- Hrv in Hcur, Hold.
    exists n0, n', (ss_rel snap), b, els, (new_root (rev_of snap)).
    split; [done|]. split; [|split; [|split; [|split]]].
    - rewrite (save_N c base name Hc _ _ _ Hsa). apply Hsv.
    - destruct (as_notif _ _ _ _ _ _ _ _ _ _ _ _ _ _ _ _ _ _ _ Hsv) as (s & Hs1 & ->).
      rewrite (rp_snap _ _ _ _ _ _ _ _ _ _ Hp) in Hs1. injection Hs1 as <-. unfold rev_of, revision_of in Hrv.
      injection Hrv as H1 H2. cbn. split; [done|]. split; [done|]. split; [by rewrite (sf_rel _ _ _ _ Hsf)|].
      destruct (new_deltas c base name e f _ _ _ _ _ _ _ _ _ _ _ Ha) as [_ Hsn].
      rewrite (rp_snap _ _ _ _ _ _ _ _ _ _ Hp) in Hsn. injection Hsn as ->.
      pose proof (ar_clean _ _ _ _ _ _ _ _ _ _ _ _ _ _ _ _ Ha) as Hcl.
      pose proof (ac_move _ _ _ _ _ _ _ _ _ _ _ _ _ Hcl) as Hmv.
      destruct (am_staged _ _ _ _ _ _ _ _ _ _ Hmv) as [[So1 So2] _ (S1 & S2 & S3 & S4 & _) _ _].
      destruct (sav_same _ _ _ _ _ So2) as (V1 & V2 & V3 & V4). congruence.
    - intros b' m Hb'. destruct (sf_good _ _ _ _ Hsf) as (G1 & G2 & G3).
      assert (Hv : view (w_fs w) (public_path c (ss_rel snap)) = view f3 (public_path c (ss_rel snap))).
      { eapply (final_view c base name e f Hs); [apply under_app| | |exact Hsv|exact Hsa].
        - unfold public_path, notif_path. intros Ex%app_inv_head. rewrite Ex in G2. done.
        - unfold public_path, notif_tmp. intros Ex%app_inv_head. rewrite Ex in G3. done. }
      apply view_file in Hb'. rewrite Hv in Hb'. apply view_file in Hb'.
      unfold op_read, fs_stat in Hrd. rewrite fs_get_nonroot in Hrd.
      { rewrite Hb' in Hrd. by injection Hrd as ->. }
      intros Ex. unfold public_path in Ex. apply app_eq_nil in Ex as [_ Ex]. by apply split_on_nonempty in Ex.
    - destruct (done_root _ _ _ _ _ _ _ _ _ _ _ _ _ [] Hd Hcur Hold) as [_ Hsr].
      { intros _. by eapply published_dir. }
      unfold serves in *. destruct (c_force_moves c); [done|]. destruct Hsr as (d & Hd1 & Hd2). exists d. split; [|done].
      rewrite Hw; [done|]. left. apply under_app.
    - intros q. destruct (done_root _ _ _ _ _ _ _ _ _ _ _ _ _ q Hd Hcur Hold) as [Hq _].
      { intros _. by eapply published_dir. }
      rewrite Hw by (left; apply new_root_under). rewrite Hq. by eapply published_at.
  Qed.
End run.

(** ** C18: after a completed update the rsync tree holds exactly the snapshot's objects *)
(** [root] has the objects of the snapshot as files, and no other file *)
Definition holds_exactly (c : config) (els : list (rsync_uri * option string)) (g : fs) (root : path) : Prop :=
  (forall q b, (exists m, g !! (root ++ q) = Some (File b m)) <-> carries c els q b) /\
  no_links root g.
(** every revision the source offers is new: not recorded, no directory yet *)
Definition new_revisions (c : config) (e : env) (f : fs) : Prop :=
  plain_record c f /\
  forall n, offers c e f n -> unseen c f (revision_of n) /\ forall p, under (rev_dir c (revision_of n)) p -> f !! p = None.
(** as above, but an earlier attempt may have left a directory *)
Definition retried_revisions (c : config) (e : env) (f : fs) : Prop :=
  plain_record c f /\ forall n, offers c e f n -> unseen c f (revision_of n) /\ slot_free c f (revision_of n).
(** the notification served in [g] is for the version and snapshot of [n] *)
Definition announces (c : config) (name : string) (x : ext) (g : fs) (n : notification) : Prop :=
  exists n' m, g !! notif_path c name = Some (File (x_write_notif x n') m) /\
    n_session n' = n_session n /\ n_serial n' = n_serial n /\
    n_snap_uri n' = n_snap_uri n /\ n_snap_hash n' = n_snap_hash n.
(** [b] is the document the snapshot of [n] is made of *)
Record snapshot_doc (c : config) (base name : string) (e : env) (f : fs) (n : notification) (rel b : string)
    (els : list (rsync_uri * option string)) : Prop := {
  sd_offer : offers c e f n;
  sd_rel : n_snap_uri n = base +:+ rel;
  sd_doc : x_snapshot (e_ext e) b = (els, true);
  sd_hash : honest_run c e f -> x_hash (e_ext e) b = n_snap_hash n }.

Lemma new_retried c e f : new_revisions c e f -> retried_revisions c e f.
Proof.
  intros [H1 H2]. split; [done|]. intros n Hn. destruct (H2 n Hn) as [H3 H4]. split; [done|]. left. apply H4, under_refl.
Qed.
Lemma source_doc c base name e f n rel b els : source_of c base name e f n rel b els -> snapshot_doc c base name e f n rel b els.
Proof. intros [H1 H2 H3 H4 H5 H6]. done. Qed.

Lemma new_exact c e f n els g root : (forall p, under (rev_dir c (revision_of n)) p -> f !! p = None) ->
  (forall q, new_at c e f n els q (g !! (root ++ q))) -> holds_exactly c els g root.
Proof.
  intros Hf Hq. split.
  - intros q b. specialize (Hq q). split.
    + intros [m Hm]. rewrite Hm in Hq. destruct Hq as [b' m' H1 [= -> ->] H3|H1 H2|H1 H2 H3]; [done| |done].
      rewrite Hf in H2 by apply under_app. done.
    + intros Hb. destruct Hq as [b' m' H1 H2 H3|H1 H2|H1 H2 H3]; [|by destruct (H1 b)|by destruct (H1 b)].
      exists m'. rewrite H2. do 2 f_equal. by eapply carries_unique.
  - intros p t [q ->] E. specialize (Hq q). rewrite E in Hq. destruct Hq as [b' m' H1 H2 H3|H1 H2|H1 H2 H3]; try done.
    rewrite Hf in H2 by apply under_app. done.
Qed.

Lemma enabled c : c_rsync_disable c = false -> rsync_enabled c = true.
Proof. unfold rsync_enabled. by intros ->. Qed.
Lemma symlinks c : c_force_moves c = false -> use_symlinks c = true.
Proof. unfold use_symlinks. by intros ->. Qed.
Theorem C18_rsync_tree c base name e f w :
  setting c base name e f -> c_rsync_disable c = false -> new_revisions c e f ->
  run c e f = (Ok tt, w) ->
  w_fs w = f \/
  exists n rel b els root, snapshot_doc c base name e f n rel b els /\
    announces c name (e_ext e) (w_fs w) n /\
    (forall b' m, w_fs w !! public_path c rel = Some (File b' m) -> b' = b) /\
    serves c (w_fs w) root /\ holds_exactly c els (w_fs w) root.
Proof.
  intros Hs%setting_sane Hr%enabled Hn E. destruct (new_retried _ _ _ Hn) as [Hn1 Hn2].
  destruct (rsync_result c base name e f Hs w Hr Hn1 Hn2 E) as [H|(n & n' & rel & b & els & root & H1 & H2 & H3 & H4 & H5 & H6)]; [by left|right].
  exists n, rel, b, els, root. split; [by apply source_doc|]. split; [by exists n', None|]. split; [done|]. split; [done|].
  eapply new_exact; [|done]. apply Hn. by apply H1.
Qed.

(** If an earlier attempt left a directory for the revision, all objects are
    there, and any other file was left by that attempt. *)
Theorem C18_after_retry c base name e f w :
  setting c base name e f -> c_rsync_disable c = false -> retried_revisions c e f ->
  run c e f = (Ok tt, w) ->
  w_fs w = f \/
  exists n rel b els root, snapshot_doc c base name e f n rel b els /\
    announces c name (e_ext e) (w_fs w) n /\ serves c (w_fs w) root /\
    (forall q b', carries c els q b' -> exists m, w_fs w !! (root ++ q) = Some (File b' m)) /\
    (forall q b' m, w_fs w !! (root ++ q) = Some (File b' m) ->
       carries c els q b' \/ f !! (rev_dir c (revision_of n) ++ q) = Some (File b' m)).
Proof.
  intros Hs%setting_sane Hr%enabled [Hn1 Hn2] E.
  destruct (rsync_result c base name e f Hs w Hr Hn1 Hn2 E) as [H|(n & n' & rel & b & els & root & H1 & H2 & H3 & H4 & H5 & H6)]; [by left|right].
  exists n, rel, b, els, root. split; [by apply source_doc|]. split; [by exists n', None|]. split; [done|]. split.
  - intros q b' Hb'. destruct (H6 q) as [b2 m2 K1 K2 K3|K1 K2|K1 K2 K3]; [|by destruct (K1 b')|by destruct (K1 b')].
    exists m2. rewrite K2. do 2 f_equal. by eapply carries_unique.
  - intros q b' m Hq. specialize (H6 q). rewrite Hq in H6. destruct H6 as [b2 m2 K1 [= -> ->] K3|K1 K2|K1 K2 K3]; [by left|by right|done].
Qed.

(** ** C25: file times come from the objects *)
Lemma serves_unique c g r1 r2 : serves c g r1 -> serves c g r2 -> r1 = r2.
Proof.
  unfold serves. destruct (c_force_moves c); [by intros -> ->|].
  intros (d & Hd & ->) (d' & Hd' & ->). rewrite Hd in Hd'. by injection Hd' as ->.
Qed.
Theorem C25_times c base name e f w :
  setting c base name e f -> c_rsync_disable c = false -> new_revisions c e f ->
  run c e f = (Ok tt, w) ->
  w_fs w = f \/
  forall root q b m, serves c (w_fs w) root -> w_fs w !! (root ++ q) = Some (File b m) ->
    m = stamp (e_ext e) (List.last q "") b \/ (m = None /\ exists k, e_fault e k OSetMtime <> None).
Proof.
  intros Hs%setting_sane Hr%enabled Hn E. destruct (new_retried _ _ _ Hn) as [Hn1 Hn2].
  destruct (rsync_result c base name e f Hs w Hr Hn1 Hn2 E) as [H|(n & n' & rel & b & els & root & H1 & H2 & H3 & H4 & H5 & H6)]; [by left|right].
  intros root' q b' m Hr' Hq. rewrite (serves_unique _ _ _ _ Hr' H5) in Hq. specialize (H6 q). rewrite Hq in H6.
  destruct H6 as [b2 m2 K1 [= -> ->] K3|K1 K2|K1 K2 K3]; [done| |done].
  destruct Hn as [_ Hn]. destruct (Hn n) as [_ Hf]; [by apply H1|]. rewrite Hf in K2 by apply under_app. done.
Qed.

(** every file served by rsync has the time its content says *)
Definition stamped (x : ext) (c : config) (g : fs) : Prop :=
  forall root q b m, serves c g root -> g !! (root ++ q) = Some (File b m) -> m = stamp x (List.last q "") b.
Definition sets_times (e : env) : Prop := forall k, e_fault e k OSetMtime = None.
Theorem C25_stamped c base name e f w :
  setting c base name e f -> c_rsync_disable c = false -> new_revisions c e f -> sets_times e ->
  stamped (e_ext e) c f -> run c e f = (Ok tt, w) -> stamped (e_ext e) c (w_fs w).
Proof.
  intros Hs Hr Hn Ht Hf E. destruct (C25_times c base name e f w Hs Hr Hn E) as [->|H]; [done|].
  intros root q b m H1 H2. destruct (H root q b m H1 H2) as [?|[_ [k Hk]]]; [done|]. by destruct (Hk (Ht k)).
Qed.
(** so servers that have an object under the same name agree on its time *)
Theorem C25_servers_agree x c1 f1 c2 f2 root1 root2 q1 q2 b m1 m2 :
  stamped x c1 f1 -> stamped x c2 f2 -> serves c1 f1 root1 -> serves c2 f2 root2 ->
  f1 !! (root1 ++ q1) = Some (File b m1) -> f2 !! (root2 ++ q2) = Some (File b m2) ->
  List.last q1 "" = List.last q2 "" -> m1 = m2.
Proof. intros H1 H2 R1 R2 E1 E2 Eq. rewrite (H1 _ _ _ _ R1 E1), (H2 _ _ _ _ R2 E2), Eq. done. Qed.

(** ** C19: clients of the symbolic link never see an incomplete tree *)
Theorem C19_instants c base name e f g :
  setting c base name e f -> c_force_moves c = false -> retried_revisions c e f ->
  g ∈ instants c e f ->
  (g !! current_path c = f !! current_path c /\
   forall r p, (forall n, offers c e f n -> revision_of n <> r) -> under (rev_dir c r) p -> g !! p = f !! p) \/
  exists n rel b els, snapshot_doc c base name e f n rel b els /\
    g !! current_path c = Some (Link (dir_name (revision_of n))) /\
    (forall q b', carries c els q b' -> exists m, g !! (rev_dir c (revision_of n) ++ q) = Some (File b' m)) /\
    (forall q b' m, g !! (rev_dir c (revision_of n) ++ q) = Some (File b' m) ->
       carries c els q b' \/ f !! (rev_dir c (revision_of n) ++ q) = Some (File b' m)).
Proof.
  intros Hs%setting_sane Hsym%symlinks [Hpl Hof] Hg.
  assert (Hown : forall p, under (c_rsync_dir c) p -> rsync_own c p) by (intros p Hp; by left).
  assert (Hcu : under (c_rsync_dir c) (current_path c)) by apply under_app.
  assert (Hru : forall r p, under (rev_dir c r) p -> under (c_rsync_dir c) p).
  { intros r p Hp. eapply under_trans; [|exact Hp]. apply under_app. }
  destruct (rsync_instant c base name e f Hs g Hg)
    as [H|(st & n0 & n & sg & f1 & v & st' & f2 & cb & st2 & f3 & g' & Ha & Hr & Hm & Hgg)].
  { left. split; [by rewrite H by auto|]. intros r p _ Hp. apply H, Hown. by eapply Hru. }
  assert (Hf3 : forall p, under (c_rsync_dir c) p -> f3 !! p = f !! p).
  { intros p Hp. by apply (own_before c base name e f Hs p) with (2 := Ha), Hown. }
  assert (Hold : (forall p, apart p (rev_path c (revision_of n0)) -> p <> link_tmp c -> g' !! p = f3 !! p) ->
    g !! current_path c = f !! current_path c /\
    forall r p, (forall n, offers c e f n -> revision_of n <> r) -> under (rev_dir c r) p -> g !! p = f !! p).
  { intros Hsame. split.
    - rewrite Hgg by auto. rewrite Hsame; [by rewrite Hf3| |].
      + rewrite <- current_eq. apply apart_sym, rev_current_apart.
      + rewrite <- current_eq. apply not_eq_sym, link_tmp_ne.
    - intros r p Hnr Hp. rewrite Hgg by (eapply Hown, Hru; done). rewrite Hsame; [by eapply Hf3, Hru| |].
      + rewrite <- rev_dir_eq in Hp. eapply apart_sub_l; [|exact Hp]. apply revs_apart. apply not_eq_sym, Hnr.
        apply (so_source _ _ _ _ _ _ _ _ (am_staged _ _ _ _ _ _ _ _ _ _ (ac_move _ _ _ _ _ _ _ _ _ _ _ _ _ (ar_clean _ _ _ _ _ _ _ _ _ _ _ _ _ _ _ _ Ha)))).
      + rewrite <- rev_dir_eq in Hp. intros ->. apply (apart_disjoint _ _ (link_tmp c) (rev_tmp_apart c r) Hp), under_refl. }
  destruct (am_staged _ _ _ _ _ _ _ _ _ _ (ac_move _ _ _ _ _ _ _ _ _ _ _ _ _ (ar_clean _ _ _ _ _ _ _ _ _ _ _ _ _ _ _ _ Ha)))
    as [[So1 So2] _ (S1 & S2 & S3 & S4 & _) _ _].
  destruct (sav_same _ _ _ _ _ So2) as (V1 & V2 & V3 & V4).
  destruct (new_deltas c base name e f _ _ _ _ _ _ _ _ _ _ _ Ha) as [_ Hsn].
  assert (Hrev : rev_of (sg_snap sg) = revision_of n0) by (unfold rev_of, revision_of; congruence).
  (* a completed turn *)
  assert (Hnew : forall snap rs g1 b els g2 g3 (gx : fs), rsync_pub c e st2 f3 snap rs g1 b els g2 ->
    turned c (rev_of snap) rs g2 g3 ->
    (forall p, under (rev_path c (rev_of snap)) p \/ p = rsync_current c -> gx !! p = g3 !! p) ->
    (forall p, under (c_rsync_dir c) p -> g !! p = gx !! p) ->
    exists n rel b els, snapshot_doc c base name e f n rel b els /\
      g !! current_path c = Some (Link (dir_name (revision_of n))) /\
      (forall q b', carries c els q b' -> exists m, g !! (rev_dir c (revision_of n) ++ q) = Some (File b' m)) /\
      (forall q b' m, g !! (rev_dir c (revision_of n) ++ q) = Some (File b' m) ->
       carries c els q b' \/ f !! (rev_dir c (revision_of n) ++ q) = Some (File b' m))).
  { intros snap rs g1 b els g2 g3 gx Hp Ht Hx Hgx.
    destruct (published_source c base name e f Hs _ _ _ _ _ _ _ _ _ _ _ _ _ _ _ _ _ Ha Hp) as (Hsf & Hrv & _).
    exists n0, (ss_rel snap), b, els. split; [by apply source_doc|]. unfold turned in Ht. rewrite Hsym in Ht. split.
    { rewrite Hgx by done. rewrite <- current_eq. rewrite Hx by auto. destruct Ht as [_ ->]. by rewrite lookup_insert, Hrv. }
    assert (Hq : forall q, g !! (rev_dir c (revision_of n0) ++ q) = g2 !! (rev_path c (rev_of snap) ++ q)).
    { intros q. rewrite <- Hrv, <- rev_dir_eq. rewrite Hgx by (eapply under_trans; [apply rev_under|apply under_app]).
      rewrite Hx by (left; apply under_app). destruct Ht as [_ ->].
      pose proof (rev_current_apart c (rev_of snap)) as H1. pose proof (rev_tmp_apart c (rev_of snap)) as H2.
      rewrite lookup_insert_ne, lookup_delete_ne; [done| |].
      + intros E. apply (apart_disjoint _ _ (link_tmp c) H2); [rewrite E; apply under_app|apply under_refl].
      + intros E. apply (apart_disjoint _ _ (rsync_current c) H1); [rewrite E; apply under_app|apply under_refl]. }
    pose proof (fun q => published_at c base name e f Hs _ _ _ _ _ _ _ _ _ _ _ _ _ _ _ _ _ q Ha Hp) as Hat. split.
    - intros q b' Hb'. rewrite Hq. destruct (Hat q) as [b2 m2 K1 K2 K3|K1 K2|K1 K2 K3]; [|by destruct (K1 b')|by destruct (K1 b')].
      exists m2. rewrite K2. do 2 f_equal. by eapply carries_unique.
    - intros q b' m Hb'. rewrite Hq in Hb'. specialize (Hat q). rewrite Hb' in Hat.
      destruct Hat as [b2 m2 K1 [= -> ->] K3|K1 K2|K1 K2 K3]; [by left|by right|done]. }
  assert (Hno : forall snap rs g1 b els g2 rs1 cy p, rsync_pub c e st2 f3 snap rs g1 b els g2 -> next_rsync e rs (rev_of snap) rs1 ->
    under (rev_path c (rev_of snap)) p \/ p = rsync_current c -> ~ rev_paths c rs1 cy p).
  { intros snap rs g1 b els g2 rs1 cy p Hp Hnx Hpp Hl.
    destruct (published_source c base name e f Hs _ _ _ _ _ _ _ _ _ _ _ _ _ _ _ _ _ Ha Hp) as (Hsf & Hrv & _).
    pose proof (run_recorded c base name e f Hs _ _ _ _ _ _ _ _ _ _ _ _ Ha Hpl (rp_start _ _ _ _ _ _ _ _ _ _ Hp)) as Hrec.
    destruct (Hof n0 So1) as [Hun _]. destruct (Hun rs Hrec) as [Hcr Hol]. rewrite <- Hrv in Hcr, Hol.
    destruct Hpp as [Hpp| ->]; [by eapply old_ne|]. eapply rev_paths_not_current; [done|apply under_refl]. }
  destruct Hm as [->|snap H1 H2|snap rs g1 b els g2 H1 H2|snap rs g1 b els g2 g3 rs1 cy H1 H2 H3 H4 H5|snap rs g1 b els g2 g3 rs1 cy g4 H1 H2 H3 H4 H5 H6].
  - left. by apply Hold.
  - left. apply Hold. intros p Hp1 _. rewrite Hsn in H1. injection H1 as <-. rewrite Hrev in H2.
    destruct (apart_out _ _ Hp1) as [K1 K2]. apply (inside_same _ _ _ _ H2); [done|]. intros (q & Hq & Hb). by apply (K2 q).
  - unfold turning in H2. rewrite Hsym in H2. destruct H2 as [H2|H2].
    + left. apply Hold. intros p Hp1 Hp2. rewrite H2 by done.
      pose proof (rp_snap _ _ _ _ _ _ _ _ _ _ H1) as Hsn'. rewrite Hsn in Hsn'. injection Hsn' as <-.
      pose proof (rp_in _ _ _ _ _ _ _ _ _ _ H1) as Hin. rewrite Hrev in Hin.
      destruct (apart_out _ _ Hp1) as [K1 K2]. apply (inside_same _ _ _ _ Hin); [done|]. intros (q & Hq & Hb). by apply (K2 q).
    + right. eapply (Hnew snap rs g1 b els g2 g' g'); [done| |done|auto]. unfold turned. by rewrite Hsym.
  - right. eapply (Hnew snap rs g1 b els g2 g3 g'); [done|done| |auto]. intros p Hp.
    destruct (H5 p) as [?|[_ Hl]]; [done|]. exfalso. by eapply Hno.
  - right. eapply (Hnew snap rs g1 b els g2 g3 g'); [done|done| |auto]. intros p Hp.
    rewrite (saving_dir c base name e f Hs _ _ _ _ H6).
    + destruct (H5 p) as [?|[_ Hl]]; [done|]. exfalso. by eapply Hno.
    + destruct Hp as [Hp| ->]; [|apply current_under]. eapply under_trans; [apply rev_under|done].
Qed.

(** so a client that sees the tree of [r0] sees it unchanged until it sees a complete new one *)
Theorem C19_switch c base name e f r0 g :
  setting c base name e f -> c_force_moves c = false -> retried_revisions c e f ->
  f !! current_path c = Some (Link (dir_name r0)) ->
  (forall n, offers c e f n -> revision_of n <> r0) ->
  g ∈ instants c e f ->
  (g !! current_path c = Some (Link (dir_name r0)) /\ forall p, under (rev_dir c r0) p -> g !! p = f !! p) \/
  exists n rel b els, snapshot_doc c base name e f n rel b els /\
    g !! current_path c = Some (Link (dir_name (revision_of n))) /\
    (forall q b', carries c els q b' -> exists m, g !! (rev_dir c (revision_of n) ++ q) = Some (File b' m)).
Proof.
  intros H1 H2 H3 H4 H5 H6. destruct (C19_instants c base name e f g H1 H2 H3 H6) as [[K1 K2]|(n & rel & b & els & K1 & K2 & K3 & _)].
  - left. rewrite K1, H4. split; [done|]. intros p. by apply K2.
  - right. by exists n, rel, b, els.
Qed.

(** ** C21: old trees are kept for the cleanup time, then removed *)
(** the revisions that are not current any more after the run, with the time
    since when *)
Definition retired (e : env) (rs : rsync_state) (olds : list old_revision) : Prop :=
  match rs_current rs with
  | Some cur => exists now, run_clock e now /\ olds = rs_old rs ++ [mkOld now cur]
  | None => olds = rs_old rs
  end.
(** where the run puts things: the new tree and what clients see *)
Definition working_place (c : config) (rs : rsync_state) (r : revision) (p : path) : Prop :=
  under (rev_dir c r) p \/ under (current_path c) p \/ p = c_rsync_dir c ++ ["current.tmp"] \/ p = c_rsync_dir c \/
  (c_force_moves c = true /\ exists cur, rs_current rs = Some cur /\ under (rev_dir c cur) p).

Theorem C21_old_trees c base name e f w :
  setting c base name e f -> c_rsync_disable c = false -> plain_record c f ->
  run c e f = (Ok tt, w) ->
  w_fs w = f \/
  exists n rs olds cb, offers c e f n /\ recorded_rsync c f rs /\ retired e rs olds /\ clean_time c e cb /\
    recorded_rsync c (w_fs w) (mkRs (Some (revision_of n)) (filter (fun o => (cb < or_since o)%Z) olds)) /\
    (forall o q, o ∈ olds -> (or_since o <= cb)%Z -> w_fs w !! (rev_dir c (or_rev o) ++ q) = None \/
       (q = [] /\ exists t, w_fs w !! rev_dir c (or_rev o) = Some (Link t))) /\
    (forall p, under (c_rsync_dir c) p -> w_fs w !! p <> f !! p -> ~ working_place c rs (revision_of n) p ->
       w_fs w !! p = None /\ exists o, o ∈ olds /\ (or_since o <= cb)%Z /\ under (rev_dir c (or_rev o)) p).
Proof.
  intros Hs%setting_sane Hr%enabled Hpl E. pose proof (sn_cfg _ _ _ _ _ Hs) as Hc. destruct (rsync_completed c base name e f Hs w E Hr)
    as [?|(st & n0 & n & sg & f1 & v & st' & f2 & cb & st2 & f3 & snap & rs & g1 & b & els & g2 & g3 & rs1 & cy & g4 & f4 & n' & f5 & Hsv & Hsa & Hd & Hw & Hf)]; [by left|right].
  pose proof (as_notify _ _ _ _ _ _ _ _ _ _ _ _ _ _ _ _ _ _ _ Hsv) as Hn.
  pose proof (an_rsync _ _ _ _ _ _ _ _ _ _ _ _ _ _ _ _ _ Hn) as Ha.
  destruct (published_source c base name e f Hs _ _ _ _ _ _ _ _ _ _ _ _ _ _ _ _ _ Ha (rd_pub _ _ _ _ _ _ _ _ _ _ _ _ _ _ _ Hd)) as (Hsf & Hrv & Hrd).
  destruct Hd as [D1 D2 D3 D4 D5 D6 D7 D8].
  pose proof (run_recorded c base name e f Hs _ _ _ _ _ _ _ _ _ _ _ _ Ha Hpl (rp_start _ _ _ _ _ _ _ _ _ _ D1)) as Hrec.
  assert (Hcur1 : rs_current rs1 = Some (rev_of snap)).
  { unfold next_rsync in D3. destruct (rs_current rs); [destruct D3 as (now & _ & ->)|rewrite D3]; done. }
  exists n0, rs, (rs_old rs1), cy. split; [apply Hsf|]. split; [done|]. split.
  { unfold retired, next_rsync in *. destruct (rs_current rs); [|by rewrite D3].
    destruct D3 as (now & ? & ->). by exists now. }
  split; [done|]. split; [|split].
  - right. eexists _, None. split; [rewrite Hw by (by right); exact D8|]. rewrite rsync_state_roundtrip. unfold kept_revs.
    by rewrite Hcur1, Hrv.
  - intros o q Ho Ht.
    rewrite <- rev_dir_eq. rewrite !Hw by (left; apply rev_under || (eapply under_trans; [apply rev_under|apply under_app])).
    assert (Hg : f4 !! rev_path c (or_rev o) = None \/ exists t, f4 !! rev_path c (or_rev o) = Some (Link t)).
    { pose proof (D6 o ltac:(done)) as Hx. unfold fs_exists, fs_stat in Hx.
      rewrite fs_get_nonroot in Hx by (rewrite rev_path_eq; by destruct (c_rsync_dir c)).
      rewrite (saving_dir c base name e f Hs _ _ _ _ D7) by apply rev_under.
      destruct (g4 !! rev_path c (or_rev o)) as [[| |t]|]; try done; [right; by exists t|by left]. }
    destruct (decide (q = [])) as [->|Hq]; [rewrite app_nil_r; destruct Hg; auto|]. left.
    destruct (f4 !! (rev_path c (or_rev o) ++ q)) as [nd|] eqn:En; [|done]. exfalso.
    pose proof (wf_below _ _ _ (rev_path c (or_rev o)) (proj1 (an_tree _ _ _ _ _ _ _ _ _ _ _ _ _ _ _ _ _ Hn)) En) as Hx.
    rewrite Hx in Hg; [by destruct Hg as [?|[t ?]]| |rewrite rev_path_eq; by destruct (c_rsync_dir c)].
    split; [apply under_app|]. intros Ex. apply Hq. apply (app_inv_head (rev_path c (or_rev o))). by rewrite app_nil_r.
  - intros p Hp Hne Hwp. rewrite Hw in Hne by (by left). rewrite Hw by (by left).
    rewrite (saving_dir c base name e f Hs _ _ _ _ D7) in * by done.
    assert (Hg3 : g3 !! p = f !! p).
    { rewrite <- (Hf p) by (by left).
      assert (H1 : ~ under (rev_path c (rev_of snap)) p) by (rewrite Hrv, rev_dir_eq; intros ?; apply Hwp; by left).
      assert (H2 : ~ under (rsync_current c) p) by (rewrite current_eq; intros ?; apply Hwp; right; by left).
      transitivity (g2 !! p).
      - unfold turned, use_symlinks in D2. destruct (c_force_moves c) eqn:Efm; cbn [negb] in D2.
        + destruct D2 as (fa & M1 & M2). rewrite (op_rename_other _ _ _ _ _ M2) by done.
          unfold moved_aside in M1. destruct (rs_current rs) as [cur|] eqn:Ec; [|by rewrite M1].
          destruct (fs_exists g2 (rsync_current c)); [|by rewrite M1].
          apply (op_rename_other _ _ _ _ _ M1); [done|]. rewrite rev_dir_eq. intros Hu. apply Hwp. do 4 right. split; [done|]. by exists cur.
        + destruct D2 as [_ ->]. rewrite lookup_insert_ne, lookup_delete_ne; [done| |].
          * rewrite link_tmp_eq. intros <-. apply Hwp. right. right. by left.
          * intros <-. apply H2, under_refl.
      - pose proof (rp_in _ _ _ _ _ _ _ _ _ _ D1) as Hin. apply (inside_same _ _ _ _ Hin); [done|].
        intros (k & Hk & Hb).
        destruct (below_split _ _ _ Hk Hb) as [Hb'|?]; [|done]. rewrite rev_path_eq in Hb'. apply below_snoc in Hb'.
        apply Hwp. right. right. right. left. by apply (anti_symm prefix). }
    destruct (D5 p) as [H|[H (o & [Ho1 Ho2] & Ho3)]]; [congruence|]. split; [done|]. exists o.
    by rewrite rev_dir_eq in Ho3.
Qed.

(** With directory moves, what clients saw before is kept in the directory of its
    revision, for the cleanup time. *)
Theorem C21_moved_aside c base name e f w rs cur :
  setting c base name e f -> c_rsync_disable c = false -> c_force_moves c = true -> retried_revisions c e f ->
  recorded_rsync c f rs -> rs_current rs = Some cur -> (forall o, o ∈ rs_old rs -> or_rev o <> cur) ->
  f !! current_path c = Some Dir ->
  run c e f = (Ok tt, w) ->
  w_fs w = f \/ (forall q, w_fs w !! (rev_dir c cur ++ q) = f !! (current_path c ++ q)) \/
  exists now cb, run_clock e now /\ clean_time c e cb /\ (now <= cb)%Z.
Proof.
  intros Hs%setting_sane Hr%enabled Hfm [Hpl Hof] Hrec Hcur Hold Hdir E. destruct (rsync_completed c base name e f Hs w E Hr)
    as [?|(st & n0 & n & sg & f1 & v & st' & f2 & cb & st2 & f3 & snap & rs' & g1 & b & els & g2 & g3 & rs1 & cy & g4 & f4 & n' & f5 & Hsv & Hsa & Hd & Hw & Hf)]; [by left|right].
  pose proof (as_notify _ _ _ _ _ _ _ _ _ _ _ _ _ _ _ _ _ _ _ Hsv) as Hn.
  pose proof (an_rsync _ _ _ _ _ _ _ _ _ _ _ _ _ _ _ _ _ Hn) as Ha.
  destruct (published_source c base name e f Hs _ _ _ _ _ _ _ _ _ _ _ _ _ _ _ _ _ Ha (rd_pub _ _ _ _ _ _ _ _ _ _ _ _ _ _ _ Hd)) as (Hsf & Hrv & Hrd).
  destruct Hd as [D1 D2 D3 D4 D5 D6 D7 D8].
  pose proof (run_recorded c base name e f Hs _ _ _ _ _ _ _ _ _ _ _ _ Ha Hpl (rp_start _ _ _ _ _ _ _ _ _ _ D1)) as Hrec'.
  assert (Hrs : rs' = rs).
  { destruct Hrec as [[R1 ->]|(b1 & m1 & R1 & R2)], Hrec' as [[R3 ->]|(b2 & m2 & R3 & R4)]; congruence. }
  subst rs'. destruct (Hof n0 (sf_offer _ _ _ _ _ _ _ _ _ Hsf)) as [Hun _]. destruct (Hun rs Hrec) as [Hc1 _].
  assert (Hne : cur <> rev_of snap) by (rewrite Hrv; congruence).
  unfold next_rsync in D3. rewrite Hcur in D3. destruct D3 as (now & Hnow & ->).
  destruct (decide (now <= cy)%Z) as [Hle|Hgt]; [right; by exists now, cy|left]. intros q.
  assert (Hu : under (c_rsync_dir c) (rev_path c cur ++ q)) by (eapply under_trans; [apply rev_under|apply under_app]).
  rewrite <- rev_dir_eq. rewrite Hw by (by left). rewrite (saving_dir c base name e f Hs _ _ _ _ D7) by done.
  assert (Hnl : ~ rev_paths c (mkRs (Some (rev_of snap)) (rs_old rs ++ [mkOld now cur])) cy (rev_path c cur ++ q)).
  { intros (o & [Ho Ht] & Hp). cbn in Ho. apply elem_of_app in Ho as [Ho| ->%elem_of_list_singleton]; [|done].
    apply (apart_disjoint _ _ (rev_path c cur ++ q) (revs_apart c _ _ (Hold o Ho))); [done|apply under_app]. }
  destruct (D5 (rev_path c cur ++ q)) as [->|[_ ?]]; [|done].
  unfold turned, use_symlinks in D2. rewrite Hfm in D2. cbn [negb] in D2. destruct D2 as (fa & M1 & M2).
  rewrite (op_rename_other _ _ _ _ _ M2).
  2: { intros Hx. apply (apart_disjoint _ _ (rev_path c cur ++ q) (revs_apart c _ _ Hne)); [apply under_app|done]. }
  2: { intros Hx. apply (apart_disjoint _ _ (rev_path c cur ++ q) (rev_current_apart c cur)); [apply under_app|done]. }
  assert (Hg2 : forall k, under (rsync_current c) k -> g2 !! k = f !! k).
  { intros k Hk. rewrite <- (Hf k) by (left; eapply under_trans; [apply current_under|done]).
    assert (Hka : apart k (rev_path c (rev_of snap))).
    { eapply apart_sub_l; [|exact Hk]. apply apart_sym, rev_current_apart. }
    destruct (apart_out _ _ Hka) as [K1 K2].
    apply (inside_same _ _ _ _ (rp_in _ _ _ _ _ _ _ _ _ _ D1)); [done|]. intros (x & Hx & Hb). by apply (K2 x). }
  unfold moved_aside in M1. rewrite Hcur in M1. rewrite <- current_eq in Hdir |- *.
  assert (Hd2 : g2 !! rsync_current c = Some Dir) by (by rewrite Hg2 by apply under_refl).
  assert (Hex : fs_exists g2 (rsync_current c) = true).
  { unfold fs_exists, fs_stat. rewrite fs_get_nonroot by (rewrite rsync_current_eq; by destruct (c_rsync_dir c)). by rewrite Hd2. }
  rewrite Hex in M1. rewrite (op_rename_dir _ _ _ _ q M1); [|done| |rewrite rsync_current_eq; by destruct (c_rsync_dir c)].
  - by rewrite Hg2 by apply under_app.
  - apply apart_neq, apart_sym, rev_current_apart.
Qed.

(** ** Concrete cases *)
(** the second of three runs: the source went from serial 3 to serial 5 *)
Definition unseen_check (c : config) (f : fs) (r : revision) : bool :=
  match f !! rsync_state_path c with
  | Some (File b _) =>
      match rsync_state_parse b with
      | Some rs => negb (bool_decide (rs_current rs = Some r)) && forallb (fun o => negb (bool_decide (or_rev o = r))) (rs_old rs)
      | None => false
      end
  | None => true
  | _ => false
  end.
Definition fresh_check (c : config) (f : fs) (r : revision) : bool :=
  unseen_check c f r && bool_decide (map_Forall (fun p _ => ~ rev_dir c r `prefix_of` p) f).
Lemma fresh_ok c f r : fresh_check c f r = true ->
  plain_record c f /\ unseen c f r /\ forall p, under (rev_dir c r) p -> f !! p = None.
Proof.
  unfold fresh_check, unseen_check. intros [H1 H2]%andb_true_iff. apply bool_decide_eq_true in H2. split; [|split].
  - intros t E. by rewrite E in H1.
  - intros rs [[E ->]|(b & m & E & Hp)]; [split; [done|]; intros o Ho; by apply elem_of_nil in Ho|].
    rewrite E, Hp in H1. apply andb_true_iff in H1 as [K1 K2]. apply negb_true_iff, bool_decide_eq_false in K1.
    split; [done|]. intros o Ho. rewrite forallb_forall in K2. apply elem_of_list_In in Ho. specialize (K2 o Ho).
    by apply negb_true_iff, bool_decide_eq_false in K2.
  - intros p Hp. destruct (f !! p) as [nd|] eqn:E; [|done]. by destruct (H2 _ _ E).
Qed.
Definition case_check (c : config) (e : env) (f : fs) (r0 r : revision) (q : path) : bool :=
  let w := run c e f in
  fresh_check c f r && bool_decide (f !! current_path c = Some (Link (dir_name r0))) &&
  match w.1 with Ok _ => true | _ => false end &&
  bool_decide (w_fs w.2 !! current_path c = Some (Link (dir_name r))) &&
  match w_fs w.2 !! (rev_dir c r ++ q) with Some (File _ (Some _)) => true | _ => false end.
Lemma case_ok c e f r0 r q : case_check c e f r0 r q = true ->
  plain_record c f /\ unseen c f r /\ (forall p, under (rev_dir c r) p -> f !! p = None) /\
  f !! current_path c = Some (Link (dir_name r0)) /\
  exists w, run c e f = (Ok tt, w) /\ w_fs w !! current_path c = Some (Link (dir_name r)) /\
    exists b t, w_fs w !! (rev_dir c r ++ q) = Some (File b (Some t)).
Proof.
  unfold case_check. intros [[[[H1 H2]%andb_true_iff H3]%andb_true_iff H4]%andb_true_iff H5]%andb_true_iff.
  apply fresh_ok in H1 as (K1 & K2 & K3). apply bool_decide_eq_true in H2, H4.
  split; [done|]. split; [done|]. split; [done|]. split; [done|].
  destruct (run c e f) as [[[]| |] w]; [|done|done]. exists w. split; [done|]. split; [done|]. cbn [snd] in H5.
  destruct (w_fs w !! (rev_dir c r ++ q)) as [[b [t|]| |]|]; try done. by exists b, t.
Qed.
Definition rev3 : revision := mkRev uuid_A 3.
Definition rev5 : revision := mkRev uuid_A 5.
Lemma case3 : case_check demo_config (env3 1) (tree3 1) rev3 rev5 ["ca"; "5.roa"] = true.
Proof. vme. Qed.
Example C18_applies :
  setting demo_config base name (env3 1) (tree3 1) /\ c_rsync_disable demo_config = false /\
  new_revisions demo_config (env3 1) (tree3 1) /\ sets_times (env3 1) /\
  exists w, run demo_config (env3 1) (tree3 1) = (Ok tt, w) /\
    tree3 1 !! current_path demo_config = Some (Link (dir_name rev3)) /\
    w_fs w !! current_path demo_config = Some (Link (dir_name rev5)) /\
    exists b t, w_fs w !! (rev_dir demo_config rev5 ++ ["ca"; "5.roa"]) = Some (File b (Some t)).
Proof.
  destruct (case_ok _ _ _ _ _ _ case3) as (H1 & H2 & H3 & H4 & w & H5 & H6 & H7).
  split; [apply setting3; lia|]. split; [reflexivity|]. split.
  { split; [exact H1|]. intros n ->%env3_offers; [|lia]. exact (conj H2 H3). }
  split; [exact (fun _ => eq_refl)|]. exists w. exact (conj H5 (conj H4 (conj H6 H7))).
Qed.
(** so a client sees the tree of serial 3, then that of serial 5 *)
Example C19_applies : c_force_moves demo_config = false /\ retried_revisions demo_config (env3 1) (tree3 1) /\
  (forall n, offers demo_config (env3 1) (tree3 1) n -> revision_of n <> rev3).
Proof.
  split; [reflexivity|]. split; [apply new_retried, C18_applies|]. intros n ->%env3_offers; [discriminate|lia].
Qed.
(** a stamped object *)
Example C25_applies : exists b t, tree3 1 !! (rev_dir demo_config rev3 ++ ["ca"; "3.roa"]) = Some (File b (Some t)) /\
  Some t = stamp safe_ext "3.roa" b.
Proof. exists "object 3", 7%Z. split; [vmd|reflexivity]. Qed.

(** a run so late that serial 3 has expired *)
Definition expiry_check (c : config) (e : env) (f : fs) (r0 r : revision) : bool :=
  let w := run c e f in
  match f !! rsync_state_path c with Some (Link _) => false | _ => true end &&
  match w.1 with Ok _ => true | _ => false end &&
  at_b f (rev_dir c r0) (Some Dir) && at_b (w_fs w.2) (rev_dir c r0) None &&
  at_b f (rev_dir c r) (Some Dir) && at_b (w_fs w.2) (rev_dir c r) (Some Dir).
Lemma expiry_ok c e f r0 r : expiry_check c e f r0 r = true ->
  plain_record c f /\ f !! rev_dir c r0 = Some Dir /\ f !! rev_dir c r = Some Dir /\
  exists w, run c e f = (Ok tt, w) /\ w_fs w !! rev_dir c r0 = None /\ w_fs w !! rev_dir c r = Some Dir.
Proof.
  unfold expiry_check. intros [[[[[H1 H2]%andb_true_iff H3]%andb_true_iff H4]%andb_true_iff H5]%andb_true_iff H6]%andb_true_iff.
  apply at_ok in H3, H4, H5, H6. split; [intros t E; by rewrite E in H1|]. split; [done|]. split; [done|].
  destruct (run c e f) as [[[]| |] w]; [|done|done]. by exists w.
Qed.
Lemma expiry3 : expiry_check demo_config late (tree3 2) rev3 rev5 = true.
Proof. vme. Qed.
Example C21_applies : setting demo_config base name late (tree3 2) /\ plain_record demo_config (tree3 2) /\
  tree3 2 !! rev_dir demo_config rev3 = Some Dir /\ tree3 2 !! rev_dir demo_config rev5 = Some Dir /\
  exists w, run demo_config late (tree3 2) = (Ok tt, w) /\
    w_fs w !! rev_dir demo_config rev3 = None /\ w_fs w !! rev_dir demo_config rev5 = Some Dir.
Proof.
  destruct (expiry_ok _ _ _ _ _ expiry3) as (H1 & H2 & H3 & H4).
  exact (conj late_setting (conj H1 (conj H2 (conj H3 H4)))).
Qed.

(** directory moves *)
Lemma moves_good t f : good_world moves_config base name (run_env (docs3 t) (1000 * Z.of_nat t)) f \/ 2 < t.
Proof.
  destruct (decide (t <= 2)); [left|right; lia]. split; [|apply safe_clean]. intros n Hn.
  change (offers demo_config (env3 t) f n) in Hn. apply env3_offers in Hn as ->; [apply src3_good|done].
Qed.
Lemma moves_setting : setting moves_config base name (run_env A5 1000) moved1.
Proof.
  split.
  - destruct demo_cfg_ok. by split.
  - eapply (mi_run _ _ _ _ _ moves_config (run_env A3 0)); [by apply mi_start; [apply start_wf|]|done| |done|apply after_instant].
    by destruct (moves_good 0 start_tree) as [?|?]; [|lia].
  - destruct (moves_good 1 moved1) as [?|?]; [done|lia].
Qed.
Global Instance old_revision_eq_dec : EqDecision old_revision.
Proof. solve_decision. Defined.
Global Instance rsync_state_eq_dec : EqDecision rsync_state.
Proof. solve_decision. Defined.
Definition moves_check (c : config) (e : env) (f : fs) (r0 r : revision) : bool :=
  fresh_check c f r && at_b f (current_path c) (Some Dir) && 
  match f !! rsync_state_path c with
  | Some (File b _) => bool_decide (rsync_state_parse b = Some (mkRs (Some r0) []))
  | _ => false
  end && match (run c e f).1 with Ok _ => true | _ => false end.
Lemma moves_ok c e f r0 r : moves_check c e f r0 r = true ->
  plain_record c f /\ unseen c f r /\ (forall p, under (rev_dir c r) p -> f !! p = None) /\
  f !! current_path c = Some Dir /\ recorded_rsync c f (mkRs (Some r0) []) /\ exists w, run c e f = (Ok tt, w).
Proof.
  unfold moves_check. intros [[[H1 H2]%andb_true_iff H3]%andb_true_iff H4]%andb_true_iff.
  apply fresh_ok in H1 as (K1 & K2 & K3). apply at_ok in H2. split; [done|]. split; [done|]. split; [done|]. split; [done|].
  split.
  - destruct (f !! rsync_state_path c) as [[b m| |]|] eqn:E; try done. apply bool_decide_eq_true in H3. right. by exists b, m.
  - destruct (run c e f) as [[[]| |] w]; [|done|done]. by exists w.
Qed.
Lemma moves5 : moves_check moves_config (run_env A5 1000) moved1 rev3 rev5 = true.
Proof. vme. Qed.
Example C21_moved_applies : setting moves_config base name (run_env A5 1000) moved1 /\
  new_revisions moves_config (run_env A5 1000) moved1 /\
  recorded_rsync moves_config moved1 (mkRs (Some rev3) []) /\ moved1 !! current_path moves_config = Some Dir /\
  exists w, run moves_config (run_env A5 1000) moved1 = (Ok tt, w).
Proof.
  destruct (moves_ok _ _ _ _ _ moves5) as (H1 & H2 & H3 & H4 & H5 & H6). split; [apply moves_setting|]. split.
  { split; [exact H1|]. intros n Hn. change (offers demo_config (env3 1) moved1 n) in Hn.
    apply env3_offers in Hn as ->; [|lia]. exact (conj H2 H3). }
  exact (conj H5 (conj H4 H6)).
Qed.

Print Assumptions C18_rsync_tree.
Print Assumptions C18_after_retry.
Print Assumptions C19_instants.
Print Assumptions C19_switch.
Print Assumptions C21_old_trees.
Print Assumptions C21_moved_aside.
Print Assumptions C25_times.
Print Assumptions C25_stamped.
Print Assumptions C25_servers_agree.
