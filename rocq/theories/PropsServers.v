(** * C68: rsync servers with the same revision serve the same tree *)
From Coq Require Import ZifyN ZifyNat ZifyBool.
From Verif Require Import Way PropsLiveTal HistoryProofs RunView RunFate PropsRecover.
From Verif Require Import DemoRun DemoTree Refuted.
From Verif Require Import Live FsWf.

(** ** Specification *)
(** The history of an rsync server: that of a mirror (see C66) which has no
    directories of revisions at first; runs may complete, fail, or be killed at
    any instant, and others leave alone what krill-sync owns. *)
Inductive rsync_server (P : notification -> Prop) (c : config) (base name : string) (x : ext) : fs -> Prop :=
| rv_start f : tended P c base name x f -> (forall r p, under (rev_dir c r) p -> f !! p = None) -> rsync_server P c base name x f
| rv_run f c' e g : rsync_server P c base name x f ->
    same_places c c' -> c_include_host c' = c_include_host c -> c_force_moves c' = false ->
    e_ext e = x -> no_bad_304 e -> (forall n, offers c' e f n -> P n) ->
    g ∈ instants c' e f -> rsync_server P c base name x g
| rv_else f g : rsync_server P c base name x f -> wf g -> (forall p, owned c p -> g !! p = f !! p) ->
    (forall d, dirs (file_place P c base name x) (dir_place c) d -> d <> [] -> dir_or_none g d) -> rsync_server P c base name x g.

(** the source does not change the objects of a revision *)
Definition one_snapshot (P : notification -> Prop) (x : ext) : Prop :=
  forall n n' b b', P n -> P n' -> revision_of n = revision_of n' ->
    x_hash x b = n_snap_hash n -> x_hash x b' = n_snap_hash n' -> x_snapshot x b = x_snapshot x b'.

(** what the tree of a snapshot has at [q]: the object, with the time it states,
    a directory above an object, or nothing *)
Inductive snapshot_node (c : config) (x : ext) (els : list (rsync_uri * option string)) (q : path) : option node -> Prop :=
| nd_object b : carries c els q b -> snapshot_node c x els q (Some (File b (stamp x (List.last q "") b)))
| nd_dir u o : (u, o) ∈ els -> below q (object_rel c u) -> snapshot_node c x els q (Some Dir)
| nd_root : q = [] -> snapshot_node c x els q (Some Dir)
| nd_none : q <> [] -> (forall u o, (u, o) ∈ els -> ~ q `prefix_of` object_rel c u) -> snapshot_node c x els q None.

(** ** Proofs *)
Section server.
  Context (P : notification -> Prop) (c : config) (base name : string) (x : ext).
  Context (Hc : cfg_ok c base name) (Hfit : fitting P c base name x).
  Notation T := (file_place P c base name x).
  Notation D := (dir_place c).

  Lemma server_inv f : rsync_server P c base name x f -> tinv P c base name x (fun _ => False) f.
  Proof using Hc Hfit.
    induction 1 as [f H1 H2|f c' e g Hf IH H1 H2 H3 H4 H5 H6 H7|f g Hf IH H1 H2 H3].
    - destruct (tended_inv P c base name x Hc Hfit f H1) as [I1 I2 (I3 & [I5 _] & I6) I4]. split; [done|done| |done].
      split; [done|]. split; [|done]. split; [done|]. intros r p nd Hp E. rewrite rev_dir_eq in Hp. by rewrite (H2 r p Hp) in E.
    - by eapply tinv_run.
    - by eapply tinv_else.
  Qed.

  Lemma shape_obj q : shape P c base name x AYy q ->
    exists n u, P n /\ object_of x n u /\ q = dir_name (revision_of n) :: object_rel c u.
  Proof using.
    intros H. inversion H as [a' rel' Ha' Hl'|a' s' Ha' Hs'|a' Ha'|n' u' Hn' Ho']; subst; [by destruct Ha'..|]. by exists n', u'.
  Qed.
  (** the places in the directory of a revision *)
  Lemma rev_file r q : T (rev_dir c r ++ q) -> exists n u, P n /\ revision_of n = r /\ object_of x n u /\ q = object_rel c u.
  Proof using Hc Hfit.
    intros Ht. destruct (place_shape P c base name x Hfit _ Ht) as (a & q' & E & Hq').
    assert (AYy = a) as <-.
    { eapply (same_area c base name Hc AYy a q' (rev_dir c r ++ q)); [|by rewrite E]. unfold rev_dir. cbn [root]. rewrite <- app_assoc. apply under_app. }
    unfold rev_dir in E. cbn [root] in E. rewrite <- app_assoc in E. apply app_inv_head in E. cbn in E.
    destruct (shape_obj q' Hq') as (n' & u' & Hn' & Ho' & ->).
    pose proof (f_equal (fun l => List.hd "" l) E) as E1. pose proof (f_equal (@List.tl string) E) as E2. cbn [List.hd List.tl] in E1, E2.
    apply dir_name_inj in E1. by exists n', u'.
  Qed.
  Lemma rev_sub r q : q <> [] -> dirs T D (rev_dir c r ++ q) ->
    exists n u, P n /\ revision_of n = r /\ object_of x n u /\ below q (object_rel c u).
  Proof using Hc Hfit.
    intros Hne [(t & Ht & [[k ->] Hb])|(r' & Hr)].
    - rewrite <- app_assoc in Ht. apply rev_file in Ht as (n & u & H1 & H2 & H3 & E). exists n, u.
      split; [done|]. split; [done|]. split; [done|]. rewrite <- E. split; [by eexists|]. intros Ex. apply Hb.
      rewrite <- app_assoc. by rewrite <- Ex.
    - exfalso. unfold rev_dir in Hr. rewrite <- app_assoc in Hr. apply prefix_app_inv, prefix_cons_inv_2, prefix_nil_inv in Hr. done.
  Qed.
End server.

Lemma last_instant c e f r w : run c e f = (r, w) -> w_fs w ∈ instants c e f.
Proof. intros Hrun. pose proof (after_instant c e f) as Ha. unfold after in Ha. by rewrite Hrun in Ha. Qed.

(** what a completed run makes of the directory of the new revision, if it does
    not remove it again *)
Lemma published_dirs c base name e f w :
  sane c base name e f -> rsync_enabled c = true -> use_symlinks c = true -> run c e f = (Ok tt, w) ->
  w_fs w = f \/
  exists n rel b els, source_of c base name e f n rel b els /\
    w_fs w !! current_path c = Some (Link (dir_name (revision_of n))) /\
    (w_fs w !! rev_dir c (revision_of n) = Some Dir -> forall q,
       (exists b' m, carries c els q b' /\ w_fs w !! (rev_dir c (revision_of n) ++ q) = Some (File b' m) /\
          (m = stamp (e_ext e) (List.last q "") b' \/ (m = None /\ exists k, e_fault e k OSetMtime <> None))) \/
       forall u o, (u, o) ∈ els -> object_rel c u <> q).
Proof.
  intros Hs Hr Hsym E. pose proof (sn_cfg _ _ _ _ _ Hs) as Hc. destruct (rsync_completed c base name e f Hs w E Hr)
    as [?|(st & n0 & n & sg & f1 & v & st' & f2 & cb & st2 & f3 & snap & rs & g1 & b & els & g2 & g3 & rs1 & cy & g4 & f4 & n' & f5 & Hsv & Hsa & Hd & Hw & Hf)]; [by left|right].
  pose proof (as_notify _ _ _ _ _ _ _ _ _ _ _ _ _ _ _ _ _ _ _ Hsv) as Hn.
  pose proof (an_rsync _ _ _ _ _ _ _ _ _ _ _ _ _ _ _ _ _ Hn) as Ha.
  pose proof (rd_pub _ _ _ _ _ _ _ _ _ _ _ _ _ _ _ Hd) as Hp.
  destruct (published_source c base name e f Hs _ _ _ _ _ _ _ _ _ _ _ _ _ _ _ _ _ Ha Hp) as (Hsf & Hrv & Hrd).
  destruct Hd as [D1 D2 D3 D4 D5 D6 D7 D8].
  unfold turned in D2. rewrite Hsym in D2. destruct D2 as [_ D2].
  exists n0, (ss_rel snap), b, els. split; [done|]. rewrite <- Hrv, <- rev_dir_eq. split.
  - rewrite <- (current_eq c). rewrite Hw by (left; apply current_under).
    rewrite (saving_dir c base name e f Hs _ _ _ _ D7) by apply current_under.
    destruct (D5 (rsync_current c)) as [->|[_ Hl]]; [rewrite D2; by rewrite lookup_insert|].
    exfalso. eapply rev_paths_not_current; [done|apply under_refl].
  - assert (Hu : forall q, under (c_rsync_dir c) (rev_path c (rev_of snap) ++ q)) by (intros; eapply under_trans; [apply rev_under|apply under_app]).
    assert (Hfin : forall q, w_fs w !! (rev_path c (rev_of snap) ++ q) = g4 !! (rev_path c (rev_of snap) ++ q)).
    { intros q. rewrite Hw by (left; apply Hu). by rewrite (saving_dir c base name e f Hs _ _ _ _ D7) by apply Hu. }
    intros Hdir q.
    destruct (rp_tree _ _ _ _ _ _ _ _ _ _ Hp (rev_path c (rev_of snap) ++ q)) as [b' m H1 H2 H3|H1 H2|u o H1 H2 H3 H4 H5].
    + left. apply (carries_last c (rev_path c (rev_of snap)) els (sf_clean _ _ _ _ _ _ _ _ _ Hsf)) in H1.
      pose proof (carries_ne c els q b' H1) as Hne. exists b', m. split; [done|].
      unfold time_of in H3. rewrite object_stamp in H3 by done. split; [|done]. rewrite Hfin.
      destruct (D5 (rev_path c (rev_of snap) ++ q)) as [->|[_ (o & [Ho1 Ho2] & Ho3)]].
      * rewrite D2, lookup_insert_ne, lookup_delete_ne; [done| |].
        -- intros Ex. rewrite link_tmp_eq, rev_path_eq, <- app_assoc in Ex. apply app_inv_head in Ex. by destruct q.
        -- intros Ex. rewrite rsync_current_eq, rev_path_eq, <- app_assoc in Ex. apply app_inv_head in Ex. by destruct q.
      * exfalso. assert (Er : or_rev o = rev_of snap).
        { destruct (decide (or_rev o = rev_of snap)) as [|Hn']; [done|]. exfalso.
          apply (apart_disjoint _ _ _ (revs_apart c _ _ Hn') Ho3). apply under_app. }
        pose proof (D6 o (conj Ho1 Ho2)) as Hx. rewrite Er in Hx. unfold fs_exists, fs_stat in Hx.
        rewrite fs_get_nonroot in Hx by (rewrite rev_path_eq; by destruct (c_rsync_dir c)).
        pose proof (Hfin []) as H0. rewrite !app_nil_r in H0. rewrite <- H0, Hdir in Hx. done.
    + right. intros u o Hin Eq. apply (H1 u o Hin). rewrite object_path_rel by (by eapply (sf_clean _ _ _ _ _ _ _ _ _ Hsf)). by rewrite Eq.
    + right. intros u' o' Hin Eq. apply (H1 u' o' Hin). rewrite object_path_rel by (by eapply (sf_clean _ _ _ _ _ _ _ _ _ Hsf)). by rewrite Eq.
Qed.

(** ** C68 *)
(** One server: a completed run that has changed something leaves the link to the
    directory of a revision.  If that directory is there (see C22), it is, in
    every detail, the tree of the snapshot of that revision: whatever runs that
    failed or were killed have left behind, nothing else is in it. *)
Theorem C68_tree P c base name e f w :
  cfg_ok c base name -> fitting P c base name (e_ext e) -> one_snapshot P (e_ext e) ->
  rsync_server P c base name (e_ext e) f -> c_force_moves c = false -> c_rsync_disable c = false ->
  no_bad_304 e -> sets_times e -> (forall n, offers c e f n -> P n) ->
  run c e f = (Ok tt, w) -> w_fs w <> f ->
  exists n b els, P n /\ x_hash (e_ext e) b = n_snap_hash n /\ x_snapshot (e_ext e) b = (els, true) /\
    w_fs w !! current_path c = Some (Link (dir_name (revision_of n))) /\
    (w_fs w !! rev_dir c (revision_of n) = Some Dir ->
     forall q, snapshot_node c (e_ext e) els q (w_fs w !! (rev_dir c (revision_of n) ++ q))).
Proof.
  intros Hc Hfit Hone Hsv Hfm0 Hrs%enabled H304 Htm HP Hrun Hch.
  pose proof (symlinks c Hfm0) as Hfm. pose proof (server_inv P c base name (e_ext e) Hc Hfit f Hsv) as Hi.
  assert (Hgw : good_world c base name e f).
  { split; [intros n Hn; by apply (fi_names _ _ _ _ _ Hfit), HP|]. apply (fi_objects _ _ _ _ _ Hfit). }
  assert (Hs : sane c base name e f) by (eapply mirror_sane; [done|apply Hi|done|done]).
  assert (Hh : honest_run c e f).
  { split; [done|]. split; [apply Hi|]. intros n0 Hn. by apply (fi_hash _ _ _ _ _ Hfit), HP. }
  assert (Hi' : tinv P c base name (e_ext e) (fun _ => False) (w_fs w)).
  { eapply tinv_run; try done. by eapply last_instant. }
  destruct (published_dirs c base name e f w Hs Hrs Hfm Hrun) as [?|(n & rel & b & els & Hsf & Hlk & Htr)]; [done|].
  assert (Hn : P n) by (apply HP, Hsf). assert (Hhash : x_hash (e_ext e) b = n_snap_hash n) by (by apply Hsf).
  assert (Hdoc : x_snapshot (e_ext e) b = (els, true)) by apply Hsf.
  exists n, b, els. split; [done|]. split; [done|]. split; [done|]. split; [done|]. intros Hdir q. specialize (Htr Hdir).
  destruct Hi' as [_ _ ((Hwf & _ & _) & [_ Hti] & _) _].
  assert (Hels : forall n' u, P n' -> revision_of n' = revision_of n -> object_of (e_ext e) n' u -> exists o, (u, o) ∈ els).
  { intros n' u Hn' Er (b' & o & Hb' & Hin). exists o. rewrite (Hone n' n b' b Hn' Hn Er Hb' Hhash), Hdoc in Hin. done. }
  assert (Hfile : forall u o, (u, o) ∈ els -> exists b' m, w_fs w !! (rev_dir c (revision_of n) ++ object_rel c u) = Some (File b' m)).
  { intros u o Hin. destruct (Htr (object_rel c u)) as [(b' & m & _ & E & _)|H]; [by exists b', m|]. by destruct (H u o Hin). }
  destruct (Htr q) as [(b' & m & H1 & H2 & H3)|Hno].
  { rewrite H2. assert (m = stamp (e_ext e) (List.last q "") b') as ->; [|by constructor].
    destruct H3 as [H3|[_ [k Hk]]]; [done|]. by destruct (Hk (Htm k)). }
  destruct (decide (q = [])) as [->|Hne]; [rewrite app_nil_r, Hdir; by apply nd_root|].
  destruct (w_fs w !! (rev_dir c (revision_of n) ++ q)) as [nd|] eqn:E.
  - specialize (Hti (revision_of n) (rev_dir c (revision_of n) ++ q) nd). rewrite rev_dir_eq in Hti. destruct (Hti (under_app _ _) E) as [[]|Hnd].
    destruct nd as [b' m| |t]; [| |done].
    + exfalso. destruct (rev_file P c base name (e_ext e) Hc Hfit _ _ Hnd) as (n' & u & H1 & H2 & H3 & ->).
      destruct (Hels n' u H1 H2 H3) as (o & Hin). by apply (Hno u o Hin).
    + destruct (rev_sub P c base name (e_ext e) Hc Hfit _ _ Hne Hnd) as (n' & u & H1 & H2 & H3 & H4).
      destruct (Hels n' u H1 H2 H3) as (o & Hin). by eapply nd_dir.
  - apply nd_none; [done|]. intros u o Hin [k Hk]. destruct (Hfile u o Hin) as (b' & m & Eb).
    destruct (decide (k = [])) as [->|Hkn]; [rewrite app_nil_r in Hk; by apply (Hno u o Hin)|].
    rewrite Hk, app_assoc in Eb. pose proof (wf_below _ _ _ (rev_dir c (revision_of n) ++ q) Hwf Eb) as Hy.
    rewrite Hy in E; [done| |].
    + split; [apply under_app|]. intros Ex. apply Hkn. apply (app_inv_head (rev_dir c (revision_of n) ++ q)). by rewrite app_nil_r.
    + intros [_ ?]%app_eq_nil. done.
Qed.

Lemma carries_host c1 c2 els q b : c_include_host c1 = c_include_host c2 -> carries c1 els q b -> carries c2 els q b.
Proof. unfold carries, object_rel. by intros ->. Qed.
Lemma snapshot_node_fun P c base name x c' n b els q nd nd' : fitting P c base name x -> P n -> x_hash x b = n_snap_hash n ->
  x_snapshot x b = (els, true) -> c_include_host c = c_include_host c' ->
  snapshot_node c x els q nd -> snapshot_node c' x els q nd' -> nd = nd'.
Proof.
  intros Hfit Hn Hb Hd Eh H1 H2.
  assert (Hrel : forall u, object_rel c' u = object_rel c u) by (intros; unfold object_rel; by rewrite Eh).
  assert (Hap : forall b' u o, carries c els q b' -> (u, o) ∈ els -> ~ below q (object_rel c u)).
  { intros b' u o (l1 & u' & l2 & El & Eq & _) Hin Hbl. rewrite <- Eq in Hbl.
    eapply (fi_objects_apart _ _ _ _ _ Hfit n n u' u); try done.
    - exists b, (Some b'). split; [done|]. rewrite Hd, El. cbn. apply elem_of_app. right. by left.
    - exists b, o. split; [done|]. by rewrite Hd. }
  assert (Hca : forall b', carries c els q b' -> exists u, (u, Some b') ∈ els /\ object_rel c u = q).
  { intros b' (l1 & u' & l2 & El & Eq & _). exists u'. split; [|done]. rewrite El. apply elem_of_app. right. by left. }
  assert (H2' : snapshot_node c x els q nd').
  { destruct H2 as [b' H|u o H H'|H|H H']; [apply nd_object; by eapply carries_host|rewrite Hrel in H'; by eapply nd_dir|by apply nd_root|].
    apply nd_none; [done|]. intros u o Hin. rewrite <- Hrel. by eapply H'. }
  clear H2. destruct H1 as [b1 H1|u1 o1 H1 H1'|H1|H1 H1'], H2' as [b2 H2|u2 o2 H2 H2'|H2|H2 H2']; try done.
  - by rewrite (carries_unique _ _ _ _ _ H1 H2).
  - by destruct (Hap _ _ _ H1 H2).
  - exfalso. by eapply carries_ne.
  - exfalso. destruct (Hca _ H1) as (u & Hin & Eq). apply (H2' u _ Hin). by rewrite Eq.
  - by destruct (Hap _ _ _ H2 H1).
  - exfalso. eapply H2'; [exact H1|]. apply H1'.
  - exfalso. by eapply carries_ne.
  - exfalso. destruct (Hca _ H2) as (u & Hin & Eq). apply (H1' u _ Hin). by rewrite Eq.
  - exfalso. eapply H1'; [exact H2|]. apply H2'.
Qed.

(** Two servers of the same source, with directories, clocks, schedules and
    histories of their own: after a completed run of each that has changed
    something, if the links have the same name, and lead to a directory on both,
    then what rsync finds below the one is what it finds below the other: the same
    directories, and the same files with the same contents and times. *)
Theorem C68_servers_agree P base name c1 e1 f1 w1 c2 e2 f2 w2 root1 root2 :
  cfg_ok c1 base name -> cfg_ok c2 base name -> c_include_host c1 = c_include_host c2 -> e_ext e1 = e_ext e2 ->
  fitting P c1 base name (e_ext e1) -> one_snapshot P (e_ext e1) ->
  rsync_server P c1 base name (e_ext e1) f1 -> c_force_moves c1 = false -> c_rsync_disable c1 = false ->
  no_bad_304 e1 -> sets_times e1 -> (forall n, offers c1 e1 f1 n -> P n) -> run c1 e1 f1 = (Ok tt, w1) -> w_fs w1 <> f1 ->
  rsync_server P c2 base name (e_ext e2) f2 -> c_force_moves c2 = false -> c_rsync_disable c2 = false ->
  no_bad_304 e2 -> sets_times e2 -> (forall n, offers c2 e2 f2 n -> P n) -> run c2 e2 f2 = (Ok tt, w2) -> w_fs w2 <> f2 ->
  w_fs w1 !! current_path c1 = w_fs w2 !! current_path c2 ->
  serves c1 (w_fs w1) root1 -> w_fs w1 !! root1 = Some Dir ->
  serves c2 (w_fs w2) root2 -> w_fs w2 !! root2 = Some Dir ->
  forall q, w_fs w1 !! (root1 ++ q) = w_fs w2 !! (root2 ++ q).
Proof.
  intros Hc1 Hc2 Eh Ex Hfit Hone S1 F1 R1 B1 T1 O1 E1 N1 S2 F2 R2 B2 T2 O2 E2 N2 El V1 D1 V2 D2 q.
  assert (Hfit2 : fitting P c2 base name (e_ext e2)).
  { rewrite <- Ex. destruct Hfit as [G1 G2 G3 G4 G5 G6]. split; try done.
    intros n n' u u' X1 X2 X3 X4 X5. unfold object_rel. rewrite <- Eh. by apply (G6 n n' u u'). }
  assert (Hone2 : one_snapshot P (e_ext e2)) by (by rewrite <- Ex).
  destruct (C68_tree P c1 base name e1 f1 w1) as (n1 & b1 & els1 & P1 & H1 & X1 & L1 & Q1); try done.
  destruct (C68_tree P c2 base name e2 f2 w2) as (n2 & b2 & els2 & P2 & H2 & X2 & L2 & Q2); try done.
  unfold serves in V1, V2. rewrite F1 in V1. rewrite F2 in V2. destruct V1 as (d1 & V1 & ->). destruct V2 as (d2 & V2 & ->).
  assert (Hlk : forall s t, Some (Link s) = Some (Link t) -> s = t) by (intros s t Eq; by injection Eq).
  rewrite L1 in V1. apply Hlk in V1. rewrite <- V1 in *. clear d1 V1. rewrite L2 in V2. apply Hlk in V2. rewrite <- V2 in *. clear d2 V2.
  rewrite L1, L2 in El. apply Hlk in El. pose proof (dir_name_inj _ _ El) as Er.
  rewrite <- Ex in H2, X2, Q2.
  assert (els2 = els1) as ->.
  { pose proof (Hone n2 n1 b2 b1 P2 P1 (eq_sym Er) H2 H1) as Eq. rewrite X1, X2 in Eq. by injection Eq. }
  eapply snapshot_node_fun; [exact Hfit|exact P1|exact H1|exact X1|exact Eh|by apply Q1|by apply Q2].
Qed.

(** *** A case: one server is killed while it writes the objects of version 5, and
    runs again; the other one starts with version 5, at another time *)
Lemma rec_one_snapshot : one_snapshot rec_source live_ext.
Proof.
  intros n n' b b' Hn Hn' E Hb Hb'.
  assert (n' = n) as -> by (destruct Hn as [-> | ->], Hn' as [-> | ->]; try done; by apply (f_equal rv_serial) in E).
  rewrite <- Hb' in Hb. cbn [x_hash live_ext] in Hb. apply sapp_inv_head in Hb as ->. done.
Qed.
Definition rev5_path : path := rev_dir demo_config (revision_of live_n).
Definition half_written (g : fs) : bool :=
  match g !! (rev5_path ++ ["ca"; "5.roa"]) with Some (File "" _) => true | _ => false end.
Definition torn_server : fs := killed_when demo_config live_env rec_tree half_written.
Definition other_env : env := fixed_env live_docs 7000.
Definition server_check (c : config) (f : fs) (r : res unit) (g : fs) (q : path) : bool :=
  match r with Ok _ => true | _ => false end && negb (bool_decide (g !! notif_path c DemoRun.name = f !! notif_path c DemoRun.name)) &&
  bool_decide (g !! current_path c = Some (Link (dir_name (revision_of live_n)))) &&
  bool_decide (g !! rev_dir c (revision_of live_n) = Some Dir) &&
  match g !! (rev_dir c (revision_of live_n) ++ q) with Some (File (String _ _) _) => true | _ => false end.
Definition run_check (c : config) (e : env) (f : fs) (q : path) : bool :=
  let r := run c e f in server_check c f r.1 (w_fs r.2) q.
Lemma torn_checks : half_written torn_server && run_check demo_config live_env torn_server ["ca"; "5.roa"] = true.
Proof. vme. Qed.
Lemma other_check : run_check demo_config other_env start_tree ["ca"; "5.roa"] = true.
Proof. vme. Qed.
Lemma start_no_rev r p : under (rev_dir demo_config r) p -> start_tree !! p = None.
Proof.
  assert (H : forallb (fun kv => negb (bool_decide (c_rsync_dir demo_config `prefix_of` kv.1)) || bool_decide (length kv.1 <= length (c_rsync_dir demo_config)))
    (map_to_list start_tree) = true) by vme.
  intros [k ->]. destruct (start_tree !! (rev_dir demo_config r ++ k)) as [nd|] eqn:E; [|done]. exfalso. rewrite forallb_forall in H.
  apply elem_of_map_to_list, elem_of_list_In, H in E. cbn [fst] in E. unfold rev_dir in E. rewrite <- app_assoc in E.
  apply orb_true_iff in E as [E|E].
  - apply negb_true_iff, bool_decide_eq_false in E. apply E. by eexists.
  - apply bool_decide_eq_true in E. rewrite app_length in E. cbn in E. lia.
Qed.
Lemma start_server : rsync_server rec_source demo_config base DemoRun.name live_ext start_tree.
Proof. apply rv_start; [apply start_tended|apply start_no_rev]. Qed.
Lemma torn_server_ok : rsync_server rec_source demo_config base DemoRun.name live_ext torn_server.
Proof.
  eapply (rv_run _ _ _ _ _ rec_tree demo_config live_env); [|done|done|done|done|apply (fixed_no_304 live_docs 1000)|apply rec_offers_5|apply killed_instant].
  eapply (rv_run _ _ _ _ _ start_tree demo_config rec_env); [apply start_server|done|done|done|done|apply fixed_no_304|apply rec_offers_4|apply after_instant].
Qed.
Lemma torn_instant : torn_server ∈ instants demo_config live_env rec_tree.
Proof. apply killed_instant. Qed.
Lemma other_offers f n : offers demo_config other_env f n -> rec_source n.
Proof.
  apply (rec_offers live_docs 7000). intros b n' H1 H2. right. destruct live_parsed as [E1 E2]. rewrite E2 in H1. injection H1 as <-.
  rewrite E1 in H2. by injection H2 as <-.
Qed.
Lemma run_check_ok c e f q : run_check c e f q = true -> exists w, run c e f = (Ok tt, w) /\ w_fs w <> f /\
  w_fs w !! current_path c = Some (Link (dir_name (revision_of live_n))) /\ w_fs w !! rev_dir c (revision_of live_n) = Some Dir /\
  exists b m, b <> "" /\ w_fs w !! (rev_dir c (revision_of live_n) ++ q) = Some (File b m).
Proof.
  unfold run_check, server_check. cbv zeta. intros H. apply andb_true_iff in H as [[[[H1 H2]%andb_true_iff H3]%andb_true_iff H4]%andb_true_iff H5].
  apply bool_decide_eq_true in H3, H4. apply negb_true_iff, bool_decide_eq_false in H2.
  destruct (run c e f) as [[[]|x|] w]; try done. exists w. cbn [fst snd] in *. split; [done|]. split; [intros E; apply H2; by rewrite E|].
  split; [done|]. split; [done|]. destruct (w_fs w !! (rev_dir c (revision_of live_n) ++ q)) as [[[|a s] m| |]|]; try done. by exists (String a s), m.
Qed.
Lemma half_written_ok g : half_written g = true -> exists m, g !! (rev_dir demo_config (revision_of live_n) ++ ["ca"; "5.roa"]) = Some (File "" m).
Proof. unfold half_written, rev5_path. destruct (g !! _) as [[[|a s] m| |]|]; try done. by exists m. Qed.
Opaque torn_server start_tree.
Example C68_applies : exists w1 w2, let c := demo_config in let root := rev_dir c (revision_of live_n) in
  rsync_server rec_source c base DemoRun.name live_ext torn_server /\ rsync_server rec_source c base DemoRun.name live_ext start_tree /\
  torn_server ∈ instants c live_env rec_tree /\ (exists m, torn_server !! (root ++ ["ca"; "5.roa"]) = Some (File "" m)) /\
  run c live_env torn_server = (Ok tt, w1) /\ run c other_env start_tree = (Ok tt, w2) /\
  (forall q, w_fs w1 !! (root ++ q) = w_fs w2 !! (root ++ q)) /\
  exists b m, b <> "" /\ w_fs w1 !! (root ++ ["ca"; "5.roa"]) = Some (File b m).
Proof.
  pose proof torn_checks as H. apply andb_true_iff in H as [Hh H]. apply run_check_ok in H as (w1 & R1 & N1 & L1 & D1 & F1).
  pose proof other_check as H'. apply run_check_ok in H' as (w2 & R2 & N2 & L2 & D2 & F2).
  exists w1, w2. cbv zeta. split; [exact torn_server_ok|]. split; [exact start_server|]. split; [exact torn_instant|]. split.
  { exact (half_written_ok torn_server Hh). }
  split; [exact R1|]. split; [exact R2|]. split; [|exact F1].
  refine (C68_servers_agree rec_source base DemoRun.name demo_config live_env torn_server w1 demo_config other_env start_tree w2
    (rev_dir demo_config (revision_of live_n)) (rev_dir demo_config (revision_of live_n))
    demo_cfg_ok demo_cfg_ok eq_refl eq_refl rec_fitting rec_one_snapshot torn_server_ok eq_refl eq_refl
    (fixed_no_304 live_docs 1000) (fun _ => eq_refl) (rec_offers_5 _) R1 N1 start_server eq_refl eq_refl
    (fixed_no_304 live_docs 7000) (fun _ => eq_refl) (other_offers _) R2 N2 _ _ D1 _ D2).
  - exact (eq_trans L1 (eq_sym L2)).
  - exact (ex_intro _ _ (conj L1 eq_refl)).
  - exact (ex_intro _ _ (conj L2 eq_refl)).
Qed.

Print Assumptions C68_tree.
Print Assumptions C68_servers_agree.
Print Assumptions C68_applies.
