(** * What holds of the rsync properties that the code violates *)
From Coq Require Import ZifyN ZifyNat ZifyBool.
From Verif Require Import RsyncRun PropsClean PropsRsync DemoRun Refuted.
From Verif Require Import CleanProofs FsWf.

(** ** C22 *)
(** A completed run, with symbolic links: 'current' points to the directory of
    the new revision.  It is removed in the same run if, and only if, that very
    revision is recorded as old, and the record expires in this run; otherwise
    all objects of the snapshot are in it. *)
Theorem C22_link c base name e f w :
  setting c base name e f -> c_rsync_disable c = false -> c_force_moves c = false -> plain_record c f ->
  run c e f = (Ok tt, w) ->
  w_fs w = f \/
  exists n rel b els rs olds cb, snapshot_doc c base name e f n rel b els /\
    recorded_rsync c f rs /\ retired e rs olds /\ clean_time c e cb /\
    w_fs w !! current_path c = Some (Link (dir_name (revision_of n))) /\
    let again := exists o, o ∈ olds /\ or_rev o = revision_of n /\ (or_since o <= cb)%Z in
    (again -> forall q b' m, w_fs w !! (rev_dir c (revision_of n) ++ q) <> Some (File b' m)) /\
    (~ again -> forall q b', carries c els q b' -> exists m, w_fs w !! (rev_dir c (revision_of n) ++ q) = Some (File b' m)).
Proof.
  intros Hs%setting_sane Hr%enabled Hsym%symlinks Hpl E. pose proof (sn_cfg _ _ _ _ _ Hs) as Hc. destruct (rsync_completed c base name e f Hs w E Hr)
    as [?|(st & n0 & n & sg & f1 & v & st' & f2 & cb & st2 & f3 & snap & rs & g1 & b & els & g2 & g3 & rs1 & cy & g4 & f4 & n' & f5 & Hsv & Hsa & Hd & Hw & Hf)]; [by left|right].
  pose proof (as_notify _ _ _ _ _ _ _ _ _ _ _ _ _ _ _ _ _ _ _ Hsv) as Hn.
  pose proof (an_rsync _ _ _ _ _ _ _ _ _ _ _ _ _ _ _ _ _ Hn) as Ha.
  pose proof (rd_pub _ _ _ _ _ _ _ _ _ _ _ _ _ _ _ Hd) as Hp.
  destruct (published_source c base name e f Hs _ _ _ _ _ _ _ _ _ _ _ _ _ _ _ _ _ Ha Hp) as (Hsf & Hrv & Hrd).
  destruct Hd as [D1 D2 D3 D4 D5 D6 D7 D8].
  pose proof (run_recorded c base name e f Hs _ _ _ _ _ _ _ _ _ _ _ _ Ha Hpl (rp_start _ _ _ _ _ _ _ _ _ _ D1)) as Hrec.
  unfold turned in D2. rewrite Hsym in D2. destruct D2 as [_ D2].
  exists n0, (ss_rel snap), b, els, rs, (rs_old rs1), cy.
  split; [by apply source_doc|]. split; [done|]. split.
  { unfold retired, next_rsync in *. destruct (rs_current rs); [|by rewrite D3]. destruct D3 as (now & ? & ->). by exists now. }
  split; [done|]. split; [|split].
  - rewrite <- Hrv, <- (current_eq c). rewrite Hw by (left; apply current_under).
    rewrite (saving_dir c base name e f Hs _ _ _ _ D7) by apply current_under.
    destruct (D5 (rsync_current c)) as [->|[_ Hl]]; [rewrite D2; by rewrite lookup_insert|].
    exfalso. eapply rev_paths_not_current; [done|apply under_refl].
  - intros (o & Ho & Er & Ht) q b' m Hq. rewrite <- Er, <- rev_dir_eq in Hq.
    assert (Hu : forall q, under (c_rsync_dir c) (rev_path c (or_rev o) ++ q)) by (intros; eapply under_trans; [apply rev_under|apply under_app]).
    rewrite Hw in Hq by (left; apply Hu). rewrite (saving_dir c base name e f Hs _ _ _ _ D7) in Hq by apply Hu.
    pose proof (D6 o (conj Ho Ht)) as Hx. unfold fs_exists, fs_stat in Hx.
    rewrite fs_get_nonroot in Hx by (rewrite rev_path_eq; by destruct (c_rsync_dir c)).
    destruct (decide (q = [])) as [->|Hne]; [rewrite app_nil_r in Hq; by rewrite Hq in Hx|].
    assert (Hq4 : f4 !! (rev_path c (or_rev o) ++ q) = Some (File b' m)) by (by rewrite (saving_dir c base name e f Hs _ _ _ _ D7) by apply Hu).
    pose proof (wf_below _ _ _ (rev_path c (or_rev o)) (proj1 (an_tree _ _ _ _ _ _ _ _ _ _ _ _ _ _ _ _ _ Hn)) Hq4) as Hy.
    rewrite (saving_dir c base name e f Hs _ _ _ _ D7) in Hy by apply rev_under.
    rewrite Hy in Hx; [done| |rewrite rev_path_eq; by destruct (c_rsync_dir c)].
    split; [apply under_app|]. intros Ex. apply Hne. apply (app_inv_head (rev_path c (or_rev o))). by rewrite app_nil_r.
  - intros Hno q b' Hb'. rewrite <- Hrv, <- rev_dir_eq.
    assert (Hu : forall q, under (c_rsync_dir c) (rev_path c (rev_of snap) ++ q)) by (intros; eapply under_trans; [apply rev_under|apply under_app]).
    rewrite Hw by (left; apply Hu). rewrite (saving_dir c base name e f Hs _ _ _ _ D7) by apply Hu.
    destruct (D5 (rev_path c (rev_of snap) ++ q)) as [->|[_ (o & [Ho1 Ho2] & Ho3)]].
    + rewrite D2. rewrite lookup_insert_ne, lookup_delete_ne.
      * pose proof (published_at c base name e f Hs _ _ _ _ _ _ _ _ _ _ _ _ _ _ _ _ _ q Ha Hp) as Hat.
        destruct Hat as [b2 m2 K1 K2 K3|K1 K2|K1 K2 K3]; [|by destruct (K1 b')|by destruct (K1 b')].
        exists m2. rewrite K2. do 2 f_equal. by eapply carries_unique.
      * intros Ex. apply carries_ne in Hb'. rewrite link_tmp_eq, rev_path_eq, <- app_assoc in Ex. apply app_inv_head in Ex. by destruct q.
      * intros Ex. apply carries_ne in Hb'. rewrite rsync_current_eq, rev_path_eq, <- app_assoc in Ex. apply app_inv_head in Ex. by destruct q.
    + exfalso. apply Hno. exists o. split; [done|]. split; [|done]. rewrite <- Hrv.
      destruct (decide (or_rev o = rev_of snap)) as [|Hne]; [done|]. exfalso.
      apply (apart_disjoint _ _ _ (revs_apart c _ _ Hne) Ho3). apply under_app.
Qed.

(** ** C20 *)
Lemma op_rename_gone p q f g k : op_rename p q f = Some ([], g) -> f !! p = Some Dir -> p <> q -> p <> [] ->
  under p k -> ~ under q k -> g !! k = None.
Proof.
  intros E Hd Hpq Hp Hk Hq. unfold op_rename in E. destruct p as [|p0 p']; [done|].
  rewrite fs_get_nonroot in E by done. rewrite Hd in E. destruct (_ && _); [|done].
  assert (Em : g = move_tree (p0 :: p') q f).
  { destruct (fs_get f q) as [[| |]|]; try done; [|by injection E as <-].
    destruct (decide _); [done|]. destruct (has_children f q); [done|by injection E as <-]. }
  rewrite Em, move_tree_other by done. by rewrite decide_True.
Qed.
Lemma op_rename_full p q f g : op_rename p q f = Some ([], g) -> f !! p = Some Dir -> f !! q = Some Dir -> p <> q -> p <> [] -> q <> [] ->
  ~ inhabited f q.
Proof.
  intros E Hd Hq Hpq Hp Hqn Hi. unfold op_rename in E. destruct p as [|p0 p']; [done|].
  rewrite !fs_get_nonroot in E by done. rewrite Hd, Hq in E. destruct (_ && _); [|done].
  destruct (decide _); [done|]. apply inhabited_spec in Hi. by rewrite Hi in E.
Qed.
Lemma rev_path_ne c r : rev_path c r <> [].
Proof. rewrite rev_path_eq. by destruct (c_rsync_dir c). Qed.
Lemma rsync_current_ne c : rsync_current c <> [].
Proof. rewrite rsync_current_eq. by destruct (c_rsync_dir c). Qed.

(** With directory moves, clients of 'current' see at every instant: the tree as
    it was; or nothing, with that tree kept in the directory of its revision; or
    all objects of the new snapshot. *)
Theorem C20_instants c base name e f g :
  setting c base name e f -> c_rsync_disable c = false -> c_force_moves c = true -> retried_revisions c e f ->
  f !! current_path c = None \/ f !! current_path c = Some Dir ->
  g ∈ instants c e f ->
  (forall q, g !! (current_path c ++ q) = f !! (current_path c ++ q)) \/
  (exists rs cur, recorded_rsync c f rs /\ rs_current rs = Some cur /\
     forall q, g !! (current_path c ++ q) = None /\ g !! (rev_dir c cur ++ q) = f !! (current_path c ++ q)) \/
  (exists n rel b els, snapshot_doc c base name e f n rel b els /\
     (forall q b', carries c els q b' -> exists m, g !! (current_path c ++ q) = Some (File b' m)) /\
     (forall q b' m, g !! (current_path c ++ q) = Some (File b' m) ->
        carries c els q b' \/ f !! (rev_dir c (revision_of n) ++ q) = Some (File b' m))).
Proof.
  intros Hs%setting_sane Hen%enabled Hfm [Hpl Hof] Hcd Hg.
  assert (Hown : forall p, under (c_rsync_dir c) p -> rsync_own c p) by (intros p Hp; by left).
  assert (Hcu : forall q, under (c_rsync_dir c) (current_path c ++ q)).
  { intros q. eapply under_trans; [|apply under_app]. apply under_app. }
  destruct (rsync_instant c base name e f Hs g Hg)
    as [H|(st & n0 & n & sg & f1 & v & st' & f2 & cb & st2 & f3 & g' & Ha & Hr & Hm & Hgg)].
  { left. intros q. apply H, Hown, Hcu. }
  assert (Hf3 : forall p, under (c_rsync_dir c) p -> f3 !! p = f !! p).
  { intros p Hp. by apply (own_before c base name e f Hs p) with (2 := Ha), Hown. }
  assert (Hcr : forall r q, apart (current_path c ++ q) (rev_path c r)).
  { intros r q. rewrite <- current_eq. eapply apart_sub_l; [|apply under_app]. apply apart_sym, rev_current_apart. }
  assert (Hin : forall r x y q, inside (under (rev_path c r)) x y -> y !! (current_path c ++ q) = x !! (current_path c ++ q)).
  { intros r x y q Hi. destruct (apart_out _ _ (Hcr r q)) as [K1 K2]. apply (inside_same _ _ _ _ Hi); [done|].
    intros (k & Hk & Hb). by apply (K2 k). }
  (* the objects are in place *)
  assert (Hpub : forall snap rs g1 b els g2, rsync_pub c e st2 f3 snap rs g1 b els g2 ->
    rev_of snap = revision_of n0 /\ g2 !! rev_path c (rev_of snap) = Some Dir /\ rs_current rs <> Some (rev_of snap) /\
    (forall o, o ∈ rs_old rs -> or_rev o <> rev_of snap) /\ recorded_rsync c f rs /\ source_of c base name e f n0 (ss_rel snap) b els).
  { intros snap rs g1 b els g2 Hp.
    destruct (published_source c base name e f Hs _ _ _ _ _ _ _ _ _ _ _ _ _ _ _ _ _ Ha Hp) as (Hsf & Hrv & _).
    pose proof (run_recorded c base name e f Hs _ _ _ _ _ _ _ _ _ _ _ _ Ha Hpl (rp_start _ _ _ _ _ _ _ _ _ _ Hp)) as Hrec.
    destruct (Hof n0 (sf_offer _ _ _ _ _ _ _ _ _ Hsf)) as [Hun Hsl]. destruct (Hun rs Hrec) as [Hc1 Hc2].
    split; [done|]. split; [by eapply (published_dir c base name e f Hs)|]. rewrite Hrv. done. }
  assert (Hnew : forall snap rs g1 b els g2 g3 (gx : fs), rsync_pub c e st2 f3 snap rs g1 b els g2 ->
    turned c (rev_of snap) rs g2 g3 -> (forall q, gx !! (current_path c ++ q) = g3 !! (current_path c ++ q)) ->
    (forall p, under (c_rsync_dir c) p -> g !! p = gx !! p) ->
    exists n rel b els, snapshot_doc c base name e f n rel b els /\
     (forall q b', carries c els q b' -> exists m, g !! (current_path c ++ q) = Some (File b' m)) /\
     (forall q b' m, g !! (current_path c ++ q) = Some (File b' m) ->
        carries c els q b' \/ f !! (rev_dir c (revision_of n) ++ q) = Some (File b' m))).
  { intros snap rs g1 b els g2 g3 gx Hp Ht Hx Hgx. destruct (Hpub _ _ _ _ _ _ Hp) as (Hrv & Hd & Hc1 & Hc2 & Hrec & Hsf).
    exists n0, (ss_rel snap), b, els. split; [by apply source_doc|].
    assert (Hq : forall q, g !! (current_path c ++ q) = g2 !! (rev_path c (rev_of snap) ++ q)).
    { intros q. rewrite Hgx by apply Hcu. rewrite Hx.
      pose proof (turned_root c (rev_of snap) rs g2 g3 q Ht Hc1 (fun _ => Hd)) as E.
      unfold new_root, use_symlinks in E. rewrite Hfm in E. cbn [negb] in E. by rewrite current_eq in E. }
    pose proof (fun q => published_at c base name e f Hs _ _ _ _ _ _ _ _ _ _ _ _ _ _ _ _ _ q Ha Hp) as Hat. split.
    - intros q b' Hb'. rewrite Hq. destruct (Hat q) as [b2 m2 K1 K2 K3|K1 K2|K1 K2 K3]; [|by destruct (K1 b')|by destruct (K1 b')].
      exists m2. rewrite K2. do 2 f_equal. by eapply carries_unique.
    - intros q b' m Hb'. rewrite Hq in Hb'. specialize (Hat q). rewrite Hb' in Hat.
      destruct Hat as [b2 m2 K1 [= -> ->] K3|K1 K2|K1 K2 K3]; [by left|by right|done]. }
  assert (Hno : forall rs1 cy q, ~ rev_paths c rs1 cy (current_path c ++ q)).
  { intros rs1 cy q Hl. rewrite <- current_eq in Hl. eapply rev_paths_not_current; [done|apply under_app]. }
  destruct Hm as [->|snap H1 H2|snap rs g1 b els g2 H1 H2|snap rs g1 b els g2 g3 rs1 cy H1 H2 H3 H4 H5|snap rs g1 b els g2 g3 rs1 cy g4 H1 H2 H3 H4 H5 H6].
  - left. intros q. rewrite Hgg by (by apply Hown). by rewrite Hf3.
  - left. intros q. rewrite Hgg by (by apply Hown). rewrite (Hin _ _ _ q H2). by rewrite Hf3.
  - pose proof (rp_in _ _ _ _ _ _ _ _ _ _ H1) as Hi.
    assert (Hg2 : forall q, g2 !! (current_path c ++ q) = f !! (current_path c ++ q)).
    { intros q. rewrite (Hin _ _ _ q Hi). by rewrite Hf3. }
    unfold turning, use_symlinks in H2. rewrite Hfm in H2. cbn [negb] in H2. destruct H2 as [->|[H2|H2]].
    + left. intros q. rewrite Hgg by (by apply Hown). done.
    + destruct (Hpub _ _ _ _ _ _ H1) as (Hrv & Hd & Hc1 & Hc2 & Hrec & Hsf).
      unfold moved_aside in H2. destruct (rs_current rs) as [cur|] eqn:Ec.
      2: { subst g'. left. intros q. rewrite Hgg by (by apply Hown). done. }
      destruct (fs_exists g2 (rsync_current c)) eqn:Ex.
      2: { subst g'. left. intros q. rewrite Hgg by (by apply Hown). done. }
      right. left. exists rs, cur. split; [done|]. split; [done|].
      assert (Hdir : g2 !! rsync_current c = Some Dir).
      { unfold fs_exists, fs_stat in Ex. rewrite fs_get_nonroot in Ex by apply rsync_current_ne.
        pose proof (Hg2 []) as E0. rewrite app_nil_r in E0. rewrite current_eq in Ex |- *. rewrite E0 in Ex |- *.
        destruct Hcd as [Hcd|Hcd]; rewrite Hcd in Ex |- *; done. }
      assert (Hne : rsync_current c <> rev_path c cur) by (apply apart_neq, apart_sym, rev_current_apart).
      intros q. split.
      * rewrite Hgg by (by apply Hown). eapply (op_rename_gone _ _ _ _ _ H2 Hdir Hne); [apply rsync_current_ne|rewrite current_eq; apply under_app|].
        destruct (apart_out _ _ (Hcr cur q)) as [K1 K2]. done.
      * rewrite Hgg by (apply Hown; eapply under_trans; [|apply under_app]; apply under_app). rewrite <- rev_dir_eq.
        rewrite (op_rename_dir _ _ _ _ q H2 Hdir Hne (rsync_current_ne c)). by rewrite current_eq.
    + right. right. eapply (Hnew snap rs g1 b els g2 g' g'); [done| |done|auto]. unfold turned, use_symlinks. by rewrite Hfm.
  - right. right. eapply (Hnew snap rs g1 b els g2 g3 g'); [done|done| |auto]. intros q.
    destruct (H5 (current_path c ++ q)) as [?|[_ Hl]]; [done|]. by apply Hno in Hl.
  - right. right. eapply (Hnew snap rs g1 b els g2 g3 g'); [done|done| |auto]. intros q.
    rewrite (saving_dir c base name e f Hs _ _ _ _ H6) by done.
    destruct (H5 (current_path c ++ q)) as [?|[_ Hl]]; [done|]. by apply Hno in Hl.
Qed.

(** the tree of the recorded current revision was moved aside, and another one
    is already there: what a kill leaves that comes after the second rename and
    before the rsync state is saved *)
Definition unsaved_turn (c : config) (f : fs) (rs : rsync_state) (cur : revision) : Prop :=
  recorded_rsync c f rs /\ rs_current rs = Some cur /\ f !! current_path c = Some Dir /\
  exists q nd, q <> [] /\ f !! (rev_dir c cur ++ q) = Some nd.
(** From such a tree, no run with directory moves brings a new version. *)
Theorem C20_stuck c base name e f w rs cur :
  setting c base name e f -> c_rsync_disable c = false -> c_force_moves c = true -> plain_record c f ->
  unsaved_turn c f rs cur -> run c e f = (Ok tt, w) -> w_fs w = f.
Proof.
  intros Hs%setting_sane Hr%enabled Hfm Hpl (Hrec & Hcur & Hdir & q & nd & Hq & End) E. pose proof (sn_cfg _ _ _ _ _ Hs) as Hc.
  destruct (rsync_completed c base name e f Hs w E Hr)
    as [?|(st & n0 & n & sg & f1 & v & st' & f2 & cb & st2 & f3 & snap & rs' & g1 & b & els & g2 & g3 & rs1 & cy & g4 & f4 & n' & f5 & Hsv & Hsa & Hd & Hw & Hf)]; [done|exfalso].
  pose proof (an_rsync _ _ _ _ _ _ _ _ _ _ _ _ _ _ _ _ _ (as_notify _ _ _ _ _ _ _ _ _ _ _ _ _ _ _ _ _ _ _ Hsv)) as Ha.
  pose proof (rd_pub _ _ _ _ _ _ _ _ _ _ _ _ _ _ _ Hd) as Hp.
  destruct (published_source c base name e f Hs _ _ _ _ _ _ _ _ _ _ _ _ _ _ _ _ _ Ha Hp) as (Hsf & Hrv & Hrd).
  pose proof (run_recorded c base name e f Hs _ _ _ _ _ _ _ _ _ _ _ _ Ha Hpl (rp_start _ _ _ _ _ _ _ _ _ _ Hp)) as Hrec'.
  assert (Hrs : rs' = rs).
  { destruct Hrec as [[R1 ->]|(b1 & m1 & R1 & R2)], Hrec' as [[R3 ->]|(b2 & m2 & R3 & R4)]; congruence. }
  subst rs'. pose proof (rp_in _ _ _ _ _ _ _ _ _ _ Hp) as Hi.
  assert (Hcr : apart (current_path c) (rev_path c (rev_of snap))) by (rewrite <- current_eq; apply apart_sym, rev_current_apart).
  assert (Hg2 : g2 !! current_path c = Some Dir).
  { destruct (apart_out _ _ Hcr) as [K1 K2]. rewrite (inside_same _ _ _ _ Hi K1); [rewrite Hf; [done|]; left; apply under_app|].
    intros (k & Hk & Hb). by apply (K2 k). }
  assert (Hch : is_Some (g2 !! (rev_path c cur ++ q))).
  { destruct (decide (cur = rev_of snap)) as [->|Hne].
    - pose proof (published_at c base name e f Hs _ _ _ _ _ _ _ _ _ _ _ _ _ _ _ _ _ q Ha Hp) as Hat.
      destruct Hat as [b2 m2 K1 K2 K3|K1 K2|K1 K2 K3]; [by rewrite K2| |by rewrite K3].
      rewrite K2, <- Hrv, End. done.
    - assert (Hap : apart (rev_path c cur ++ q) (rev_path c (rev_of snap))).
      { eapply apart_sub_l; [|apply under_app]. by apply revs_apart. }
      destruct (apart_out _ _ Hap) as [K1 K2]. rewrite (inside_same _ _ _ _ Hi K1).
      + rewrite Hf; [by rewrite rev_dir_eq, End|]. left. eapply under_trans; [apply rev_under|apply under_app].
      + intros (k & Hk & Hb). by apply (K2 k). }
  destruct Hch as [nd' Hch].
  assert (Hb : below (rev_path c cur) (rev_path c cur ++ q)).
  { split; [apply under_app|]. intros Ex. apply Hq. apply (app_inv_head (rev_path c cur)). by rewrite app_nil_r. }
  pose proof (wf_below _ _ _ _ (proj1 Hi) Hch Hb (rev_path_ne c cur)) as Hrd'.
  pose proof (rd_turn _ _ _ _ _ _ _ _ _ _ _ _ _ _ _ Hd) as D2. unfold turned, use_symlinks in D2. rewrite Hfm in D2. cbn [negb] in D2.
  destruct D2 as (fa & M1 & _). unfold moved_aside in M1. rewrite Hcur in M1. rewrite <- current_eq in Hg2.
  assert (Hex : fs_exists g2 (rsync_current c) = true).
  { unfold fs_exists, fs_stat. rewrite fs_get_nonroot by apply rsync_current_ne. by rewrite Hg2. }
  rewrite Hex in M1. eapply (op_rename_full _ _ _ _ M1 Hg2 Hrd'); [apply apart_neq, apart_sym, rev_current_apart|apply rsync_current_ne|apply rev_path_ne|].
  by exists (rev_path c cur ++ q), nd'.
Qed.

(** *** Concrete cases *)
(** the tree of [C22_refuted] before the last run *)
Lemma again_good t f : good_world demo_config base name (run_env A5 t) f.
Proof. split; [|apply safe_clean]. intros n Hn. apply (docs3_offers 1) in Hn as ->; [apply src3_good|lia]. Qed.
Lemma again_setting : setting demo_config base name (run_env A5 9000) kill2.
Proof.
  split; [apply demo_cfg_ok| |apply again_good].
  eapply (mi_run _ _ _ _ kill1 demo_config (run_env A5 1001)); [|done|apply again_good|done|apply killed_after_instant].
  eapply (mi_run _ _ _ _ run1 demo_config (run_env A5 1000)); [|done|apply again_good|done|apply killed_after_instant].
  eapply (mi_run _ _ _ _ start_tree demo_config (run_env A3 0)); [|done| |done|apply after_instant].
  - apply mi_start; [apply start_wf|reflexivity].
  - split; [|apply safe_clean]. intros n Hn. apply (docs3_offers 0) in Hn as ->; [apply src3_good|lia].
Qed.
Definition again_check (c : config) (e : env) (f : fs) (r : revision) : bool :=
  match f !! rsync_state_path c with
  | Some (File b _) => match rsync_state_parse b with
      | Some rs => existsb (fun o => bool_decide (or_rev o = r)) (rs_old rs)
      | None => false
      end
  | _ => false
  end && ok_b (run c e f) && negb (at_b f (rev_dir c r) None) && at_b (after (run c e f)) (rev_dir c r) None.
Lemma again_ok c e f r : again_check c e f r = true ->
  plain_record c f /\ (exists rs o, recorded_rsync c f rs /\ o ∈ rs_old rs /\ or_rev o = r) /\
  f !! rev_dir c r <> None /\ exists w, run c e f = (Ok tt, w) /\ w_fs w !! rev_dir c r = None.
Proof.
  unfold again_check. intros [[[H1 H2]%andb_true_iff H3]%andb_true_iff H4]%andb_true_iff. apply at_ok in H4.
  apply there_ok in H3. apply ok_b_ok in H2 as (w & H2 & H2'). split; [|split; [|split; [exact H3|]]].
  - intros t E. by rewrite E in H1.
  - destruct (f !! rsync_state_path c) as [[b m| |]|] eqn:E; try done.
    destruct (rsync_state_parse b) as [rs|] eqn:Ep; [|done]. apply existsb_exists in H1 as (o & Ho & Er).
    apply bool_decide_eq_true in Er. exists rs, o. split; [right; by exists b, m|]. split; [by apply elem_of_list_In|done].
  - exists w. split; [done|]. by rewrite H2'.
Qed.
Lemma again5 : again_check demo_config (run_env A5 9000) kill2 rev5 = true.
Proof. vme. Qed.
Example C22_applies : setting demo_config base name (run_env A5 9000) kill2 /\ c_rsync_disable demo_config = false /\
  c_force_moves demo_config = false /\ plain_record demo_config kill2 /\
  (exists rs o, recorded_rsync demo_config kill2 rs /\ o ∈ rs_old rs /\ or_rev o = rev5) /\
  kill2 !! rev_dir demo_config rev5 <> None /\
  exists w, run demo_config (run_env A5 9000) kill2 = (Ok tt, w) /\ w_fs w !! rev_dir demo_config rev5 = None.
Proof.
  destruct (again_ok _ _ _ _ again5) as (H1 & H2 & H3 & H4).
  exact (conj again_setting (conj eq_refl (conj eq_refl (conj H1 (conj H2 (conj H3 H4)))))).
Qed.

(** directory moves: the instants without 'current', and a kill after the second
    rename *)
Definition in_gap (g : fs) : bool :=
  at_b g (current_path moves_config) None && at_b g (rev_dir moves_config rev3) (Some Dir).
Definition gap1 : fs := killed_when moves_config (run_env A5 1000) moved1 in_gap.
Definition turned_unsaved (g : fs) : bool :=
  at_b g (current_path moves_config) (Some Dir) && negb (at_b g (rev_dir moves_config rev3 ++ ["ca"]) None).
Definition stuck1 : fs := killed_when moves_config (run_env A5 1000) moved1 turned_unsaved.
Definition stuck_check (c : config) (e : env) (f : fs) (r : revision) (q : path) : bool :=
  match f !! rsync_state_path c with
  | Some (File b _) => bool_decide (rsync_state_parse b = Some (mkRs (Some r) []))
  | _ => false
  end && at_b f (current_path c) (Some Dir) && at_b f (rev_dir c r ++ q) (Some Dir) &&
  match (run c e f).1 with Err _ => true | _ => false end.
Lemma stuck_ok c e f r q : q <> [] -> stuck_check c e f r q = true ->
  plain_record c f /\ unsaved_turn c f (mkRs (Some r) []) r /\ exists x, (run c e f).1 = Err x.
Proof.
  intros Hq. unfold stuck_check. intros [[[H1 H2]%andb_true_iff H3]%andb_true_iff H4]%andb_true_iff. apply at_ok in H2, H3.
  destruct (f !! rsync_state_path c) as [[b m| |]|] eqn:E; try done. apply bool_decide_eq_true in H1. split; [|split].
  - intros t E'. by rewrite E in E'.
  - split; [right; by exists b, m|]. split; [done|]. split; [done|]. by exists q, Dir.
  - destruct ((run c e f).1) as [|x|]; [done| |done]. by exists x.
Qed.
Lemma stuck3 : stuck_check moves_config (run_env B1 2000) stuck1 rev3 ["ca"] = true.
Proof. vme. Qed.
Lemma gap_ok : in_gap gap1 = true.
Proof. vme. Qed.
Example C20_applies : setting moves_config base name (run_env A5 1000) moved1 /\
  c_rsync_disable moves_config = false /\ c_force_moves moves_config = true /\
  retried_revisions moves_config (run_env A5 1000) moved1 /\ moved1 !! current_path moves_config = Some Dir /\
  gap1 ∈ instants moves_config (run_env A5 1000) moved1 /\ gap1 !! current_path moves_config = None.
Proof.
  destruct C21_moved_applies as (H1 & H2 & _ & H3 & _). split; [exact H1|]. split; [reflexivity|]. split; [reflexivity|].
  split; [apply new_retried, H2|]. split; [exact H3|]. split; [apply killed_instant|].
  pose proof gap_ok as [H4%at_ok _]%andb_true_iff. exact H4.
Qed.
Example C20_stuck_applies : stuck1 ∈ instants moves_config (run_env A5 1000) moved1 /\
  setting moves_config base name (run_env B1 2000) stuck1 /\ plain_record moves_config stuck1 /\
  unsaved_turn moves_config stuck1 (mkRs (Some rev3) []) rev3 /\
  exists x, (run moves_config (run_env B1 2000) stuck1).1 = Err x.
Proof.
  destruct (stuck_ok _ _ _ _ ["ca"] ltac:(discriminate) stuck3) as (H1 & H2 & H3). split; [apply killed_instant|]. split.
  - split; [apply moves_setting| |].
    + eapply (mi_run _ _ _ _ moved1 moves_config (run_env A5 1000)); [apply moves_setting|done|apply moves_setting|done|apply killed_instant].
    + split; [|apply safe_clean]. intros n Hn. change (offers demo_config (env3 2) stuck1 n) in Hn.
      apply env3_offers in Hn as ->; [apply src3_good|lia].
  - exact (conj H1 (conj H2 H3)).
Qed.

Print Assumptions C22_link.
Print Assumptions C20_instants.
Print Assumptions C20_stuck.
