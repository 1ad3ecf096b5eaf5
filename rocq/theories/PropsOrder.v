(** * The order in which rsync and RRDP are updated, and what accumulates: C59, C60, C61 *)
From Coq Require Import ZifyN ZifyNat ZifyBool.
From Verif Require Import RsyncRun DemoRun Refuted PropsClean PropsRsync.
From Verif Require Import FsWf HistoryProofs PropsHistory.

(** the notification served in [g] announces the version of [n] *)
Definition shows_version (c : config) (name : string) (x : ext) (g : fs) (n : notification) : Prop :=
  exists n' m, g !! notif_path c name = Some (File (x_write_notif x n') m) /\
    n_session n' = n_session n /\ n_serial n' = n_serial n.

Section run.
  Context (c : config) (base name : string) (e : env) (f : fs) (Hs : sane c base name e f).
  Let Hc : cfg_ok c base name := sn_cfg _ _ _ _ _ Hs.

  (** a new notification is there only after the rsync step *)
  Lemma new_notif_after g : g ∈ instants c e f -> g !! notif_path c name <> f !! notif_path c name ->
    exists st n0 n sg f1 v st' f2 cb st2 f3 f4 n',
      at_notify c base name e f st n0 n sg f1 v st' f2 cb st2 f3 f4 /\ notif_of base st2 n' /\
      g !! notif_path c name = Some (File (x_write_notif (e_ext e) n') None) /\
      (forall p, rsync_own c p -> g !! p = f4 !! p) /\
      (n_session n' = n_session n0 /\ n_serial n' = n_serial n0 /\
       n_snap_uri n' = n_snap_uri n0 /\ n_snap_hash n' = n_snap_hash n0).
  Proof using Hs.
    intros Hg Hne. apply (instant_phase c base name e f Hs) in Hg.
    assert (Hver : forall st n0 n sg f1 v st' f2 cb st2 f3 n', at_rsync c base name e f st n0 n sg f1 v st' f2 cb st2 f3 ->
      notif_of base st2 n' -> n_session n' = n_session n0 /\ n_serial n' = n_serial n0 /\
        n_snap_uri n' = n_snap_uri n0 /\ n_snap_hash n' = n_snap_hash n0).
    { intros st n0 n sg f1 v st' f2 cb st2 f3 n' Ha (s & Hs1 & ->).
      destruct (new_deltas c base name e f _ _ _ _ _ _ _ _ _ _ _ Ha) as [_ Hsn].
      rewrite Hs1 in Hsn. injection Hsn as ->.
      pose proof (ar_clean _ _ _ _ _ _ _ _ _ _ _ _ _ _ _ _ Ha) as Hcl.
      pose proof (ac_move _ _ _ _ _ _ _ _ _ _ _ _ _ Hcl) as Hmv.
      destruct (am_staged _ _ _ _ _ _ _ _ _ _ Hmv) as [[So1 So2] _ (S1 & S2 & S3 & S4 & _) _ _].
      destruct (sav_same _ _ _ _ _ So2) as (V1 & V2 & V3 & V4). cbn. repeat split; congruence. }
    destruct Hg as [H|st n0 n sg f1 v st' f2 cb st2 f3 f4 n' H1 Hn H2|st n0 n sg f1 v st' f2 cb st2 f3 f4 n' f5 H1 H2].
    - by rewrite (front_N c base name Hc e f Hs g H) in Hne.
    - exists st, n0, n, sg, f1, v, st', f2, cb, st2, f3, f4, n'. split; [done|]. split; [done|]. split; [|split].
      + destruct (no_notif _ _ _ _ _ H2) as [E|E]; [|done]. rewrite E in Hne.
        by rewrite (front_N c base name Hc e f Hs f4 (notify_front _ _ _ _ _ _ _ _ _ _ _ _ _ _ _ _ _ H1)) in Hne.
      + intros p Hp. by eapply own_after.
      + eapply Hver; [apply H1|done].
    - exists st, n0, n, sg, f1, v, st', f2, cb, st2, f3, f4, n'. destruct H1 as [H1 Hn Ht Hf].
      split; [done|]. split; [done|]. split; [|split].
      + by rewrite (save_N c base name Hc _ _ _ H2).
      + intros p Hp. rewrite (own_save c base name e f Hs p _ _ _ Hp H2). by eapply own_after.
      + eapply Hver; [apply H1|done].
  Qed.

  Lemma done_link st2 f3 snap rs g1 b els g2 g3 rs1 cy g4 f4 : c_force_moves c = false ->
    rsync_done c e st2 f3 snap rs g1 b els g2 g3 rs1 cy g4 f4 ->
    f4 !! current_path c = Some (Link (dir_name (rev_of snap))).
  Proof using Hs.
    intros Hsym%symlinks [D1 D2 D3 D4 D5 D6 D7 D8]. rewrite <- current_eq.
    rewrite (saving_dir c base name e f Hs _ _ _ _ D7) by apply current_under.
    destruct (D5 (rsync_current c)) as [->|[_ Hl]]; [|exfalso; eapply rev_paths_not_current; [done|apply under_refl]].
    unfold turned in D2. rewrite Hsym in D2. destruct D2 as [_ ->]. by rewrite lookup_insert.
  Qed.

  (** the link is what it was, or names the directory of the offered version *)
  Lemma link_instant g : c_force_moves c = false -> g ∈ instants c e f ->
    g !! current_path c = f !! current_path c \/
    exists n, offers c e f n /\ g !! current_path c = Some (Link (dir_name (revision_of n))).
  Proof using Hs.
    intros Hsym%symlinks Hg. assert (Hcu : rsync_own c (current_path c)) by (left; apply under_app).
    destruct (rsync_instant c base name e f Hs g Hg)
      as [H|(st & n0 & n & sg & f1 & v & st' & f2 & cb & st2 & f3 & g' & Ha & Hr & Hm & Hgg)]; [left; auto|].
    rewrite Hgg by done. rewrite <- (own_before c base name e f Hs _ _ _ _ _ _ _ _ _ _ _ _ Hcu Ha).
    assert (Hin : forall snap h, inside (under (rev_path c (rev_of snap))) f3 h -> h !! current_path c = f3 !! current_path c).
    { intros snap h Hh. rewrite <- current_eq. destruct (apart_out _ _ (apart_sym _ _ (rev_current_apart c (rev_of snap)))) as [K1 K2].
      apply (inside_same _ _ _ _ Hh); [done|]. intros (q & Hq & Hb). by apply (K2 q). }
    assert (Hnew : forall snap rs g1 b els g2 g3, rsync_pub c e st2 f3 snap rs g1 b els g2 -> turned c (rev_of snap) rs g2 g3 ->
      offers c e f n0 /\ g3 !! current_path c = Some (Link (dir_name (revision_of n0)))).
    { intros snap rs g1 b els g2 g3 Hp Ht.
      destruct (published_source c base name e f Hs _ _ _ _ _ _ _ _ _ _ _ _ _ _ _ _ _ Ha Hp) as (Hsf & Hrv & _).
      split; [apply Hsf|]. unfold turned in Ht. rewrite Hsym in Ht. destruct Ht as [_ ->].
      by rewrite <- current_eq, lookup_insert, Hrv. }
    assert (Hkeep : forall rs1 cy (g3 h : fs), lost (rev_paths c rs1 cy) g3 h -> h !! current_path c = g3 !! current_path c).
    { intros rs1 cy g3 h Hl. rewrite <- current_eq. destruct (Hl (rsync_current c)) as [->|[_ Hx]]; [done|].
      exfalso. eapply rev_paths_not_current; [done|apply under_refl]. }
    destruct Hm as [->|snap H1 H2|snap rs g1 b els g2 H1 H2|snap rs g1 b els g2 g3 rs1 cy H1 H2 H3 H4 H5|snap rs g1 b els g2 g3 rs1 cy g4 H1 H2 H3 H4 H5 H6].
    - by left.
    - left. by eapply Hin.
    - unfold turning in H2. rewrite Hsym in H2. destruct H2 as [H2|H2].
      + left. rewrite H2 by (rewrite <- current_eq; apply not_eq_sym, link_tmp_ne). eapply Hin. apply H1.
      + right. exists n0. eapply (Hnew snap rs g1 b els g2 g'); [done|]. unfold turned. by rewrite Hsym.
    - right. exists n0. rewrite (Hkeep _ _ _ _ H5). by eapply Hnew.
    - right. exists n0. rewrite (saving_dir c base name e f Hs _ _ _ _ H6) by (rewrite <- current_eq; apply current_under).
      rewrite (Hkeep _ _ _ _ H5). by eapply Hnew.
  Qed.
End run.

(** ** C59: rsync is updated before the notification *)
(** At every instant: if the notification is not the one served before, then
    rsync clients already get the tree of the version it announces, with all
    its objects, and the record says so. *)
Theorem C59_rsync_first c base name e f g :
  setting c base name e f -> c_rsync_disable c = false -> retried_revisions c e f ->
  g ∈ instants c e f -> g !! notif_path c name <> f !! notif_path c name ->
  exists n rel b els root, snapshot_doc c base name e f n rel b els /\
    announces c name (e_ext e) g n /\ serves c g root /\
    (forall q b', carries c els q b' -> exists m, g !! (root ++ q) = Some (File b' m)) /\
    (forall q b' m, g !! (root ++ q) = Some (File b' m) ->
       carries c els q b' \/ f !! (rev_dir c (revision_of n) ++ q) = Some (File b' m)) /\
    exists rs, recorded_rsync c g rs /\ rs_current rs = Some (revision_of n).
Proof.
  intros Hs%setting_sane Hr%enabled [Hpl Hof] Hg Hne.
  destruct (new_notif_after c base name e f Hs g Hg Hne)
    as (st & n0 & n & sg & f1 & v & st' & f2 & cb & st2 & f3 & f4 & n' & Hn & Hnf & HN & Hg4 & Hver).
  destruct (an_step _ _ _ _ _ _ _ _ _ _ _ _ _ _ _ _ _ Hn Hr) as (snap & rs & g1 & b & els & g2 & g3 & rs1 & cy & g4 & Hd).
  pose proof (an_rsync _ _ _ _ _ _ _ _ _ _ _ _ _ _ _ _ _ Hn) as Ha.
  pose proof (rd_pub _ _ _ _ _ _ _ _ _ _ _ _ _ _ _ Hd) as Hp.
  destruct (published_source c base name e f Hs _ _ _ _ _ _ _ _ _ _ _ _ _ _ _ _ _ Ha Hp) as (Hsf & Hrv & Hrd).
  destruct (Hof n0 (sf_offer _ _ _ _ _ _ _ _ _ Hsf)) as [Hun Hsl].
  pose proof (run_recorded c base name e f Hs _ _ _ _ _ _ _ _ _ _ _ _ Ha Hpl (rp_start _ _ _ _ _ _ _ _ _ _ Hp)) as Hrec.
  destruct (Hun rs Hrec) as [Hcur Hold]. rewrite <- Hrv in Hcur, Hold.
  assert (Hat : forall q, new_at c e f n0 els q (g !! (new_root c (rev_of snap) ++ q)) /\ serves c g (new_root c (rev_of snap))).
  { intros q. destruct (done_root c base name e f Hs _ _ _ _ _ _ _ _ _ _ _ _ _ q Hd Hcur Hold) as [Hq Hsr].
    { intros _. eapply (published_dir c base name e f Hs); [exact Ha|exact Hp|exact Hsl]. }
    split.
    - rewrite Hg4 by (left; apply new_root_under). rewrite Hq. eapply (published_at c base name e f Hs); [exact Ha|exact Hp].
    - unfold serves in *. destruct (c_force_moves c); [done|]. destruct Hsr as (d & Hd1 & Hd2). exists d. split; [|done].
      rewrite Hg4; [done|]. left. apply under_app. }
  exists n0, (ss_rel snap), b, els, (new_root c (rev_of snap)).
  split; [by apply source_doc|]. split; [by exists n', None|]. split; [apply (Hat [])|]. split; [|split].
  - intros q b' Hb'. destruct (Hat q) as [[b2 m2 K1 K2 K3|K1 K2|K1 K2 K3] _]; [|by destruct (K1 b')|by destruct (K1 b')].
    exists m2. rewrite K2. do 2 f_equal. by eapply carries_unique.
  - intros q b' m Hq. destruct (Hat q) as [Hx _]. rewrite Hq in Hx. destruct Hx as [b2 m2 K1 [= -> ->] K3|K1 K2|K1 K2 K3]; [by left|by right|done].
  - destruct Hd as [D1 D2 D3 D4 D5 D6 D7 D8]. exists (kept_revs rs1 cy). split.
    + right. eexists _, None. split; [rewrite Hg4 by (by right); exact D8|]. by rewrite rsync_state_roundtrip.
    + rewrite <- Hrv. unfold next_rsync in D3. destruct (rs_current rs); [destruct D3 as (now & _ & ->)|rewrite D3]; done.
Qed.

(** With the symbolic link, whatever directories and records there are: *)
Theorem C59_link_first c base name e f g :
  setting c base name e f -> c_rsync_disable c = false -> c_force_moves c = false ->
  g ∈ instants c e f ->
  (g !! notif_path c name = f !! notif_path c name /\
     (g !! current_path c = f !! current_path c \/
      exists n, offers c e f n /\ g !! current_path c = Some (Link (dir_name (revision_of n))))) \/
  exists n, offers c e f n /\ shows_version c name (e_ext e) g n /\
    g !! current_path c = Some (Link (dir_name (revision_of n))).
Proof.
  intros Hs%setting_sane Hr%enabled Hfm Hg.
  destruct (decide (g !! notif_path c name = f !! notif_path c name)) as [E|E].
  { left. split; [done|]. by eapply link_instant. }
  right. destruct (new_notif_after c base name e f Hs g Hg E)
    as (st & n0 & n & sg & f1 & v & st' & f2 & cb & st2 & f3 & f4 & n' & Hn & Hnf & HN & Hg4 & V1 & V2 & _).
  destruct (an_step _ _ _ _ _ _ _ _ _ _ _ _ _ _ _ _ _ Hn Hr) as (snap & rs & g1 & b & els & g2 & g3 & rs1 & cy & g4 & Hd).
  destruct (published_source c base name e f Hs _ _ _ _ _ _ _ _ _ _ _ _ _ _ _ _ _
     (an_rsync _ _ _ _ _ _ _ _ _ _ _ _ _ _ _ _ _ Hn) (rd_pub _ _ _ _ _ _ _ _ _ _ _ _ _ _ _ Hd)) as (Hsf & Hrv & _).
  exists n0. split; [apply Hsf|]. split; [by exists n', None|].
  rewrite Hg4 by (left; apply under_app). rewrite (done_link c base name e f Hs _ _ _ _ _ _ _ _ _ _ _ _ _ Hfm Hd). by rewrite Hrv.
Qed.

(** Runs with rsync and the symbolic link, each completed, failed or killed
    anywhere, while the source goes from version to version: [k] is the last
    version that may have been seen. *)
Inductive link_runs (c : config) (base name : string) (x : ext) (src : nat -> notification) : nat -> fs -> Prop :=
| lr_start f : wf f -> f !! rrdp_state_path c = None -> f !! notif_path c name = None -> link_runs c base name x src 0 f
| lr_run k k' f c' e g : link_runs c base name x src k f -> same_places c c' ->
    c_rsync_disable c' = false -> c_force_moves c' = false -> e_ext e = x -> good_world c' base name e f ->
    k <= k' -> (forall n, offers c' e f n -> exists i, k <= i /\ i <= k' /\ n = src i) ->
    g ∈ instants c' e f -> link_runs c base name x src k' g
| lr_else k f g : link_runs c base name x src k f -> wf g -> (forall p, owned c p -> g !! p = f !! p) ->
    link_runs c base name x src k g.
Lemma link_mirror c base name x src k f : link_runs c base name x src k f -> mirror any_notif c base name f.
Proof.
  induction 1 as [f H1 H2 _|k k' f c' e g H IH Hsp _ _ _ Hw _ _ Hg|k f g H IH Hwf Hsame].
  - by apply mi_start.
  - by eapply (mi_run _ _ _ _ f c' e).
  - by eapply mi_else.
Qed.
(** The version rsync clients get is never older than the one announced. *)
Theorem C59_never_behind c base name x src k f :
  cfg_ok c base name -> link_runs c base name x src k f -> f !! notif_path c name <> None ->
  exists i j, j <= i /\ i <= k /\ shows_version c name x f (src j) /\
    f !! current_path c = Some (Link (dir_name (revision_of (src i)))).
Proof.
  intros Hc. induction 1 as [f H1 H2 H3|k k' f c' e g H IH Hsp Hr Hfm Hx Hw Hk Hof Hg|k f g H IH Hwf Hsame]; intros HN.
  - done.
  - assert (Hset : setting c' base name e f).
    { split; [by eapply places_cfg|eapply mirror_places; [done|by eapply link_mirror]|done]. }
    assert (EN : notif_path c' name = notif_path c name) by by apply places_N.
    assert (EC : current_path c' = current_path c) by (unfold current_path; by destruct Hsp as (_ & _ & _ & ->)).
    destruct (C59_link_first c' base name e f g Hset Hr Hfm Hg) as [[E1 E2]|(n & Ho & Hv & E2)]; rewrite ?EN, ?EC in *.
    + rewrite E1 in HN. destruct (IH HN) as (i & j & Hij & Hik & (n' & m & Hn' & V) & Hl).
      assert (Hv : shows_version c name x g (src j)) by (exists n', m; by rewrite E1).
      destruct E2 as [E2|(n & Ho & E2)].
      * exists i, j. rewrite E2. repeat split; [done|lia|done|done].
      * destruct (Hof n Ho) as (i' & H4 & H5 & ->). exists i', j. repeat split; [lia|done|done|done].
    + destruct (Hof n Ho) as (i & H4 & H5 & ->). exists i, i. repeat split; [done|done| |done].
      unfold shows_version in *. by rewrite EN, Hx in Hv.
  - rewrite (Hsame (notif_path c name)) in HN by (right; left; apply under_app).
    destruct (IH HN) as (i & j & Hij & Hik & (n' & m & Hn' & V) & Hl). exists i, j. repeat split; [done|done| |].
    + exists n', m. by rewrite Hsame by (right; left; apply under_app).
    + rewrite Hsame; [done|]. right. right. left. apply under_app.
Qed.

(** ** C60: without rsync nothing of rsync is touched *)
Theorem C60_rsync_off c base name e f g p :
  setting c base name e f -> c_rsync_disable c = true -> g ∈ instants c e f ->
  under (c_rsync_dir c) p \/ p = rsync_state_path c -> g !! p = f !! p.
Proof.
  intros Hs%setting_sane Hd Hg Hp.
  destruct (rsync_instant c base name e f Hs g Hg)
    as [H|(st & n0 & n & sg & f1 & v & st' & f2 & cb & st2 & f3 & g' & Ha & Hr & Hm & Hgg)]; [by apply H|].
  unfold rsync_enabled in Hr. by rewrite Hd in Hr.
Qed.

(** ** C61: every directory in the rsync directory is accounted for between completed runs *)
(** the name is one of a revision that is recorded, or reserved *)
Definition known_name (rs : rsync_state) (d : string) : Prop :=
  d = "current" \/ d = "current.tmp" \/
  exists r, (rs_current rs = Some r \/ exists o, o ∈ rs_old rs /\ or_rev o = r) /\ d = dir_name r.
(** what the state file records accounts for all directories *)
Definition accounted (c : config) (f : fs) : Prop :=
  exists rs, recorded_rsync c f rs /\ forall d, f !! (c_rsync_dir c ++ [d]) = Some Dir -> known_name rs d.

Lemma recorded_unique c f rs rs' : recorded_rsync c f rs -> recorded_rsync c f rs' -> rs = rs'.
Proof.
  intros [[R1 ->]|(b1 & m1 & R1 & R2)] [[R3 ->]|(b2 & m2 & R3 & R4)]; [done|congruence|congruence|congruence].
Qed.
Lemma rsync_child c d d' p : under (c_rsync_dir c ++ [d']) p -> p = c_rsync_dir c ++ [d] -> d = d'.
Proof.
  intros [k ->] E. rewrite <- app_assoc in E. apply app_inv_head in E. by injection E.
Qed.

Theorem C61_accounted c base name e f w :
  setting c base name e f -> plain_record c f -> accounted c f -> run c e f = (Ok tt, w) -> accounted c (w_fs w).
Proof.
  intros Hset Hpl (rs & Hrec & Hacc) Hrun. destruct (c_rsync_disable c) eqn:Hdis.
  { assert (Hin : w_fs w ∈ instants c e f).
    { pose proof (after_instant c e f) as Ha. unfold after in Ha. by rewrite Hrun in Ha. }
    exists rs. split.
    - unfold recorded_rsync. by rewrite (C60_rsync_off c base name e f (w_fs w) _ Hset Hdis Hin (or_intror eq_refl)).
    - intros d. rewrite (C60_rsync_off c base name e f (w_fs w) _ Hset Hdis Hin); [apply Hacc|]. left. apply under_app. }
  destruct (C21_old_trees c base name e f w Hset Hdis Hpl Hrun) as [->|(n & rs' & olds & cb & Ho & Hrec' & Hret & Hct & Hnew & Hgone & Hrest)].
  { by exists rs. }
  rewrite <- (recorded_unique _ _ _ _ Hrec Hrec') in *. clear rs' Hrec'.
  eexists. split; [exact Hnew|]. intros d Hd.
  assert (Hold : forall o, o ∈ olds -> d = dir_name (or_rev o) ->
    known_name (mkRs (Some (revision_of n)) (filter (fun o => (cb < or_since o)%Z) olds)) d).
  { intros o Hin ->. right. right. exists (or_rev o). split; [|done]. right. exists o. split; [|done].
    cbn. apply elem_of_list_filter. split; [|done]. destruct (Z.lt_ge_cases cb (or_since o)) as [|Hle]; [done|]. exfalso.
    destruct (Hgone o [] Hin Hle) as [E|[_ [t E]]].
    - rewrite app_nil_r in E. unfold rev_dir in E. congruence.
    - unfold rev_dir in E. congruence. }
  assert (Hcur : forall cur, rs_current rs = Some cur -> d = dir_name cur ->
    known_name (mkRs (Some (revision_of n)) (filter (fun o => (cb < or_since o)%Z) olds)) d).
  { intros cur Ec ->. unfold retired in Hret. rewrite Ec in Hret. destruct Hret as (now & _ & ->).
    apply (Hold (mkOld now cur)); [|done]. apply elem_of_app. right. by apply elem_of_list_singleton. }
  destruct (decide (f !! (c_rsync_dir c ++ [d]) = Some Dir)) as [E|E].
  - destruct (Hacc d E) as [->|[->|(r & [Ec|(o & Hin & <-)] & ->)]].
    + by left.
    + right. by left.
    + by eapply Hcur.
    + apply (Hold o); [|done]. unfold retired in Hret. destruct (rs_current rs); [|by subst].
      destruct Hret as (now & _ & ->). apply elem_of_app. by left.
  - assert (Hch : w_fs w !! (c_rsync_dir c ++ [d]) <> f !! (c_rsync_dir c ++ [d])) by (rewrite Hd; by apply not_eq_sym).
    destruct (decide (d = "current")) as [->|D1]; [by left|]. destruct (decide (d = "current.tmp")) as [->|D2]; [right; by left|].
    destruct (decide (d = dir_name (revision_of n))) as [->|D3].
    { right. right. exists (revision_of n). split; [by left|done]. }
    assert (D4 : (exists cur, rs_current rs = Some cur /\ d = dir_name cur) \/ forall cur, rs_current rs = Some cur -> d <> dir_name cur).
    { destruct (rs_current rs) as [cur|]; [|by right]. destruct (decide (d = dir_name cur)) as [->|D4]; [left; by exists cur|].
      right. by intros cur' [= <-]. }
    destruct D4 as [(cur & Ec & Ed)|D4]; [by eapply Hcur|].
    destruct (Hrest (c_rsync_dir c ++ [d])) as [E' _]; [apply under_app|done| |congruence].
    intros [H|[H|[H|[H|(_ & cur & Ec & H)]]]].
    + by apply (rsync_child c d) in H.
    + by apply (rsync_child c d) in H.
    + apply app_inv_head in H. by injection H.
    + rewrite <- (app_nil_r (c_rsync_dir c)) in H at 2. by apply app_inv_head in H.
    + apply (rsync_child c d) in H; [|done]. by apply (D4 cur).
Qed.

(** completed runs with any options, from a tree without rsync record and
    without directories in the rsync directory *)
Inductive whole_runs (c : config) (base name : string) : fs -> Prop :=
| wr_start f : wf f -> f !! rrdp_state_path c = None -> f !! rsync_state_path c = None ->
    (forall d, f !! (c_rsync_dir c ++ [d]) <> Some Dir) -> whole_runs c base name f
| wr_run f c' e w : whole_runs c base name f -> same_places c c' -> good_world c' base name e f ->
    run c' e f = (Ok tt, w) -> whole_runs c base name (w_fs w).
Lemma whole_mirror c base name f : whole_runs c base name f -> mirror any_notif c base name f.
Proof.
  induction 1 as [f H1 H2 _ _|f c' e w H IH Hsp Hw Hrun]; [by apply mi_start|].
  eapply (mi_run _ _ _ _ f c' e); [done|done|done|done|]. pose proof (after_instant c' e f) as Ha. unfold after in Ha. by rewrite Hrun in Ha.
Qed.
Lemma accounted_plain c f : accounted c f -> plain_record c f.
Proof. intros (rs & [[E _]|(b & m & E & _)] & _) t E'; congruence. Qed.
Lemma accounted_places c c' f : same_places c c' -> accounted c f <-> accounted c' f.
Proof.
  intros (_ & E2 & _ & E4). unfold accounted, recorded_rsync. rewrite !rsync_state_eq. by rewrite E2, E4.
Qed.
Theorem C61_history c base name f : cfg_ok c base name -> whole_runs c base name f -> accounted c f.
Proof.
  intros Hc. induction 1 as [f H1 H2 H3 H4|f c' e w H IH Hsp Hw Hrun].
  - exists (mkRs None []). split; [by left|]. intros d Hd. by apply H4 in Hd.
  - apply (accounted_places c c' _ Hsp). apply (accounted_places c c' _ Hsp) in IH.
    eapply (C61_accounted c' base name e f); [|by apply accounted_plain|done|done].
    split; [by eapply places_cfg|eapply mirror_places; [done|by apply whole_mirror]|done].
Qed.

(** A directory that the record does not account for is never removed: a run
    that does not publish that revision leaves it as it is. *)
Theorem C61_leftover c base name e f w rs r p :
  setting c base name e f -> plain_record c f -> run c e f = (Ok tt, w) ->
  recorded_rsync c f rs -> rs_current rs <> Some r -> (forall o, o ∈ rs_old rs -> or_rev o <> r) ->
  (forall n, offers c e f n -> revision_of n <> r) ->
  under (rev_dir c r) p -> w_fs w !! p = f !! p.
Proof.
  intros Hset Hpl Hrun Hrec Hcur Hold Hof Hp.
  assert (Hpu : under (c_rsync_dir c) p) by (eapply under_trans; [|exact Hp]; apply under_app).
  destruct (c_rsync_disable c) eqn:Hdis.
  { apply (C60_rsync_off c base name e f); [done|done| |by left].
    pose proof (after_instant c e f) as Ha. unfold after in Ha. by rewrite Hrun in Ha. }
  destruct (C21_old_trees c base name e f w Hset Hdis Hpl Hrun) as [->|(n & rs' & olds & cb & Ho & Hrec' & Hret & Hct & Hnew & Hgone & Hrest)]; [done|].
  rewrite <- (recorded_unique _ _ _ _ Hrec Hrec') in *. clear rs' Hrec'.
  destruct (decide (w_fs w !! p = f !! p)) as [|Hne]; [done|]. exfalso.
  assert (Hrr : forall r', r' <> r -> ~ under (rev_dir c r') p).
  { intros r' Hne' Hu. apply (apart_disjoint (rev_dir c r') (rev_dir c r) p); [|done|done].
    rewrite <- !rev_dir_eq. by apply revs_apart. }
  destruct (Hrest p Hpu Hne) as (_ & o & Hin & _ & Hu).
  - intros [H|[H|[->|[->|(_ & cur & Ec & H)]]]].
    + by apply (Hrr _ (Hof n Ho)).
    + apply (apart_disjoint (rev_dir c r) (current_path c) p); [|done|done].
      rewrite <- rev_dir_eq, <- current_eq. apply rev_current_apart.
    + apply (apart_disjoint (rev_dir c r) (link_tmp c) (link_tmp c)); [|by rewrite link_tmp_eq|apply under_refl].
      rewrite <- rev_dir_eq. apply rev_tmp_apart.
    + destruct Hp as [k Hk]. unfold rev_dir in Hk. rewrite <- (app_nil_r (c_rsync_dir c)) in Hk at 1.
      rewrite <- app_assoc in Hk. by apply app_inv_head in Hk.
    + revert H. apply Hrr. congruence.
  - revert Hu. apply Hrr. unfold retired in Hret. destruct (rs_current rs) as [cur|]; [|subst; by apply Hold].
    destruct Hret as (now & _ & ->). apply elem_of_app in Hin as [Hin|Hin%elem_of_list_singleton]; [by apply Hold|].
    rewrite Hin. cbn. congruence.
Qed.

(** ** The hypotheses can be met *)
Lemma link_runs3 i : i <= 3 -> link_runs demo_config base name safe_ext src3 (pred i) (tree3 i).
Proof.
  induction i as [|i IH]; intros Hi.
  - apply lr_start; [apply start_wf|done|done].
  - cbn [tree3 pred]. eapply (lr_run _ _ _ _ _ (pred i) i _ demo_config (env3 i));
      [apply IH; lia|done|done|done|done|apply env3_good; lia|lia| |apply after_instant].
    intros n ->%env3_offers; [|lia]. exists i. split; [lia|]. done.
Qed.
(** serial 5 replaces serial 3, whole run *)
Example C59_applies : setting demo_config base name (env3 1) (tree3 1) /\ c_rsync_disable demo_config = false /\
  retried_revisions demo_config (env3 1) (tree3 1) /\ tree3 2 ∈ instants demo_config (env3 1) (tree3 1) /\
  tree3 2 !! notif_path demo_config name <> tree3 1 !! notif_path demo_config name.
Proof.
  split; [exact (setting3 1 (le_S _ _ (le_n 1)))|]. split; [reflexivity|]. split; [exact (proj1 (proj2 C19_applies))|].
  split; [exact (after_instant demo_config (env3 1) (tree3 1))|]. exact (moved3 1 (le_S _ _ (le_n 1))).
Qed.
(** the same run, killed as soon as the link is turned: rsync is ahead *)
Definition is_link (p : path) (t : string) (g : fs) : bool := bool_decide (g !! p = Some (Link t)).
Definition ahead5 : fs := killed_when demo_config (env3 1) (tree3 1) (is_link (current_path demo_config) (dir_name rev5)).
Definition at_serial (n : N) (g : fs) : bool := bool_decide (n_serial <$> shown g = Some n).
Definition ahead_check (g : fs) : bool := is_link (current_path demo_config) (dir_name rev5) g && at_serial 3 g.
Lemma ahead_ok g : ahead_check g = true ->
  g !! current_path demo_config = Some (Link (dir_name rev5)) /\ at_serial 3 g = true /\
  g !! notif_path demo_config name <> None.
Proof.
  unfold ahead_check, is_link. intros [H1%bool_decide_eq_true_1 H2]%andb_true_iff. split; [exact H1|].
  split; [exact H2|]. intros E%served_none. unfold at_serial in H2. by rewrite E in H2.
Qed.
Lemma ahead5_check : ahead_check ahead5 = true.
Proof. vme. Qed.
Lemma link_runs_ahead : link_runs demo_config base name safe_ext src3 1 ahead5.
Proof.
  eapply (lr_run _ _ _ _ _ 0 1 (tree3 1) demo_config (env3 1));
    [exact (link_runs3 1 (le_S _ _ (le_S _ _ (le_n 1))))|split; [reflexivity|]; split; [reflexivity|]; split; reflexivity
    |reflexivity|reflexivity|reflexivity|exact (env3_good 1 (tree3 1) (le_S _ _ (le_n 1)))|exact (le_S _ _ (le_n 0))| |apply killed_instant].
  intros n Ho. exists 1. split; [exact (le_S _ _ (le_n 0))|]. split; [exact (le_n 1)|].
  exact (env3_offers 1 (tree3 1) n (le_S _ _ (le_n 1)) Ho).
Qed.
Example C59_ahead_applies : cfg_ok demo_config base name /\ link_runs demo_config base name safe_ext src3 1 ahead5 /\
  ahead5 !! notif_path demo_config name <> None /\ at_serial 3 ahead5 = true /\
  ahead5 !! current_path demo_config = Some (Link (dir_name (revision_of (src3 1)))).
Proof.
  destruct (ahead_ok _ ahead5_check) as (H1 & H3 & H2).
  exact (conj demo_cfg_ok (conj link_runs_ahead (conj H2 (conj H3 H1)))).
Qed.

(** rsync switched off, in a run that publishes a new version *)
Definition off_config : config := {|
  c_verbose := 0; c_quiet := false;
  c_state_dir := ["var"; "ks"]; c_rrdp_dir := ["srv"; "rrdp"];
  c_notify_delay := 0; c_max_deltas := None;
  c_rsync_dir := ["srv"; "rsync"]; c_force_moves := false; c_rsync_disable := true;
  c_include_host := false; c_cleanup_after := 7200; c_insecure := false;
  c_notif_uri := notif_uri; c_source_base := None; c_fetch_map := None;
  c_tal_files := []; c_scripts := []; c_reject := false; c_offline := false |}.
Lemma off_setting i : i <= 2 -> setting off_config base name (env3 i) (tree3 i).
Proof.
  intros Hi. assert (Hsp : same_places demo_config off_config) by done. split.
  - apply (places_cfg demo_config off_config base name Hsp). apply demo_cfg_ok.
  - apply (mirror_places _ demo_config _ _ _ _ Hsp), mirror3. lia.
  - split; [|apply safe_clean]. intros n Ho. change (offers demo_config (env3 i) (tree3 i) n) in Ho.
    apply env3_offers in Ho as ->; [apply src3_good|done].
Qed.
Example C60_applies : setting off_config base name (env3 1) (tree3 1) /\ c_rsync_disable off_config = true /\
  after (run off_config (env3 1) (tree3 1)) ∈ instants off_config (env3 1) (tree3 1) /\
  tree3 1 !! current_path off_config = Some (Link (dir_name rev3)) /\
  n_serial <$> shown (after (run off_config (env3 1) (tree3 1))) = Some 5%N.
Proof.
  split; [exact (off_setting 1 (le_S _ _ (le_n 1)))|]. split; [reflexivity|]. split; [apply after_instant|]. split; [vmd|].
  apply (bool_decide_eq_true_1 _). vme.
Qed.

Lemma whole_runs3 i : i <= 3 -> whole_runs demo_config base name (tree3 i).
Proof.
  induction i as [|i IH]; intros Hi.
  - apply wr_start; [apply start_wf|done|done|]. intros d E. cbn [tree3] in E. unfold start_tree, start in E. cbn [w_fs] in E.
    apply lookup_insert_Some in E as [[E _]|[_ E]]; [done|]. apply lookup_insert_Some in E as [[E _]|[_ E]]; [done|].
    by rewrite lookup_empty in E.
  - destruct (ran3 i ltac:(lia)) as (w & H1 & H2). rewrite <- H2.
    eapply (wr_run _ _ _ _ demo_config (env3 i)); [apply IH; lia|done|apply env3_good; lia|exact H1].
Qed.
(** two old directories and the current one *)
Example C61_applies : cfg_ok demo_config base name /\ whole_runs demo_config base name (tree3 3) /\
  tree3 3 !! rev_dir demo_config rev3 = Some Dir /\ tree3 3 !! rev_dir demo_config rev5 = Some Dir /\
  tree3 3 !! current_path demo_config = Some (Link (dir_name (revision_of (src3 2)))).
Proof.
  split; [exact demo_cfg_ok|]. split; [exact (whole_runs3 3 (le_n 3))|]. split; [vmd|]. split; vmd.
Qed.
(** killed while the objects of serial 5 are written; the source goes on to
    another session *)
Definition left5 : fs := killed_when demo_config (env3 1) (tree3 1) (fun g => bool_decide (g !! rev_dir demo_config rev5 = Some Dir)).
Definition unrecorded (f : fs) (r : revision) : bool :=
  match f !! rsync_state_path demo_config with
  | Some (File b _) =>
      match rsync_state_parse b with
      | Some rs => bool_decide (rs_current rs <> Some r) && forallb (fun o => bool_decide (or_rev o <> r)) (rs_old rs)
      | None => false
      end
  | _ => false
  end.
Lemma unrecorded_ok f r : unrecorded f r = true -> exists rs, recorded_rsync demo_config f rs /\
  rs_current rs <> Some r /\ (forall o, o ∈ rs_old rs -> or_rev o <> r).
Proof.
  unfold unrecorded. destruct (f !! rsync_state_path demo_config) as [[b m| |]|] eqn:E; try done.
  destruct (rsync_state_parse b) as [rs|] eqn:Ep; [|done]. intros [H1%bool_decide_eq_true_1 H2]%andb_true_iff.
  exists rs. split; [right; by exists b, m|]. split; [done|]. intros o Ho. rewrite forallb_forall in H2.
  apply elem_of_list_In, H2 in Ho. by apply bool_decide_eq_true_1 in Ho.
Qed.
Lemma unrecorded_not f r : unrecorded f r = true -> f !! rev_dir demo_config r = Some Dir -> ~ accounted demo_config f.
Proof.
  intros (rs & H1 & H2 & H3)%unrecorded_ok Hd (rs' & H4 & H5). rewrite <- (recorded_unique _ _ _ _ H1 H4) in H5.
  destruct (H5 _ Hd) as [E|[E|(r' & Hr & E)]]; [by apply rev_dir_name in E|by apply rev_dir_name in E|].
  apply dir_name_inj in E as <-. destruct Hr as [Hr|(o & Ho & Hr)]; [done|]. by apply (H3 o).
Qed.
Definition left_check (f : fs) (r : res unit * world) : bool :=
  bool_decide (f !! rev_dir demo_config rev5 = Some Dir) && unrecorded f rev5 &&
  (ok_b r && bool_decide (w_fs r.2 !! rev_dir demo_config rev5 = Some Dir) && unrecorded (w_fs r.2) rev5).
Lemma left5_check : left_check left5 (run demo_config (env3 2) left5) = true.
Proof. vme. Qed.
Lemma left_ok f r : left_check f r = true ->
  (f !! rev_dir demo_config rev5 = Some Dir /\ unrecorded f rev5 = true) /\
  exists w, r = (Ok tt, w) /\ w_fs w !! rev_dir demo_config rev5 = Some Dir /\ unrecorded (w_fs w) rev5 = true.
Proof.
  unfold left_check. intros [[H1%bool_decide_eq_true_1 H2]%andb_true_iff [[H3 H4%bool_decide_eq_true_1]%andb_true_iff H5]%andb_true_iff]%andb_true_iff.
  split; [done|]. destruct (ok_b_ok r H3) as (w & -> & _). by exists w.
Qed.
Lemma left_setting : setting demo_config base name (env3 2) left5.
Proof.
  split; [exact demo_cfg_ok| |exact (env3_good 2 left5 (le_n 2))].
  eapply (mi_run _ _ _ _ (tree3 1) demo_config (env3 1));
    [exact (mirror3 1 (le_S _ _ (le_S _ _ (le_n 1))))|apply same_places_refl|exact (env3_good 1 (tree3 1) (le_S _ _ (le_n 1)))|done|apply killed_instant].
Qed.
Theorem C61_killed_refuted : exists g w, g ∈ instants demo_config (env3 1) (tree3 1) /\ accounted demo_config (tree3 1) /\
  run demo_config (env3 2) g = (Ok tt, w) /\ w_fs w !! rev_dir demo_config rev5 = Some Dir /\ ~ accounted demo_config (w_fs w).
Proof.
  destruct (left_ok _ _ left5_check) as [_ (w & H1 & H2 & H3)]. exists left5, w. split; [apply killed_instant|].
  split; [exact (C61_history _ _ _ _ demo_cfg_ok (whole_runs3 1 (le_S _ _ (le_S _ _ (le_n 1)))))|]. split; [exact H1|]. split; [exact H2|].
  exact (unrecorded_not _ _ H3 H2).
Qed.
Example C61_leftover_applies : setting demo_config base name (env3 2) left5 /\
  (exists rs, recorded_rsync demo_config left5 rs /\ rs_current rs <> Some rev5 /\ forall o, o ∈ rs_old rs -> or_rev o <> rev5) /\
  (forall n, offers demo_config (env3 2) left5 n -> revision_of n <> rev5) /\
  left5 !! rev_dir demo_config rev5 = Some Dir /\ exists w, run demo_config (env3 2) left5 = (Ok tt, w).
Proof.
  destruct (left_ok _ _ left5_check) as [[H1 H2] (w & H3 & _)]. split; [exact left_setting|]. split; [exact (unrecorded_ok _ _ H2)|].
  split; [|split; [exact H1|exists w; exact H3]]. intros n Hn. rewrite (env3_offers 2 left5 n (le_n 2) Hn). discriminate.
Qed.

Print Assumptions C59_rsync_first.
Print Assumptions C59_link_first.
Print Assumptions C59_never_behind.
Print Assumptions C60_rsync_off.
Print Assumptions C61_accounted.
Print Assumptions C61_history.
Print Assumptions C61_leftover.
Print Assumptions C61_killed_refuted.
