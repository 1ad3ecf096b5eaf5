(** * What is parsed before it is published: C74 *)
From Coq Require Import ZifyN ZifyNat ZifyBool.
From Verif Require Import RsyncRun DemoRun Refuted PropsClean PropsRsync PropsOrder.
From Verif Require Import FsWf HistoryProofs PropsHistory.

(** the two worlds read notification files in the same way and have the same
    hash function; what else they make of the content of a file only has to be
    the same when rsync is enabled, and then not for delta files *)
Record read_alike (c : config) (x x' : ext) : Prop := {
  ra_hash : x_hash x = x_hash x';
  ra_uri : x_https_ok x = x_https_ok x';
  ra_notif : x_parse_notif x = x_parse_notif x';
  ra_write : x_write_notif x = x_write_notif x';
  ra_last : x_sav_last x = x_sav_last x';
  ra_rsync : c_rsync_disable c = false ->
    x_snapshot x = x_snapshot x' /\ x_cert x = x_cert x' /\ x_crl x = x_crl x' /\ x_sigobj x = x_sigobj x' }.

(** ** The two runs side by side *)
Section same.
  Context (e : env) (x' : ext).
  Let e' := with_ext e x'.
  Let x := e_ext e.

  Definition same {A} (m : M A) : Prop := forall w, m e w = m e' w.

  Lemma same_pure {A} (r : fs -> res A) : same (fun _ w => (r (w_fs w), w)).
  Proof. done. Qed.
  Lemma same_ret {A} (a : A) : same (mret a).
  Proof. done. Qed.
  Lemma same_fail {A} er : same (@fail A er).
  Proof. done. Qed.
  Lemma same_panic {A} : same (@panic A).
  Proof. done. Qed.
  Lemma same_exists p : same (f_exists p).
  Proof. done. Qed.
  Lemma same_of_option {A} er (o : option A) : same (of_option er o).
  Proof. by destruct o. Qed.
  Lemma same_bind {A B} (m : M A) (k : A -> M B) : same m -> (forall a, same (k a)) -> same (m ≫= k).
  Proof.
    intros Hm Hk w. unfold mbind, M_bind. rewrite <- (Hm w). destruct (m e w) as [[a| |] w1]; [apply Hk|done|done].
  Qed.
  Lemma same_ext {A} (k : ext -> M A) : (forall w, k x e w = k x' e' w) -> same (getext ≫= k).
  Proof. intros H w. unfold mbind, M_bind. apply H. Qed.
  Lemma same_catch {A} (m : M A) : same m -> same (catch m).
  Proof. intros Hm w. unfold catch. by rewrite (Hm w). Qed.
  Lemma same_step k op : same (fs_step k op).
  Proof. done. Qed.
  Lemma same_read p : same (f_read p).
  Proof. done. Qed.
  Lemma same_clock : same clock.
  Proof. done. Qed.
  Lemma same_http u m g : same (http_get u m g).
  Proof. done. Qed.
  Lemma same_script p : same (run_script p).
  Proof. done. Qed.
  Lemma same_sleep s : same (sleep s).
  Proof. done. Qed.
  Lemma same_for_each {A} (l : list A) k : (forall a, same (k a)) -> same (for_each l k).
  Proof. intros Hk. induction l as [|a l IH]; cbn [for_each]; [apply same_ret|]. apply same_bind; [apply Hk|]. by intros _. Qed.
  Lemma same_fold {A B} (k : B -> A -> M B) l : (forall b a, same (k b a)) -> forall b, same (fold_m k b l).
  Proof. intros Hk. induction l as [|a l IH]; intros b; cbn [fold_m]; [apply same_ret|]. apply same_bind; [apply Hk|]. auto. Qed.
End same.

Ltac same1 :=
  lazymatch goal with
  | |- same _ _ (mret _) => apply same_ret
  | |- same _ _ (fail _) => apply same_fail
  | |- same _ _ panic => apply same_panic
  | |- same _ _ (f_exists _) => apply same_exists
  | |- same _ _ (of_option _ _) => apply same_of_option
  | |- same _ _ (getext ≫= _) => fail "ext"
  | |- same _ _ (_ ≫= _) => apply same_bind; [|intros ?]
  | |- same _ _ (catch _) => apply same_catch
  | |- same _ _ (fs_step _ _) => apply same_step
  | |- same _ _ (f_read _) => apply same_read
  | |- same _ _ clock => apply same_clock
  | |- same _ _ (http_get _ _ _) => apply same_http
  | |- same _ _ (run_script _) => apply same_script
  | |- same _ _ (sleep _) => apply same_sleep
  | |- same _ _ (for_each _ _) => apply same_for_each; intros ?
  | |- same _ _ (fold_m _ _ _) => apply same_fold; first [intros [? ?] [? ?] | intros [? ?] ? | intros ? ?]
  | |- same _ _ (when_ ?b _) => destruct b; cbn [when_]
  | |- same _ _ (unless_ ?b _) => destruct b; cbn [unless_]
  | |- same _ _ (let '(_, _) := ?p in _) => destruct p
  | |- same _ _ (match ?x with _ => _ end) => destruct x
  end.
Create HintDb same.
Ltac sames := repeat first [same1 | done | progress cbv zeta | solve [eauto with same]].

(** the continuation no longer mentions the world *)
Ltac settle := intros w; match goal with |- ?m ?e ?w = ?m (with_ext ?e ?x') ?w => revert w; change (same e x' m) end.

Section walk.
  Context (c : config) (e : env) (x' : ext) (Hx : read_alike c (e_ext e) x').
  Notation same := (same e x').

  (** the parts of the world that are the same in both may be taken from either *)
  Lemma same_hash : hash_matches (e_ext e) = hash_matches x'.
  Proof using Hx. unfold hash_matches. by rewrite (ra_hash _ _ _ Hx). Qed.
  Lemma same_join : https_join (e_ext e) = https_join x'.
  Proof using Hx. unfold https_join. by rewrite (ra_uri _ _ _ Hx). Qed.
  Lemma same_sav : sort_and_verify (e_ext e) = sort_and_verify x'.
  Proof using Hx. unfold sort_and_verify. by rewrite (ra_last _ _ _ Hx). Qed.

  Lemma same_create_dir_all p : same (create_dir_all p).
  Proof. unfold create_dir_all, f_mkdir. sames. Qed.
  Hint Resolve same_create_dir_all : same.
  Lemma same_create_path p : same (create_path_for_file p).
  Proof. unfold create_path_for_file. sames. Qed.
  Hint Resolve same_create_path : same.
  Lemma same_write_buf p b : same (write_buf p b).
  Proof. unfold write_buf, f_write. sames. Qed.
  Lemma same_move_file a b r : same (move_file a b r).
  Proof. unfold move_file, f_rename, f_copy, f_remove_file. sames. Qed.
  Lemma same_remove_up rp : same (remove_up rp).
  Proof. induction rp as [|a rp IH]; cbn [remove_up]; unfold f_remove_file, f_remove_dir; sames. Qed.
  Lemma same_remove p : same (remove_file_and_empty_parent_dirs p).
  Proof. apply same_remove_up. Qed.
  Lemma same_read_file p : same (read_file p).
  Proof. apply same_read. Qed.
  Hint Resolve same_write_buf same_move_file same_remove same_read_file : same.
  Lemma same_fetch_raw s g : same (fetch_raw s g).
  Proof. unfold fetch_raw. sames. Qed.
  Hint Resolve same_fetch_raw : same.
  Lemma same_fetch s h g t : same (fetch s h g t).
  Proof using Hx.
    unfold fetch. same1; [sames|]. apply same_ext. rewrite <- same_hash.
    settle. sames.
  Qed.
  Lemma same_source_join s r : same (source_join s r).
  Proof using Hx.
    unfold source_join. destruct s; [sames|]. apply same_ext. rewrite <- same_join.
    settle. sames.
  Qed.
  Hint Resolve same_fetch same_source_join : same.
  Lemma same_resolve f u : same (resolve_source f u).
  Proof using Hx. unfold resolve_source, map_source. sames. Qed.
  Hint Resolve same_resolve : same.
  Lemma same_read_notif f g : same (read_notification_file f g).
  Proof using Hx.
    unfold read_notification_file. same1; [sames|]. same1; [sames|]. same1; [|sames..]. apply same_ext.
    rewrite <- (ra_notif _ _ _ Hx).
    settle. sames.
  Qed.
  Lemma same_retrieve f u h t : same (retrieve_file f u h t).
  Proof using Hx.
    unfold retrieve_file. apply same_ext. rewrite <- same_hash.
    settle. sames.
  Qed.
  Hint Resolve same_read_notif same_retrieve : same.
  Lemma same_content r : same (notif_content r).
  Proof. unfold notif_content. sames. Qed.
  Hint Resolve same_content : same.
  Lemma same_source s f : same (notif_source_fetch s f).
  Proof using Hx. unfold notif_source_fetch. sames. Qed.
  Lemma same_relative m u : same (mp_relative m u).
  Proof. unfold mp_relative. sames. Qed.
  Hint Resolve same_source same_relative : same.
  Lemma same_snapshot_stage st n f : same (snapshot_stage st n f c).
  Proof using Hx. unfold snapshot_stage, time_now. sames. Qed.
  Lemma same_deltas_stage st r f l : same (deltas_stage st r f c l).
  Proof using Hx. induction l as [|d l IH]; cbn [deltas_stage]; unfold time_now; sames. Qed.
  Hint Resolve same_snapshot_stage same_deltas_stage : same.
  Lemma same_update_staged st : same (update_staged st c).
  Proof using Hx.
    unfold update_staged. cbv zeta. same1; [sames|]. same1; [|sames]. same1. apply same_ext.
    rewrite <- same_sav, <- (ra_write _ _ _ Hx).
    settle. sames.
  Qed.
  Lemma same_load_state : same (load_state c).
  Proof. unfold load_state, recover, create, notif_source_build, mappings_build. sames. Qed.
  Lemma same_pre_validate st : c_tal_files c = [] -> same (pre_validate st c).
  Proof. intros Ht w. unfold pre_validate, reconfigure_validator. by rewrite Ht. Qed.
  Lemma same_run_scripts l : forall b, same (run_scripts l b).
  Proof. induction l as [|p l IH]; intros b; cbn [run_scripts]; sames. Qed.
  Hint Resolve same_run_scripts : same.
  Lemma same_scripts : same (pre_validate_scripts c).
  Proof. unfold pre_validate_scripts. sames. Qed.
  Lemma same_deprecate_all l : same (deprecate_all l).
  Proof. induction l as [|p l IH]; cbn [deprecate_all]; unfold deprecate_now, time_now; sames. Qed.
  Hint Resolve same_deprecate_all : same.
  Lemma same_clean st : same (clean st c).
  Proof. unfold clean, seconds_ago, time_now. sames. Qed.
  Hint Resolve same_clean : same.
  Lemma same_apply st sg : same (apply_staged_changed st sg c).
  Proof. unfold apply_staged_changed, deprecate_snapshot, deprecate_now, time_now, deltas_deprecate_all, deltas_deprecate_before. sames. Qed.
  Lemma same_mp_uri m r : same (mp_uri m r).
  Proof using Hx.
    unfold mp_uri. apply same_ext. rewrite <- same_join.
    settle. sames.
  Qed.
  Hint Resolve same_mp_uri : same.
  Lemma same_delta_infos m l : same (delta_infos m l).
  Proof using Hx. induction l as [|p l IH]; cbn [delta_infos]; sames. Qed.
  Hint Resolve same_delta_infos : same.
  Lemma same_make st : same (make_notification_file st).
  Proof using Hx. unfold make_notification_file. sames. Qed.
  Hint Resolve same_make : same.
  Lemma same_write_notification st d : same (write_notification st d).
  Proof using Hx.
    unfold write_notification, f_rename. repeat same1; try solve [sames]. all: try (apply same_ext; rewrite <- (ra_write _ _ _ Hx);
    settle; sames).
  Qed.
  Lemma same_rsync st : rsync_enabled c = true -> same (update_from_rrdp_state st c).
  Proof using Hx.
    intros Hr. destruct (ra_rsync _ _ _ Hx) as (R1 & R2 & R3 & R4); [unfold rsync_enabled in Hr; by destruct (c_rsync_disable c)|].
    assert (Hf : forall p b, same (fix_since p b)).
    { intros p b. unfold fix_since. apply same_ext. unfold object_time. rewrite <- R2, <- R3, <- R4.
      settle. unfold f_set_mtime. sames. }
    assert (Hp : forall i o s, same (for_snapshot_path i o s)).
    { intros i o s. unfold for_snapshot_path, publish. same1; [sames|]. apply same_ext. rewrite <- R1.
      settle. sames. }
    unfold update_from_rrdp_state, rsync_recover, create_out_path_if_missing,
      symlink_current, rename_new_revision, update_current, clean_old, rsync_persist, seconds_ago, time_now,
      f_symlink, f_rename, f_remove_file, f_remove_dir_all. sames.
  Qed.
  Lemma same_persist st p : same (persist st p).
  Proof. apply same_write_buf. Qed.
  Hint Resolve same_update_staged same_load_state same_pre_validate same_scripts same_apply same_write_notification same_persist : same.
  Lemma same_process : c_tal_files c = [] -> same (process c).
  Proof using Hx.
    intros Ht. unfold process, publish_staged. same1; [sames|]. same1; [sames|]. same1; [|sames].
    same1; [by apply same_pre_validate|]. same1; [sames|]. same1; [sames|]. same1.
    { destruct (rsync_enabled c) eqn:E; cbn [when_]; [by apply same_rsync|sames]. }
    sames.
  Qed.
End walk.

Section seen.
  Context (c : config) (base name : string) (e : env) (f : fs) (Hs : sane c base name e f).
  Let Hc : cfg_ok c base name := sn_cfg _ _ _ _ _ Hs.

  (** when a new notification is there the files it names are as they were when
      the snapshot was read *)
  Lemma seen_files g : g ∈ instants c e f -> g !! notif_path c name <> f !! notif_path c name ->
    exists st n0 n sg f1 v st' f2 cb st2 f3 f4 n',
      at_notify c base name e f st n0 n sg f1 v st' f2 cb st2 f3 f4 /\ notif_of base st2 n' /\
      g !! notif_path c name = Some (File (x_write_notif (e_ext e) n') None) /\
      (n_session n' = n_session n0 /\ n_serial n' = n_serial n0 /\
       n_snap_uri n' = n_snap_uri n0 /\ n_snap_hash n' = n_snap_hash n0) /\
      forall p, under (c_rrdp_dir c) p -> p <> notif_path c name -> p <> notif_tmp c name -> view g p = view f3 p.
  Proof using Hs.
    intros Hg Hne. apply (instant_phase c base name e f Hs) in Hg.
    assert (Hver : forall st n0 n sg f1 v st' f2 cb st2 f3 n', at_rsync c base name e f st n0 n sg f1 v st' f2 cb st2 f3 ->
      notif_of base st2 n' -> n_session n' = n_session n0 /\ n_serial n' = n_serial n0 /\
        n_snap_uri n' = n_snap_uri n0 /\ n_snap_hash n' = n_snap_hash n0).
    { intros st n0 n sg f1 v st' f2 cb st2 f3 n' Ha (s & Hs1 & ->).
      destruct (new_deltas c base name e f _ _ _ _ _ _ _ _ _ _ _ Ha) as [_ Hsn].
      rewrite Hs1 in Hsn. injection Hsn as ->.
      pose proof (ar_clean _ _ _ _ _ _ _ _ _ _ _ _ _ _ _ _ Ha) as Hcl.
      pose proof (ac_move _ _ _ _ _ _ _ _ _ _ _ _ _ Hcl) as Hmv.
      destruct (am_staged _ _ _ _ _ _ _ _ _ _ Hmv) as [[So1 So2] _ (S1 & S2 & S3 & S4 & _) _ _].
      destruct (sav_same _ _ _ _ _ So2) as (V1 & V2 & V3 & V4). cbn. repeat split; congruence. }
    destruct Hg as [H|st n0 n sg f1 v st' f2 cb st2 f3 f4 n' H1 Hn H2|st n0 n sg f1 v st' f2 cb st2 f3 f4 n' f5 H1 H2].
    - by rewrite (front_N c base name Hc e f Hs g H) in Hne.
    - exists st, n0, n, sg, f1, v, st', f2, cb, st2, f3, f4, n'. split; [done|]. split; [done|]. split; [|split].
      + destruct (no_notif _ _ _ _ _ H2) as [E|E]; [|done]. rewrite E in Hne.
        by rewrite (front_N c base name Hc e f Hs f4 (notify_front _ _ _ _ _ _ _ _ _ _ _ _ _ _ _ _ _ H1)) in Hne.
      + eapply Hver; [apply H1|done].
      + intros p Hp HN Ht. rewrite (notify_view c name _ _ _ p HN Ht H2). apply (rsync_view c base name e f Hs); [done|apply H1].
    - exists st, n0, n, sg, f1, v, st', f2, cb, st2, f3, f4, n'. split; [apply H1|]. split; [apply H1|]. split; [|split].
      + rewrite (save_N c base name Hc _ _ _ H2). apply H1.
      + eapply Hver; [apply H1|apply H1].
      + intros p Hp HN Ht. by eapply (final_view c base name e f Hs).
  Qed.
End seen.

(** ** C74: what a run reads in the files it publishes *)
(** Without trust anchors a run does not depend on what a delta file says, and
    with rsync disabled not on what a snapshot says either: two worlds that
    differ in nothing else give the same run, with the same requests, the same
    trees at every instant, and the same outcome. *)
Theorem C74_not_read c e x' f :
  c_tal_files c = [] -> read_alike c (e_ext e) x' -> run c (with_ext e x') f = run c e f.
Proof. intros Ht Hx. symmetry. by apply (same_process c e x' Hx Ht). Qed.

(** With rsync enabled the snapshot is read to its end before the notification
    changes, and every object in it could be decoded. *)
Theorem C74_snapshot_read c base name e f g :
  setting c base name e f -> c_rsync_disable c = false ->
  g ∈ instants c e f -> g !! notif_path c name <> f !! notif_path c name ->
  exists n rel b els, snapshot_doc c base name e f n rel b els /\
    announces c name (e_ext e) g n /\
    (forall u data, (u, data) ∈ els -> data <> None) /\
    (forall b' m, g !! public_path c rel = Some (File b' m) -> b' = b).
Proof.
  intros Hs%setting_sane Hr%enabled Hg Hne. pose proof (sn_cfg _ _ _ _ _ Hs) as Hc.
  destruct (seen_files c base name e f Hs g Hg Hne)
    as (st & n0 & n & sg & f1 & v & st' & f2 & cb & st2 & f3 & f4 & n' & Hn & Hnf & HN & Hver & Hvw).
  destruct (an_step _ _ _ _ _ _ _ _ _ _ _ _ _ _ _ _ _ Hn Hr) as (snap & rs & g1 & b & els & g2 & g3 & rs1 & cy & g4 & Hd).
  pose proof (an_rsync _ _ _ _ _ _ _ _ _ _ _ _ _ _ _ _ _ Hn) as Ha.
  pose proof (rd_pub _ _ _ _ _ _ _ _ _ _ _ _ _ _ _ Hd) as Hp.
  destruct (published_source c base name e f Hs _ _ _ _ _ _ _ _ _ _ _ _ _ _ _ _ _ Ha Hp) as (Hsf & Hrv & Hrd).
  exists n0, (ss_rel snap), b, els. split; [by apply source_doc|]. split; [by exists n', None|]. split.
  - intros u data Hin ->. by destruct (rp_all _ _ _ _ _ _ _ _ _ _ Hp u None Hin).
  - intros b' m Hb'. destruct (sf_good _ _ _ _ _ _ _ _ _ Hsf) as (G1 & G2 & G3).
    apply view_file in Hb'. rewrite Hvw in Hb'.
    2: { apply under_app. }
    2: { unfold public_path, notif_path. intros Ex%app_inv_head. rewrite Ex in G2. done. }
    2: { unfold public_path, notif_tmp. intros Ex%app_inv_head. rewrite Ex in G3. done. }
    apply view_file in Hb'. unfold op_read, fs_stat in Hrd. rewrite fs_get_nonroot in Hrd.
    { rewrite Hb' in Hrd. by injection Hrd as ->. }
    intros Ex. unfold public_path in Ex. apply app_eq_nil in Ex as [_ Ex]. by apply split_on_nonempty in Ex.
Qed.

(** ** Examples *)
(** a source whose delta is not a delta, and one whose snapshot is no snapshot *)
Definition odd_notif (s d : string) : notification :=
  mkNotif uuid_A 3 (base +:+ snap_rel uuid_A 3) (demo_hash s) [mkDI 3 (base +:+ delta_rel uuid_A 3) (demo_hash d)].
Definition odd_docs (s d : string) : list (string * string) :=
  [(notif_uri, json_text (j_notif (odd_notif s d))); (base +:+ snap_rel uuid_A 3, s); (base +:+ delta_rel uuid_A 3, d)].
Definition odd_env (s d : string) : env := run_env (odd_docs s d) 0.
Definition odd_delta : env := odd_env (snap_doc uuid_A 3) "<delta".
Definition odd_snap : env := odd_env "<snapshot" "<delta".
Lemma odd_setting c s d : c = demo_config \/ c = off_config ->
  bool_decide (x_parse_notif safe_ext (json_text (j_notif (odd_notif s d))) = Some (odd_notif s d)) = true ->
  good_check (odd_notif s d) = true ->
  setting c base name (odd_env s d) start_tree.
Proof.
  intros Hcc Hp%bool_decide_eq_true Hg. split.
  - destruct Hcc as [->| ->]; [apply demo_cfg_ok|]. apply (places_cfg demo_config off_config base name); [done|apply demo_cfg_ok].
  - destruct Hcc as [->| ->]; (apply mi_start; [apply start_wf|done]).
  - split; [|apply safe_clean]. intros n Ho. apply serve_offers in Ho as (b & H1 & H2); [|by destruct Hcc as [->| ->]..].
    change (Some (json_text (j_notif (odd_notif s d))) = Some b) in H1. injection H1 as <-. rewrite Hp in H2. injection H2 as <-.
    by apply good_check_ok.
Qed.
Definition odd_check (c : config) (e : env) (rel : string) (n : notification) (b : string) : bool :=
  let r := run c e start_tree in
  ok_b r && at_b (after r) (notif_path c name) (Some (File (x_write_notif safe_ext n) None)) &&
  match after r !! public_path c rel with Some (File b' _) => String.eqb b' b | _ => false end.
Lemma odd_check_ok c e rel n b : odd_check c e rel n b = true ->
  exists w, run c e start_tree = (Ok tt, w) /\
    w_fs w !! notif_path c name = Some (File (x_write_notif safe_ext n) None) /\
    exists m, w_fs w !! public_path c rel = Some (File b m).
Proof.
  unfold odd_check. cbv zeta. intros [[H1 H2%at_ok]%andb_true_iff H3]%andb_true_iff. unfold ok_b in H1. unfold after in H2, H3.
  destruct (run c e start_tree) as [[[]| |] w]; cbn [fst snd] in *; [|done|done]. exists w. split; [done|]. split; [done|].
  destruct (w_fs w !! public_path c rel) as [[b' m| |]|]; [|done|done|done]. apply String.eqb_eq in H3 as ->. by exists m.
Qed.

(** The README says that a run fails when a file cannot be parsed.  It does not
    for a delta: the run completes, and the notification announces the file. *)
Theorem C74_delta_refuted : exists c base name e f w n d rel b m,
  setting c base name e f /\ c_tal_files c = [] /\ c_rsync_disable c = false /\
  run c e f = (Ok tt, w) /\
  w_fs w !! notif_path c name = Some (File (x_write_notif (e_ext e) n) None) /\
  d ∈ n_deltas n /\ di_uri d = base +:+ rel /\
  w_fs w !! public_path c rel = Some (File b m) /\ x_delta (e_ext e) b = None.
Proof.
  destruct (odd_check_ok demo_config odd_delta (delta_rel uuid_A 3) (odd_notif (snap_doc uuid_A 3) "<delta") "<delta")
    as (w & H1 & H2 & m & H3); [vme|].
  exists demo_config, base, name, odd_delta, start_tree, w, (odd_notif (snap_doc uuid_A 3) "<delta").
  eexists _, (delta_rel uuid_A 3), "<delta", m.
  split; [apply odd_setting; [by left|by vm_compute..]|]. split; [done|]. split; [done|]. split; [exact H1|]. split; [exact H2|].
  split; [apply elem_of_list_singleton; reflexivity|]. split; [done|]. split; [exact H3|]. by vm_compute.
Qed.

(** Nor does it, with rsync disabled, for a snapshot. *)
Theorem C74_snapshot_refuted : exists c base name e f w n rel b m,
  setting c base name e f /\ c_tal_files c = [] /\ c_rsync_disable c = true /\
  run c e f = (Ok tt, w) /\
  w_fs w !! notif_path c name = Some (File (x_write_notif (e_ext e) n) None) /\
  n_snap_uri n = base +:+ rel /\
  w_fs w !! public_path c rel = Some (File b m) /\ (x_snapshot (e_ext e) b).2 = false.
Proof.
  destruct (odd_check_ok off_config odd_snap (snap_rel uuid_A 3) (odd_notif "<snapshot" "<delta") "<snapshot")
    as (w & H1 & H2 & m & H3); [vme|].
  exists off_config, base, name, odd_snap, start_tree, w, (odd_notif "<snapshot" "<delta"), (snap_rel uuid_A 3), "<snapshot", m.
  split; [apply odd_setting; [by right|by vm_compute..]|]. split; [done|]. split; [done|]. split; [exact H1|]. split; [exact H2|].
  split; [done|]. split; [exact H3|]. by vm_compute.
Qed.

(** a world in which every delta can be read, in which no snapshot and no
    certificate can *)
Definition other_ext : ext := {|
  x_hash := demo_hash; x_https_ok := x_https_ok safe_ext; x_parse_notif := x_parse_notif safe_ext;
  x_write_notif := x_write_notif safe_ext; x_sav_last := x_sav_last safe_ext; x_snapshot := fun _ => ([], false);
  x_delta := fun _ => Some []; x_cert := fun _ => None; x_crl := fun _ => None; x_sigobj := fun _ => None;
  x_mft := fun _ => None; x_roa := fun _ => None; x_aspa := fun _ => None; x_ta_valid := x_ta_valid demo_ext;
  x_mft_valid := x_mft_valid demo_ext; x_crl_signed := x_crl_signed demo_ext; x_ca_valid := x_ca_valid demo_ext;
  x_router_valid := x_router_valid demo_ext; x_roa_valid := x_roa_valid demo_ext;
  x_aspa_valid := x_aspa_valid demo_ext; x_order := x_order demo_ext; x_tal := x_tal demo_ext |}.
Example C74_not_read_applies :
  c_tal_files off_config = [] /\ read_alike off_config (e_ext (env3 1)) other_ext /\
  x_snapshot other_ext (snap_doc uuid_A 5) <> x_snapshot (e_ext (env3 1)) (snap_doc uuid_A 5) /\
  x_delta other_ext "<delta" <> x_delta (e_ext (env3 1)) "<delta" /\
  run off_config (with_ext (env3 1) other_ext) (tree3 1) = run off_config (env3 1) (tree3 1).
Proof.
  assert (H : read_alike off_config (e_ext (env3 1)) other_ext) by (split; done).
  split; [done|]. split; [exact H|]. split; [by vm_compute|]. split; [by vm_compute|]. exact (C74_not_read off_config (env3 1) other_ext (tree3 1) eq_refl H).
Qed.
(** with rsync enabled the same snapshot makes the run fail, before anything is
    announced *)
Definition odd_fails : bool :=
  let r := run demo_config odd_snap start_tree in
  negb (ok_b r) && forallb (fun g => at_b g (notif_path demo_config name) None) (instants demo_config odd_snap start_tree).
Example C74_snapshot_read_applies :
  setting demo_config base name odd_delta start_tree /\ c_rsync_disable demo_config = false /\
  after (run demo_config odd_delta start_tree) ∈ instants demo_config odd_delta start_tree /\
  after (run demo_config odd_delta start_tree) !! notif_path demo_config name <> start_tree !! notif_path demo_config name /\
  odd_fails = true.
Proof.
  split; [apply odd_setting; [by left|by vm_compute..]|]. split; [done|]. split; [apply after_instant|]. split; [|vme].
  destruct (odd_check_ok demo_config odd_delta (delta_rel uuid_A 3) (odd_notif (snap_doc uuid_A 3) "<delta") "<delta")
    as (w & H1 & H2 & _); [vme|]. unfold after. rewrite H1. change ((Ok tt, w).2) with w. rewrite H2. discriminate.
Qed.

Print Assumptions C74_not_read.
Print Assumptions C74_snapshot_read.
Print Assumptions C74_delta_refuted.
Print Assumptions C74_snapshot_refuted.
