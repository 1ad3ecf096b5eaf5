(** * The notification URI is changed: C79 *)
From Coq Require Import ZifyN ZifyNat ZifyBool.
From Verif Require Import ConfigProofs Blind CoarseProofs RunView RunFate PropsPanic PropsHoldsFresh PropsRequests PropsSupply.
From Verif Require Import PropsDecide ReadBack PropsHoldsRequests PropsHoldsFresh.
From Verif Require Import PropsRun DemoRun Refuted FsWf HistoryProofs PropsHistory.

(** ** Specification *)
(** the same command line with another notification URI *)
Definition with_notif (c : config) (uri : https) : config := {|
  c_verbose := c_verbose c; c_quiet := c_quiet c; c_state_dir := c_state_dir c; c_rrdp_dir := c_rrdp_dir c;
  c_notify_delay := c_notify_delay c; c_max_deltas := c_max_deltas c; c_rsync_dir := c_rsync_dir c;
  c_force_moves := c_force_moves c; c_rsync_disable := c_rsync_disable c; c_include_host := c_include_host c;
  c_cleanup_after := c_cleanup_after c; c_insecure := c_insecure c; c_notif_uri := uri;
  c_source_base := c_source_base c; c_fetch_map := c_fetch_map c; c_tal_files := c_tal_files c; c_scripts := c_scripts c;
  c_reject := c_reject c; c_offline := c_offline c |}.
(** the same world, but asked for [u] the source answers as to a request for [u'] *)
Definition answering (e : env) (u u' : https) : env :=
  with_http e (fun k v m t => if decide (v = u) then e_http e k u' m t else e_http e k v m t).

(** ** The two runs side by side *)
Lemma located_inj x F v v' u m : located x F v = Some (SUri u m) -> located x F v' = Some (SUri u m) -> v = v'.
Proof.
  unfold located. destruct (fe_map F) as [fm|]; [|congruence].
  destruct (strip_prefix (fm_base fm) v) as [r|] eqn:E; [|done].
  destruct (strip_prefix (fm_base fm) v') as [r'|] eqn:E'; [|by destruct (fm_fetch fm)].
  apply strip_prefix_spec in E, E'. destruct (fm_fetch fm) as [|b md]; [done|].
  unfold https_join. cbv zeta. destruct (x_https_ok x (b +:+ _ +:+ r)); [|done]. destruct (x_https_ok x (b +:+ _ +:+ r')); [|done].
  cbn. intros [= H1 H2] [= H3 H4]. rewrite <- H3 in H1. apply sapp_inv_head, sapp_inv_head in H1. congruence.
Qed.

Section sim.
  Context (e e1 : env) (Hx : e_ext e1 = e_ext e) (Hck : e_clock e1 = e_clock e) (Hft : e_fault e1 = e_fault e)
    (Hsc : e_script e1 = e_script e) (Hst : e_stack e1 = e_stack e).

  (** programs that ask for nothing *)
  Definition dry {A} (m : M A) : Prop := forall w, m e w = m e1 w.
  Lemma dry_bind {A B} (m : M A) (k : A -> M B) : dry m -> (forall a, dry (k a)) -> dry (m ≫= k).
  Proof. intros Hm Hk w. unfold mbind, M_bind. rewrite <- (Hm w). destruct (m e w) as [[a| |] w1]; [apply Hk|done|done]. Qed.
  Lemma dry_catch {A} (m : M A) : dry m -> dry (catch m).
  Proof. intros Hm w. unfold catch. by rewrite (Hm w). Qed.
  Lemma dry_ret {A} (a : A) : dry (mret a).
  Proof. done. Qed.
  Lemma dry_getext : dry getext.
  Proof using Hx. intros w. unfold getext. by rewrite Hx. Qed.
  Lemma dry_of_option {A} er (o : option A) : dry (of_option er o).
  Proof. by destruct o. Qed.
  Lemma dry_step k op : dry (fs_step k op).
  Proof using Hft. intros w. unfold fs_step. by rewrite Hft. Qed.
  Lemma dry_read p : dry (f_read p).
  Proof using Hft. intros w. unfold f_read. by rewrite Hft. Qed.
  Lemma dry_clock : dry clock.
  Proof using Hck. intros w. unfold clock. by rewrite Hck. Qed.
  Lemma dry_script p : dry (run_script p).
  Proof using Hsc. intros w. unfold run_script. by rewrite Hsc. Qed.
  Lemma dry_for_each {A} (l : list A) k : (forall a, dry (k a)) -> dry (for_each l k).
  Proof. intros Hk. induction l as [|a l IH]; cbn [for_each]; [apply dry_ret|]. apply dry_bind; [apply Hk|]. by intros _. Qed.
  Lemma dry_fold {A B} (k : B -> A -> M B) l : (forall b a, dry (k b a)) -> forall b, dry (fold_m k b l).
  Proof. intros Hk. induction l as [|a l IH]; intros b; cbn [fold_m]; [apply dry_ret|]. apply dry_bind; [apply Hk|]. auto. Qed.

  Ltac dry1 :=
    lazymatch goal with
    | |- dry (mret _) => apply dry_ret
    | |- dry (fail _) => done
    | |- dry panic => done
    | |- dry (f_exists _) => done
    | |- dry (of_option _ _) => apply dry_of_option
    | |- dry getext => apply dry_getext
    | |- dry (_ ≫= _) => apply dry_bind; [|intros ?]
    | |- dry (catch _) => apply dry_catch
    | |- dry (fs_step _ _) => apply dry_step
    | |- dry (f_read _) => apply dry_read
    | |- dry clock => apply dry_clock
    | |- dry (run_script _) => apply dry_script
    | |- dry (sleep _) => done
    | |- dry (for_each _ _) => apply dry_for_each; intros ?
    | |- dry (fold_m _ _ _) => apply dry_fold; first [intros [? ?] [? ?] | intros [? ?] ? | intros ? ?]
    | |- dry (when_ ?b _) => destruct b; cbn [when_]
    | |- dry (unless_ ?b _) => destruct b; cbn [unless_]
    | |- dry (let '(_, _) := ?p in _) => destruct p
    | |- dry (match ?x with _ => _ end) => destruct x
    end.
  Create HintDb dry.
  Ltac drys := repeat first [dry1 | done | progress cbv zeta | solve [eauto with dry]].

  Lemma dry_create_dir_all p : dry (create_dir_all p).
  Proof using Hft. unfold create_dir_all, f_mkdir. drys. Qed.
  Hint Resolve dry_create_dir_all : dry.
  Lemma dry_create_path p : dry (create_path_for_file p).
  Proof using Hft. unfold create_path_for_file. drys. Qed.
  Hint Resolve dry_create_path : dry.
  Lemma dry_write_buf p b : dry (write_buf p b).
  Proof using Hft. unfold write_buf, f_write. drys. Qed.
  Lemma dry_move_file a b r : dry (move_file a b r).
  Proof using Hft. unfold move_file, f_rename, f_copy, f_remove_file. drys. Qed.
  Lemma dry_remove_up rp : dry (remove_up rp).
  Proof using Hft. induction rp as [|a rp IH]; cbn [remove_up]; unfold f_remove_file, f_remove_dir; drys. Qed.
  Lemma dry_remove p : dry (remove_file_and_empty_parent_dirs p).
  Proof using Hft. apply dry_remove_up. Qed.
  Lemma dry_read_file p : dry (read_file p).
  Proof using Hft. apply dry_read. Qed.
  Hint Resolve dry_write_buf dry_move_file dry_remove dry_read_file : dry.
  Lemma dry_run_scripts l : forall b, dry (run_scripts l b).
  Proof using Hsc. induction l as [|p l IH]; intros b; cbn [run_scripts]; drys. Qed.
  Hint Resolve dry_run_scripts : dry.
  Lemma dry_deprecate_all l : dry (deprecate_all l).
  Proof using Hck. induction l as [|p l IH]; cbn [deprecate_all]; unfold deprecate_now, time_now; drys. Qed.
  Hint Resolve dry_deprecate_all : dry.
  Lemma dry_clean st c : dry (clean st c).
  Proof using Hck Hft. unfold clean, seconds_ago, time_now. drys. Qed.
  Hint Resolve dry_clean : dry.
  Lemma dry_apply st sg c : dry (apply_staged_changed st sg c).
  Proof using Hck Hft.
    unfold apply_staged_changed, deprecate_snapshot, deprecate_now, time_now, deltas_deprecate_all, deltas_deprecate_before. drys.
  Qed.
  Lemma dry_delta_infos m l : dry (delta_infos m l).
  Proof using Hx. induction l as [|p l IH]; cbn [delta_infos]; unfold mp_uri; drys. Qed.
  Hint Resolve dry_delta_infos : dry.
  Lemma dry_make st : dry (make_notification_file st).
  Proof using Hx. unfold make_notification_file, mp_uri. drys. Qed.
  Hint Resolve dry_make : dry.
  Lemma dry_write_notification st d : dry (write_notification st d).
  Proof using Hx Hft. unfold write_notification, f_rename. drys. Qed.
  Lemma dry_rsync st c : dry (update_from_rrdp_state st c).
  Proof using Hx Hck Hft.
    assert (Hf : forall p b, dry (fix_since p b)) by (intros; unfold fix_since, f_set_mtime; drys).
    unfold update_from_rrdp_state, rsync_recover, create_out_path_if_missing, for_snapshot_path, publish,
      symlink_current, rename_new_revision, update_current, clean_old, rsync_persist, seconds_ago, time_now,
      f_symlink, f_rename, f_remove_file, f_remove_dir_all. drys.
  Qed.
  Hint Resolve dry_apply dry_write_notification dry_rsync : dry.
  Lemma dry_publish st sg c : c_tal_files c = [] -> dry (publish_staged st sg c).
  Proof using Hx Hck Hft Hsc.
    intros Ht. unfold publish_staged, pre_validate_scripts, persist.
    assert (Hp : dry (pre_validate st c)) by (intros w; unfold pre_validate, reconfigure_validator; by rewrite Ht).
    drys.
  Qed.

  (** the same results and the same trees *)
  Definition sim {A} (m m1 : M A) : Prop := forall w w1, like w w1 ->
    like (m e w).2 (m1 e1 w1).2 /\ (m e w).1 = (m1 e1 w1).1.
  Lemma sim_dry {A} (m : M A) : blind m -> dry m -> sim m m.
  Proof.
    intros Hb Hd [f t n] [f' t' n'] (E1 & E2 & E3). cbn in E1, E2, E3. subst f' n'.
    rewrite <- (Hd (mkWorld f t' n)). destruct (Hb e f n t t') as (r & f1 & n1 & l & H1 & H2). rewrite H1, H2. cbn.
    split; [|done]. split; [done|]. split; [done|]. cbn. by rewrite !trees_app, E3.
  Qed.
  Lemma sim_bind_with {A B} (P : A -> Prop) (m m1 : M A) (k k1 : A -> M B) :
    sim m m1 -> (forall w a, (m e w).1 = Ok a -> P a) -> (forall a, P a -> sim (k a) (k1 a)) -> sim (m ≫= k) (m1 ≫= k1).
  Proof.
    intros Hm HP Hk w w1 Hl. destruct (Hm w w1 Hl) as [H1 H2]. specialize (HP w). unfold mbind, M_bind.
    destruct (m e w) as [r v], (m1 e1 w1) as [r1 v1]. cbn in *. subst r1. destruct r as [a|x|]; [|done..]. apply Hk; auto.
  Qed.
  Lemma sim_bind {A B} (m m1 : M A) (k k1 : A -> M B) : sim m m1 -> (forall a, sim (k a) (k1 a)) -> sim (m ≫= k) (m1 ≫= k1).
  Proof. intros Hm Hk. apply (sim_bind_with (fun _ => True)); auto. Qed.
  Lemma sim_ret {A} (a : A) : sim (mret a) (mret a).
  Proof. intros w w1 Hl. done. Qed.
  Lemma sim_fail {A} x : sim (@fail A x) (fail x).
  Proof. intros w w1 Hl. done. Qed.
  Lemma sim_panic {A} : sim (@panic A) panic.
  Proof. intros w w1 Hl. done. Qed.
  Lemma sim_http u u1 m t : (forall k, e_http e k u m t = e_http e1 k u1 m t) -> sim (http_get u m t) (http_get u1 m t).
  Proof.
    intros H w w1 (E1 & E2 & E3). unfold http_get. cbn. rewrite H, E2. split; [|done]. split; [done|].
    cbn. split; [by rewrite E2|]. by rewrite !trees_app, E3.
  Qed.

  (** where the two sources give the same *)
  Definition equal_sources (s s1 : fetch_source) : Prop :=
    match s, s1 with
    | SUri u m, SUri u1 m1 => m = m1 /\ forall k t, e_http e k u m t = e_http e1 k u1 m t
    | SFile p, SFile p1 => p = p1
    | _, _ => False
    end.
  Lemma sim_raw s s1 t : equal_sources s s1 -> sim (fetch_raw s t) (fetch_raw s1 t).
  Proof using Hft.
    destruct s as [p|u m], s1 as [p1|u1 m1]; cbn; try done.
    - intros <-. apply sim_dry; [apply (blind_fetch_raw (SFile p) t)|]. drys.
    - intros [<- H]. apply sim_bind; [by apply sim_http|]. intros [|st hdr body]; [apply sim_fail|].
      destruct (st =? 200)%N; [|destruct (st =? 304)%N; [apply sim_ret|apply sim_fail]].
      destruct hdr as [[v|]|]; [apply sim_bind; [apply sim_ret|intros ?]|apply sim_bind; [apply sim_fail|intros ?]|apply sim_bind; [apply sim_ret|intros ?]];
        (destruct body; [apply sim_ret|apply sim_fail]).
  Qed.
  Lemma sim_fetch s s1 h t p : equal_sources s s1 -> sim (fetch s h t p) (fetch s1 h t p).
  Proof using Hx Hft.
    intros H. unfold fetch. apply sim_bind; [by apply sim_raw|]. intros r. apply sim_dry; [blinds|drys].
  Qed.
  Lemma sim_resolve {A} F F1 v v1 s s1 (k k1 : fetch_source -> M A) :
    located (e_ext e) F v = Some s -> located (e_ext e) F1 v1 = Some s1 -> sim (k s) (k1 s1) ->
    sim (resolve_source F v ≫= k) (resolve_source F1 v1 ≫= k1).
  Proof using Hx.
    assert (H : forall e' F u s w, e_ext e' = e_ext e -> located (e_ext e) F u = Some s -> resolve_source F u e' w = (Ok s, w)).
    { clear -Hx. intros e' F u s w <-. unfold located, resolve_source, map_source, source_join. destruct (fe_map F) as [m|]; [|by intros [= <-]].
      destruct (strip_prefix _ _) as [rel|]; [|done]. destruct (fm_fetch m) as [p|b md]; [by intros [= <-]|].
      unfold mbind at 1, M_bind at 1. cbn [getext]. destruct (https_join _ _ _); [|done]. cbn. by intros [= <-]. }
    intros H1 H2 Hk w w1 Hl. unfold mbind, M_bind. rewrite (H e F v s w eq_refl H1), (H e1 F1 v1 s1 w1 Hx H2). by apply Hk.
  Qed.
End sim.

Section run.
  Context (c : config) (base name name' : string) (e : env) (f : fs) (u u' : https) (m : fetch_mode).
  Let c' := with_notif c (base +:+ name').
  Let e1 := answering e u u'.
  Context (Hc : cfg_ok c base name) (Ht : c_tal_files c = []).
  Context (Hg : forall n, offers c' e f n -> good_notif base name n).
  Context (Hl : located (e_ext e) (config_fetcher c) (base +:+ name) = Some (SUri u m)).
  Context (Hl' : located (e_ext e) (config_fetcher c') (base +:+ name') = Some (SUri u' m)).
  Notation sim := (sim e e1).
  Let D {A} (p : M A) : blind p -> dry e e1 p -> sim p p := sim_dry e e1 p.

  Lemma sources_new k t : e_http e k u' m t = e_http e1 k u m t.
  Proof using. unfold e1, answering. cbn. by rewrite decide_True. Qed.

  Lemma sim_notif src : sim (notif_source_fetch src (config_fetcher c')) (notif_source_fetch src (config_fetcher c)).
  Proof using Hc Hl Hl'.
    unfold notif_source_fetch. apply sim_bind; [|intros []; apply sim_ret]. unfold read_notification_file.
    eapply sim_resolve; [done|exact Hl'|cbn [config_fetcher fe_notif]; rewrite (ck_uri _ _ _ Hc); exact Hl|].
    apply sim_bind; [apply sim_fetch; [done|done|]; split; [done|]; intros; apply sources_new|].
    intros r. apply D; [blinds|]. destruct r as [b t| |]; [|done..]. apply dry_bind; [by apply dry_getext|]. intros x.
    apply dry_bind; [apply dry_of_option|done].
  Qed.
  Lemma notif_fact src w n t : (notif_source_fetch src (config_fetcher c') e w).1 = Ok (Some (n, t)) -> offers c' e f n.
  Proof using Hl'.
    intros H. assert (HW : wpt e anyev (notif_source_fetch src (config_fetcher c')) w
      (fun r _ => forall n t, r = Ok (Some (n, t)) -> offers c' e f n)).
    { unfold notif_source_fetch. wp1. apply w_read_notification.
      - by intros [].
      - intros w1 s b n1 t1 _ Hs Hb Hp. wp1. intros n2 t2 [= <- <-]. exists s, b. split; [done|]. split; [|done].
        cbn [config_fetcher fe_notif c' with_notif c_notif_uri] in Hs. assert (Hs2 := eq_trans (eq_sym Hl') Hs). injection Hs2 as <-. exact Hb.
      - intros. wp1. done.
      - done. }
    exact (wpt_elim _ _ _ _ _ HW n t H).
  Qed.

  Lemma sim_retrieve rel h p : rel <> name ->
    sim (retrieve_file (config_fetcher c') (base +:+ rel) h p) (retrieve_file (config_fetcher c) (base +:+ rel) h p).
  Proof using Hl.
    intros Hr. change (retrieve_file (config_fetcher c') (base +:+ rel) h p) with (retrieve_file (config_fetcher c) (base +:+ rel) h p).
    assert (Hget : sim (src ← resolve_source (config_fetcher c) (base +:+ rel); _ ← fetch src (Some h) None (Some p); mret tt)
                       (src ← resolve_source (config_fetcher c) (base +:+ rel); _ ← fetch src (Some h) None (Some p); mret tt)).
    { apply (sim_bind_with e e1 (fun s => located (e_ext e) (config_fetcher c) (base +:+ rel) = Some s)).
      - apply D; [apply blind_resolve|]. unfold resolve_source, map_source, source_join, https_join.
        destruct (fe_map _); [|done]. destruct (strip_prefix _ _); [|done]. destruct (fm_fetch _); [done|].
        apply dry_bind; [by apply dry_getext|]. intros x. apply dry_bind; [apply dry_of_option|done].
      - intros w s Hres. assert (HW : wpt e anyev (resolve_source (config_fetcher c) (base +:+ rel)) w
          (fun r _ => forall s, r = Ok s -> located (e_ext e) (config_fetcher c) (base +:+ rel) = Some s)).
        { apply w_resolve_source; [by intros s0 H0 ? [= <-]|done]. }
        exact (wpt_elim _ _ _ _ _ HW s Hres).
      - intros s Hs. apply sim_bind; [|intros; apply sim_ret]. apply sim_fetch; [done..|].
        destruct s as [q|v mv]; cbn; [done|]. split; [done|]. intros k t. unfold e1, answering. cbn.
        rewrite decide_False; [done|]. intros ->. apply Hr.
        assert (mv = m) as ->.
        { revert Hs Hl. clear. unfold located. destruct (fe_map _) as [fm|]; [|by intros [= _ <-] [= _ <-]].
          destruct (strip_prefix _ _); [|done]. destruct (strip_prefix _ (base +:+ name)); [|by destruct (fm_fetch fm)].
          destruct (fm_fetch fm); [done|]. destruct (https_join _ _ _); [|done]. destruct (https_join _ _ s0); [|done].
          cbn. by intros [= _ <-] [= _ <-]. }
        eapply sapp_inv_head. eapply located_inj; [exact Hs|exact Hl]. }
    unfold retrieve_file. apply sim_bind; [apply D; [blinds|by apply dry_getext]|]. intros x.
    apply sim_bind; [apply D; [blinds|by apply dry_catch, dry_read]|].
    intros [b|]; [destruct (hash_matches x h b); [apply sim_ret|]|]; exact Hget.
  Qed.

  Lemma sim_option {A B} x (o : option A) (k k1 : A -> M B) :
    (forall a, o = Some a -> sim (k a) (k1 a)) -> sim (of_option x o ≫= k) (of_option x o ≫= k1).
  Proof using. intros H. destruct o as [a|]; [by apply H|]. intros w w1 Hw. done. Qed.
  Lemma sim_now {B} (k k1 : Z -> M B) : (forall t, sim (k t) (k1 t)) -> sim (time_now ≫= k) (time_now ≫= k1).
  Proof using. intros H. apply sim_bind; [|done]. apply D; [unfold time_now; blinds|by apply dry_clock]. Qed.
  Lemma sim_snapshot st n : mp_base (st_map st) = base -> (forall rel, n_snap_uri n = base +:+ rel -> rel <> name) ->
    sim (snapshot_stage st n (config_fetcher c') c') (snapshot_stage st n (config_fetcher c) c).
  Proof using Hl.
    intros Hb Hn. unfold snapshot_stage, mp_relative. rewrite Hb. apply sim_option. intros rel Hr%strip_prefix_spec.
    rewrite Hr in *. apply sim_bind; [apply (sim_retrieve rel); by apply Hn|]. intros _.
    apply sim_option. intros rel' _. apply sim_now. intros t. apply sim_ret.
  Qed.
  Lemma sim_deltas st reset l : mp_base (st_map st) = base -> (forall d rel, d ∈ l -> di_uri d = base +:+ rel -> rel <> name) ->
    sim (deltas_stage st reset (config_fetcher c') c' l) (deltas_stage st reset (config_fetcher c) c l).
  Proof using Hl.
    intros Hb. induction l as [|d l IH]; intros Hn; cbn [deltas_stage]; [apply sim_ret|].
    specialize (IH (fun d' rel Hd => Hn d' rel (elem_of_list_further _ _ _ Hd))).
    destruct (delta_is_new st reset (di_serial d)); [|exact IH]. unfold mp_relative. rewrite Hb.
    apply sim_option. intros rel Hr%strip_prefix_spec. rewrite Hr. apply sim_bind.
    { apply (sim_retrieve rel). eapply Hn; [left|exact Hr]. }
    intros _. apply sim_option. intros rel' _. apply sim_now. intros t. apply sim_bind; [exact IH|]. intros r. apply sim_ret.
  Qed.
  Lemma sim_update st : mp_base (st_map st) = base -> sim (update_staged st c') (update_staged st c).
  Proof using Hc Hg Hl Hl'.
    intros Hb. unfold update_staged. cbv zeta.
    apply (sim_bind_with e e1 (fun r => forall n t, r = Some (n, t) -> offers c' e f n)); [apply sim_notif| |].
    { intros w r Hr n t ->. by eapply notif_fact. }
    intros [[n0 t]|] Ho; [|apply sim_ret]. specialize (Ho _ _ eq_refl).
    apply sim_bind; [apply D; [blinds|by apply dry_getext]|]. intros x. change (c_max_deltas c') with (c_max_deltas c).
    destruct (sort_and_verify x (c_max_deltas c) n0) as [[n fine]|] eqn:Hsv; [|apply sim_panic].
    destruct fine; cbn [negb]; [|apply sim_fail].
    destruct (compare_version st n) as [reset| |]; [|apply sim_ret|apply sim_fail].
    assert (Hn : forall v h rel, (v, h) ∈ refs n -> v = base +:+ rel -> rel <> name).
    { intros v h rel Hin Hv ->. destruct (Hg n0 Ho v h name) as (_ & H1 & _); [by eapply sav_refs|done|].
      apply H1. destruct (ck_name _ _ _ Hc) as (_ & _ & _ & ->). done. }
    apply sim_bind; [apply (D (write_buf (staging_path c (ns_name (st_source st))) _)); [apply blind_write_buf|by apply dry_write_buf]|].
    intros _. apply sim_bind; [apply sim_snapshot; [done|]; intros rel; eapply Hn; left|].
    intros sn. apply sim_bind; [|intros ds; apply sim_ret].
    apply sim_deltas; [done|]. intros d rel Hd. eapply (Hn _ (di_hash d)). right. apply elem_of_list_fmap. by exists d.
  Qed.

  Lemma offers_new n : offers c e1 f n <-> offers c' e f n.
  Proof using Hc Hl Hl'.
    unfold offers, offered_notif. cbn [config_fetcher fe_notif c' with_notif c_notif_uri e1 answering with_http e_ext].
    rewrite (ck_uri _ _ _ Hc). split.
    - intros (src & b & H1 & H2 & H3). assert (E := eq_trans (eq_sym Hl) H1). injection E as <-.
      exists (SUri u' m), b. split; [exact Hl'|]. split; [|done]. destruct H2 as (k & t & hdr & H2). exists k, t, hdr.
      rewrite sources_new. exact H2.
    - intros (src & b & H1 & H2 & H3). assert (E := eq_trans (eq_sym Hl') H1). injection E as <-.
      exists (SUri u m), b. split; [exact Hl|]. split; [|done]. destruct H2 as (k & t & hdr & H2). exists k, t, hdr.
      rewrite <- sources_new. exact H2.
  Qed.
  Context (Hm : mirror any_notif c base name f) (Hx : clean_snapshots (e_ext e)) (Hex : fs_exists f (rrdp_state_path c) = true).
  Lemma new_setting : setting c base name e1 f.
  Proof using Hc Hg Hl Hl' Hm Hx. split; [done..|]. split; [|exact Hx]. intros n Hn%offers_new. by apply Hg. Qed.

  Lemma same_trees : instants c' e f = instants c e1 f /\ after (run c' e f) = after (run c e1 f) /\ (run c' e f).1 = (run c e1 f).1.
  Proof using Hc Ht Hg Hl Hl' Hm Hx Hex.
    assert (H : like (process c' e (resume f)).2 (process c e1 (resume f)).2 /\ (process c' e (resume f)).1 = (process c e1 (resume f)).1).
    { assert (El : forall c0 e0, rrdp_state_path c0 = rrdp_state_path c ->
        process c0 e0 (resume f) = (st ← recover (rrdp_state_path c); staged ← update_staged st c0;
          match staged with None => mret tt | Some sg => publish_staged st sg c0 end) e0 (resume f)).
      { intros c0 e0 Ep. unfold process, load_state. rewrite Ep. unfold mbind at 1, M_bind at 1. unfold mbind at 1, M_bind at 1.
        unfold f_exists at 1. cbn [resume w_fs]. by rewrite Hex. }
      rewrite (El c' e eq_refl), (El c e1 eq_refl). unfold mbind at 1 3 5 7, M_bind at 1 3 5 7.
      assert (Ed : recover (rrdp_state_path c) e (resume f) = recover (rrdp_state_path c) e1 (resume f)).
      { apply dry_bind; [by apply dry_read|]. intros b. apply dry_of_option. }
      destruct (recover (rrdp_state_path c) e (resume f)) as [[st|x|] w] eqn:Er; rewrite <- Ed; [|done..].
      assert (Hb : mp_base (st_map st) = base).
      { assert (Hls : load_state c e (resume f) = (Ok st, w)).
        { unfold load_state, mbind at 1, M_bind at 1. unfold f_exists. cbn [resume w_fs]. rewrite Hex. exact Er. }
        apply (load_inv c base name Hc) in Hls as [_ Hst].
        pose proof (start_good c base name e1 f (setting_sane _ _ _ _ _ new_setting) st Hst) as Hgs. by rewrite (gs_map _ _ _ _ Hgs). }
      assert (Hs : sim (staged ← update_staged st c'; match staged with None => mret tt | Some sg => publish_staged st sg c' end)
                       (staged ← update_staged st c; match staged with None => mret tt | Some sg => publish_staged st sg c end)).
      { apply sim_bind; [by apply sim_update|]. intros [sg|]; [|apply sim_ret].
        assert (Ep : publish_staged st sg c' = publish_staged st sg c).
        { unfold publish_staged. assert (Ep : pre_validate st c' = pre_validate st c); [|by rewrite Ep].
          unfold pre_validate, reconfigure_validator. cbn [c' with_notif c_tal_files]. by rewrite Ht. }
        rewrite Ep. apply D; [apply blind_publish_staged|]. by apply dry_publish. }
      apply Hs. done. }
    destruct H as [(H1 & H2 & H3) H4]. unfold instants, after, run. by rewrite H1, H3, H4.
  Qed.
End run.

(** ** C79 *)
(** A mirror made with the notification URI [base ++ name]; now the command line
    names [base ++ name'].  The run does exactly what it would do with the old
    command line, if the source had its notification at the old URI. *)
Theorem C79_other_name c base name name' e f u u' m :
  let c' := with_notif c (base +:+ name') in
  cfg_ok c base name -> mirror any_notif c base name f -> fs_exists f (rrdp_state_path c) = true ->
  c_tal_files c = [] -> clean_snapshots (e_ext e) -> (forall n, offers c' e f n -> good_notif base name n) ->
  located (e_ext e) (config_fetcher c) (base +:+ name) = Some (SUri u m) ->
  located (e_ext e) (config_fetcher c') (base +:+ name') = Some (SUri u' m) ->
  let e' := answering e u u' in
  setting c base name e' f /\ (forall n, offers c e' f n <-> offers c' e f n) /\
  instants c' e f = instants c e' f /\ after (run c' e f) = after (run c e' f) /\ (run c' e f).1 = (run c e' f).1.
Proof.
  intros c' Hc Hm Hex Ht Hx Hg Hl Hl' e'. split; [by eapply new_setting|]. split; [by eapply offers_new|]. by eapply same_trees.
Qed.
(** So the file name on the command line has no effect: what is published is the
    version found at the new URI, but under the old name.  At the new name there is
    nothing new, unless the source lists a file of that name. *)
Theorem C79_old_name c base name name' e f u u' m :
  let c' := with_notif c (base +:+ name') in
  cfg_ok c base name -> mirror any_notif c base name f -> fs_exists f (rrdp_state_path c) = true ->
  c_tal_files c = [] -> clean_snapshots (e_ext e) -> (forall n, offers c' e f n -> good_notif base name n /\ one_hash n) ->
  located (e_ext e) (config_fetcher c) (base +:+ name) = Some (SUri u m) ->
  located (e_ext e) (config_fetcher c') (base +:+ name') = Some (SUri u' m) ->
  file_name name' -> name' <> name -> name' <> name +:+ ".tmp" -> no_bad_304 e -> no_links (staging_dir c) f ->
  (forall g b t, g ∈ instants c' e f -> g !! notif_path c name' = Some (File b t) -> f !! notif_path c name' = Some (File b t) \/
     exists n h, offers c' e f n /\ (base +:+ name', h) ∈ refs n) /\
  (forall w, run c' e f = (Ok tt, w) -> w_fs w = f \/ exists n n', offers c' e f n /\
     w_fs w !! notif_path c name = Some (File (x_write_notif (e_ext e) n') None) /\
     n_session n' = n_session n /\ n_serial n' = n_serial n /\ n_snap_uri n' = n_snap_uri n /\ n_snap_hash n' = n_snap_hash n).
Proof.
  intros c' Hc Hm Hex Ht Hx Hg Hl Hl' Hfn Hne Hnt H304 Hlk.
  destruct (C79_other_name c base name name' e f u u' m Hc Hm Hex Ht Hx (fun n Hn => proj1 (Hg n Hn)) Hl Hl') as (Hse & Ho & Hi & Ha & Hr).
  set (e' := answering e u u') in *. fold c' in Ho, Hi, Ha, Hr. split.
  - intros g b t Hgi Hgl. rewrite Hi in Hgi. destruct (decide (f !! notif_path c name' = Some (File b t))) as [|Hnf]; [by left|]. right.
    destruct (C03_copied c base name e' f g (notif_path c name') b t) as (n & rel & h & rest & Hn & Hin & Hp & _); try done.
    + split; [|split; [done|]].
      * intros k v mv hdr bb. unfold e', answering. cbn. destruct (decide (v = u)); apply H304.
      * intros n Hn%Ho. by apply Hg.
    + unfold notif_path. apply under_app.
    + unfold notif_path. intros E. apply app_inj_tail in E as [_ E]. done.
    + unfold notif_path, notif_tmp. intros E. apply app_inj_tail in E as [_ E]. done.
    + exists n, h. split; [by apply Ho|]. unfold notif_path, public_path in Hp. apply app_inv_head in Hp.
      assert (rel = name') as ->; [|done]. destruct Hfn as (_ & _ & _ & E). rewrite <- E in Hp. symmetry. by apply split_on_inj in Hp.
  - intros w Hw. destruct (run c e' f) as [r1 w1] eqn:E1. rewrite Hw in Hr, Ha. cbn in Hr, Ha. subst r1. rename Ha into Ew. unfold after in Ew. cbn [snd] in Ew.
    destruct (C07_version c base name e' f w1 Hse E1) as [[H _]|(n & n' & Hn & H)]; [left; congruence|right].
    exists n, n'. rewrite Ew. split; [by apply Ho|]. exact H.
Qed.

(** The command line names a notification of another server, or in another
    directory, and that lists its snapshot elsewhere.  Then nothing outside of the
    staging directory changes.  A run can only succeed without changing anything,
    because the source answered "not modified" or has the recorded session and
    serial. *)
Theorem C79_other_base c base name c' e f :
  cfg_ok c base name -> mirror any_notif c base name f -> fs_exists f (rrdp_state_path c) = true ->
  c_state_dir c' = c_state_dir c ->
  (forall n rel, offers c' e f n -> n_snap_uri n <> base +:+ rel) ->
  (forall g p, g ∈ instants c' e f -> apart p (staging_dir c) -> g !! p = f !! p) /\
  (forall w, run c' e f = (Ok tt, w) -> w_fs w = f /\ exists st, starts_from c base name f st /\
    ((exists src, located (e_ext e) (config_fetcher c') (c_notif_uri c') = Some src /\ says_304 e src (ns_etag (st_source st))) \/
     (exists n s, offers c' e f n /\ st_snap st = Some s /\ ss_session s = n_session n /\ ss_serial s = n_serial n))).
Proof.
  intros Hc Hm Hex Hd Hn.
  pose proof (mirror_own any_notif c base name f Hc Hm) as Hown. destruct Hown as (Hwf & _ & Hgs).
  assert (Eps : rrdp_state_path c' = rrdp_state_path c) by (unfold rrdp_state_path; by rewrite Hd).
  assert (Esd : staging_dir c' = staging_dir c) by (unfold staging_dir; by rewrite Hd).
  set (I := inside (under (staging_dir c)) f).
  assert (A_root : ~ under (staging_dir c) []).
  { intros H%prefix_nil_inv. unfold staging_dir in H. rewrite path_join_name in H by done. by destruct (c_state_dir c). }
  assert (HI0 : I f) by (split; [done|apply mods_refl]).
  assert (HW : wpt e (on_fs I) (process c') (resume f) (fun r w' => r = Ok tt -> w_fs w' = f /\ exists st, starts_from c base name f st /\
    ((exists src, located (e_ext e) (config_fetcher c') (c_notif_uri c') = Some src /\ says_304 e src (ns_etag (st_source st))) \/
     (exists n s, offers c' e f n /\ st_snap st = Some s /\ ss_session s = n_session n /\ ss_serial s = n_serial n)))).
  { unfold process, load_state. wp1. wp1. wp1. rewrite Eps. cbn [resume w_fs]. rewrite Hex. unfold recover. wp1.
    wp1; [|done]. wp1; [|done].
    assert (Hg : good_state c base name a) by (apply Hgs; by exists b).
    assert (Hst : starts_from c base name f a) by (left; split; [done|]; by exists b).
    wp1. unfold update_staged. cbv zeta. wp1. unfold notif_source_fetch. wp1. apply w_read_notification.
    - by intros [].
    - intros w1 src b1 n0 t E1 Hs Hb Hp. wp1. wp1. wp1.
      assert (Ho : offers c' e f n0) by (by exists src, b1). cbn [push_fs resume w_fs] in E1.
      destruct (sort_and_verify (e_ext e) (c_max_deltas c') n0) as [[n fine]|] eqn:Hsv; [|by wp1].
      destruct fine; cbn [negb]; [|by wp1]. destruct (sav_same _ _ _ _ _ Hsv) as (E2 & E3 & En & _).
      destruct (compare_version a n) as [reset| |] eqn:Hcv; [| |by wp1].
      2: { wp1. wp1. intros _. split; [done|]. exists a. split; [done|]. right. unfold compare_version in Hcv.
           destruct (st_snap a) as [s|]; [|done]. case_bool_decide as Hse; [|done]. cbn in Hcv.
           destruct (N.compare_spec (ss_serial s) (n_serial n)); [|done..]. exists n0, s. rewrite <- E2, <- E3. done. }
      wp1. eapply wpt_conseq; [apply (k_write_buf e _ f A_root (staging_path c' (ns_name (st_source a)))); [|by rewrite E1]| |].
      + rewrite (gs_source _ _ _ _ Hg). cbn [ns_name]. unfold staging_path. rewrite Esd. rewrite path_join_name by apply (ck_name _ _ _ Hc). apply under_app.
      + done.
      + intros [[]|x|] w2 HI2; [|done..]. wp1. unfold snapshot_stage. wp1. unfold mp_relative.
        rewrite (gs_map _ _ _ _ Hg). cbn [mp_base]. rewrite En.
        destruct (strip_prefix base (n_snap_uri n0)) as [rel|] eqn:Er; [|by wp1].
        apply strip_prefix_spec in Er. by destruct (Hn n0 rel Ho).
    - intros w1 src E1 Hs H3. wp1. wp1. wp1. intros _. split; [by cbn in E1|]. exists a. split; [done|]. left. by exists src.
    - done. }
  destruct HW as (l & Et & Hl & HQ). split.
  - intros g p Hg Hp. assert (HIg : I g).
    { unfold instants, run in Hg. apply elem_of_cons in Hg as [->|Hg]; [exact HI0|]. rewrite Et in Hg. cbn [resume w_trace app] in Hg.
      apply trees_in in Hg. rewrite Forall_forall in Hl. apply (Hl _ Hg). }
    destruct (apart_out _ _ Hp) as [K1 K2]. apply (inside_same _ _ _ _ HIg); [done|]. intros (q & Hq & Hb). by apply (K2 q).
  - intros w Hw. unfold run in Hw. rewrite Hw in HQ. by apply HQ.
Qed.

(** Trust anchors are configured and the file name is changed.  The check before
    publishing looks for the notification under the new name in the staging
    directory, where it is under the old one: no update is ever published. *)
Theorem C79_with_anchors c base name name' e f :
  let c' := with_notif c (base +:+ name') in
  cfg_ok c base name -> mirror any_notif c base name f -> fs_exists f (rrdp_state_path c) = true ->
  c_tal_files c <> [] -> https_parent (base +:+ name') = Some base -> file_name name' -> name' <> name ->
  (forall n, offers c' e f n -> good_notif base name n /\ forall h, (base +:+ name', h) ∉ refs n) ->
  f !! (staging_dir c ++ [name']) = None ->
  (forall g p, g ∈ instants c' e f -> apart p (staging_dir c) -> g !! p = f !! p) /\
  (forall w, run c' e f = (Ok tt, w) -> w_fs w = f /\ exists st, starts_from c base name f st /\
    ((exists src, located (e_ext e) (config_fetcher c') (c_notif_uri c') = Some src /\ says_304 e src (ns_etag (st_source st))) \/
     (exists n s, offers c' e f n /\ st_snap st = Some s /\ ss_session s = n_session n /\ ss_serial s = n_serial n))).
Proof.
  intros c' Hc Hm Hex Htal Hpar Hfn Hne Hn Hnone.
  pose proof (mirror_own any_notif c base name f Hc Hm) as Hown. destruct Hown as (Hwf & _ & Hgs).
  set (T := staging_dir c ++ [name']) in *.
  set (A := fun p => under (staging_dir c) p /\ p <> T).
  set (I := inside A f).
  assert (A_root : ~ A []).
  { intros [H%prefix_nil_inv _]. unfold staging_dir in H. rewrite path_join_name in H by done. by destruct (c_state_dir c). }
  assert (HI0 : I f) by (split; [done|apply mods_refl]).
  assert (HT : forall g, I g -> op_read g T = None).
  { intros g [_ Hg]. unfold op_read, fs_stat. rewrite fs_get_nonroot by (unfold T; by destruct (staging_dir c)).
    destruct (Hg T) as [->|[[_ H]|(_ & _ & [-> | ->])]]; [by rewrite Hnone|by destruct H|done|done]. }
  assert (Hstage : forall rel, clean_rel rel -> rel <> name' -> A (staging_path c' rel)).
  { intros rel Hr Hx. split; [by apply (staging_path_under c')|]. intros E. apply Hx.
    change (staging_path c' rel) with (staging_path c rel) in E. rewrite staging_path_clean in E by done.
    apply app_inv_head in E. pose proof (file_name_clean _ Hfn) as Hcl.
    pose proof (staging_path_clean c name' Hcl) as E2. unfold staging_path in E2. rewrite path_join_name in E2 by done.
    apply app_inv_head in E2. rewrite E2 in E. by eapply split_on_inj. }
  assert (Hret : forall F v h rel, clean_rel rel -> rel <> name' -> keeps e I (retrieve_file F v h (staging_path c' rel))).
  { intros F v h rel Hr Hx.
    assert (Hf : keeps e I (src ← resolve_source F v; _ ← fetch src (Some h) None (Some (staging_path c' rel)); mret tt)).
    { apply keeps_bind; [apply q_resolve_source|]. intros src. apply keeps_bind; [|intros; apply keeps_ret]. unfold fetch.
      apply keeps_bind; [apply q_fetch_raw|]. intros r. apply keeps_bind; [apply keeps_getext|]. intros x.
      apply keeps_bind; [destruct r; [destruct (hash_matches x h b)|..]; first [apply keeps_ret|apply keeps_fail]|]. intros _.
      destruct r; [|apply keeps_ret..]. apply keeps_bind; [|intros; apply keeps_ret]. apply k_write_buf; [exact A_root|]. by apply Hstage. }
    unfold retrieve_file. apply keeps_bind; [apply keeps_getext|]. intros x. apply keeps_bind; [apply keeps_catch, q_read_file|].
    intros [b|]; [destruct (hash_matches x h b); [apply keeps_ret|]|]; exact Hf. }
  assert (Hsnap : forall a n, good_state c base name a ->
    (forall v h rel, (v, h) ∈ refs n -> v = base +:+ rel -> clean_rel rel /\ rel <> name') ->
    keeps e I (snapshot_stage a n (config_fetcher c') c')).
  { intros a n Hg Hr. unfold snapshot_stage, mp_relative. rewrite (gs_map _ _ _ _ Hg). cbn [mp_base].
    destruct (strip_prefix base (n_snap_uri n)) as [rel|] eqn:Er; cbn [of_option]; [|intros w Hw; wp1; by wp1].
    apply strip_prefix_spec in Er. destruct (Hr _ (n_snap_hash n) rel ltac:(left) Er) as [R1 R2].
    intros w Hw. wp1. wp1. wp1. eapply wpt_post; [by apply Hret|]. intros [[]|x|] w2 HI2; [|done..]. wp1. wp1. wp1. wp1; [done|]. wp1. done. }
  assert (Hdel : forall a reset, good_state c base name a -> forall l,
    (forall d rel, d ∈ l -> di_uri d = base +:+ rel -> clean_rel rel /\ rel <> name') ->
    keeps e I (deltas_stage a reset (config_fetcher c') c' l)).
  { intros a reset Hg l. induction l as [|d l IH]; intros Hr; [apply keeps_ret|]. cbn [deltas_stage].
    assert (IH' : keeps e I (deltas_stage a reset (config_fetcher c') c' l)) by (apply IH; intros; eapply Hr; [by right|done]).
    destruct (delta_is_new a reset (di_serial d)); [|exact IH'].
    unfold mp_relative. rewrite (gs_map _ _ _ _ Hg). cbn [mp_base].
    destruct (strip_prefix base (di_uri d)) as [rel|] eqn:Er; cbn [of_option]; [|intros w Hw; wp1; by wp1].
    apply strip_prefix_spec in Er. destruct (Hr d rel ltac:(left) Er) as [R1 R2].
    intros w Hw. wp1. wp1. wp1. eapply wpt_post; [by apply Hret|]. intros [[]|x|] w2 HI2; [|done..]. wp1. wp1. wp1. wp1; [done|]. wp1.
    eapply wpt_post; [by apply IH'|]. intros [r|x|] w3 HI3; [|done..]. wp1. done. }
  assert (HW : wpt e (on_fs I) (process c') (resume f) (fun r w' => r = Ok tt -> w_fs w' = f /\ exists st, starts_from c base name f st /\
    ((exists src, located (e_ext e) (config_fetcher c') (c_notif_uri c') = Some src /\ says_304 e src (ns_etag (st_source st))) \/
     (exists n s, offers c' e f n /\ st_snap st = Some s /\ ss_session s = n_session n /\ ss_serial s = n_serial n)))).
  { unfold process, load_state. wp1. wp1. wp1. change (rrdp_state_path c') with (rrdp_state_path c). cbn [resume w_fs]. rewrite Hex. unfold recover. wp1.
    wp1; [|done]. wp1; [|done].
    assert (Hg : good_state c base name a) by (apply Hgs; by exists b).
    assert (Hst : starts_from c base name f a) by (left; split; [done|]; by exists b).
    assert (Hus : usual_check c (st_validator a)) by (by eapply mirror_usual).
    wp1. unfold update_staged. cbv zeta. wp1. unfold notif_source_fetch. wp1. apply w_read_notification; [by intros []| | |done].
    2: { intros w1 src E1 Hs H3. wp1. wp1. wp1. intros _. split; [by cbn in E1|]. exists a. split; [done|]. left. by exists src. }
    intros w1 src b1 n0 t E1 Hs Hb Hp. wp1. wp1. wp1.
    assert (Ho : offers c' e f n0) by (by exists src, b1). cbn [push_fs resume w_fs] in E1.
    destruct (sort_and_verify (e_ext e) (c_max_deltas c') n0) as [[n fine]|] eqn:Hsv; [|by wp1].
    destruct fine; cbn [negb]; [|by wp1].
    destruct (compare_version a n) as [reset| |] eqn:Hcv; [| |by wp1].
    2: { destruct (sav_same _ _ _ _ _ Hsv) as (E2 & E3 & _). wp1. wp1. intros _. split; [done|]. exists a. split; [done|]. right. unfold compare_version in Hcv.
         destruct (st_snap a) as [s|]; [|done]. case_bool_decide as Hse; [|done]. cbn in Hcv.
         destruct (N.compare_spec (ss_serial s) (n_serial n)); [|done..]. exists n0, s. rewrite <- E2, <- E3. done. }
    assert (Hrel : forall v h rel, (v, h) ∈ refs n -> v = base +:+ rel -> clean_rel rel /\ rel <> name').
    { intros v h rel Hin Hv. destruct (Hn n0 Ho) as [H1 H2]. apply (sav_refs _ _ _ _ _ _ _ Hsv) in Hin. split.
      - by eapply (H1 v h rel).
      - intros ->. subst v. by apply (H2 h). }
    wp1. eapply wpt_post.
    { apply (k_write_buf e A f A_root (staging_path c' (ns_name (st_source a)))); [|by rewrite E1].
      rewrite (gs_source _ _ _ _ Hg). cbn [ns_name]. apply Hstage; [apply file_name_clean, (ck_name _ _ _ Hc)|congruence]. }
    intros [[]|x|] w2 HI2; [|done..]. wp1. eapply wpt_post.
    { apply (Hsnap a n Hg Hrel). exact HI2. }
    intros [sn|x|] w3 HI3; [|done..]. wp1. eapply wpt_post.
    { apply (Hdel a reset Hg (n_deltas n)); [|exact HI3]. intros d v Hd Hv. eapply Hrel; [|exact Hv].
      right. apply elem_of_list_fmap. by exists d. }
    intros [ds|x|] w4 HI4; [|done..]. wp1. unfold publish_staged, pre_validate, reconfigure_validator. wp1. wp1. wp1.
    change (c_tal_files c') with (c_tal_files c). destruct (c_tal_files c) as [|tf tfs] eqn:Etf; [done|]. cbn [is_empty].
    wp1. unfold create_validator. wp1. eapply wpt_post; [apply q_read_tals; exact HI4|].
    intros [tals|x|] w5 HI5; [|done..]. wp1. wp1; [|done]. wp1. wp1.
    cbn [with_notif c_notif_uri c'] in H1. rewrite Hpar in H1. injection H1 as <-.
    assert (En : new_validator_needed a (validator_new tals [staged_fetcher c' base]) = true).
    { unfold new_validator_needed. destruct (st_validator a) as [old|]; [|done].
      destruct (equivalent old (validator_new tals [staged_fetcher c' base])) eqn:Eq; [|done]. exfalso.
      apply equivalent_fits in Eq as (_ & u & Hu). destruct Hus as (_ & b2 & _ & Hfe). rewrite Hfe in Hu.
      apply lookup_singleton_Some in Hu as [_ Hu]. injection Hu as Hu _. rewrite (ck_uri _ _ _ Hc) in Hu. cbn in Hu.
      by apply (inj (String.append base)) in Hu. }
    unfold staged_fetcher in En. rewrite En. cbn [set_validator st_validator]. wp1. unfold initialise_staging_data. wp1. wp1; [done|]. wp1.
    unfold get_latest. cbv zeta. cbn [validator_new vd_repos vi_data]. rewrite lookup_empty.
    wp1. wp1. unfold retrieve_new_repository. wp1.
    assert (Eloc : forall src, located (e_ext e) (get_fetcher (vd_repos (validator_new tals [staged_fetcher c' base])) (c_notif_uri c'))
      (fe_notif (get_fetcher (vd_repos (validator_new tals [staged_fetcher c' base])) (c_notif_uri c'))) = Some src -> src = SFile T).
    { intros src2 Hsrc. unfold get_fetcher, validator_new in Hsrc. cbn in Hsrc. rewrite insert_empty, lookup_singleton in Hsrc. cbn in Hsrc.
      unfold located in Hsrc. cbn in Hsrc. rewrite strip_prefix_app in Hsrc. injection Hsrc as <-. f_equal. by apply path_join_name. }
    apply w_read_notification; [by intros []|..].
    - intros w6 src2 b2 n2 t2 E6 Hl2 Hb2 _. exfalso. apply Eloc in Hl2 as ->. cbn [served push_ev w_fs] in Hb2. by rewrite HT in Hb2.
    - intros w6 src2 E6 Hl2 (u2 & m2 & k2 & h2 & b2 & -> & _). by apply Eloc in Hl2.
    - intros w6 x E6. wp1. wp1. done. }
  destruct HW as (l & Et & Hl & HQ). split.
  - intros g p Hg Hp. assert (HIg : I g).
    { unfold instants, run in Hg. apply elem_of_cons in Hg as [->|Hg]; [exact HI0|]. rewrite Et in Hg. cbn [resume w_trace app] in Hg.
      apply trees_in in Hg. rewrite Forall_forall in Hl. apply (Hl _ Hg). }
    destruct (apart_out _ _ Hp) as [K1 K2]. apply (inside_same _ _ _ _ HIg); [by intros [? _]|]. intros (q & [Hq _] & Hb). by apply (K2 q).
  - intros w Hw. unfold run in Hw. rewrite Hw in HQ. by apply HQ.
Qed.

(** ** Examples *)
(** the source's second version, with the notification under another name *)
Definition renamed : env := run_env ((base +:+ "new.xml", json_text (j_notif (src3 1))) :: filter (fun d => d.1 <> notif_uri) (docs3 1)) 1000.
Definition renamed_config : config := with_notif demo_config (base +:+ "new.xml").
Lemma renamed_offers f n : offers renamed_config renamed f n -> n = src3 1.
Proof.
  intros (src & b & Hl & Hs & Hp). cbn in Hl. injection Hl as <-. destruct Hs as (k & t & hdr & Hs).
  assert (E : x_parse_notif safe_ext (json_text (j_notif (src3 1))) = Some (src3 1)) by (by vm_compute).
  cbn [renamed run_env e_http e_ext] in Hs, Hp. unfold serve in Hs. cbn [Demo.assoc] in Hs. rewrite String.eqb_refl in Hs.
  injection Hs as _ Hb. rewrite <- Hb in Hp. assert (E' := eq_trans (eq_sym E) Hp). injection E' as E'. exact (eq_sym E').
Qed.
Lemma src3_one_hash : one_hash (src3 1).
Proof.
  intros u h h' H1%listing_ref H2%listing_ref. destruct H1 as (a & Ha & <- & <-), H2 as (b & Hb & E & <-).
  by rewrite (sb_unique _ _ _ src3_stable 1 1 a b).
Qed.
Definition renamed_b (f : fs) (r : res unit * world) : bool :=
  match r with
  | (Ok _, w) => negb (at_b (w_fs w) (notif_path demo_config name) (f !! notif_path demo_config name)) &&
                 at_b (w_fs w) (notif_path demo_config "new.xml") None && fs_exists f (rrdp_state_path demo_config)
  | _ => false
  end.
Lemma renamed_checked : renamed_b (tree3 1) (run renamed_config renamed (tree3 1)) = true.
Proof. vme. Qed.
Lemma renamed_ok f r : renamed_b f r = true -> fs_exists f (rrdp_state_path demo_config) = true /\
  exists w, r = (Ok tt, w) /\ w_fs w !! notif_path demo_config name <> f !! notif_path demo_config name /\
    w_fs w !! notif_path demo_config "new.xml" = None.
Proof.
  destruct r as [[[]|x|] w]; cbn [renamed_b]; [|done..]. intros [[H1 H2]%andb_true_iff H3]%andb_true_iff. split; [exact H3|].
  exists w. split; [done|]. unfold at_b in H1, H2. apply negb_true_iff, bool_decide_eq_false in H1. by apply bool_decide_eq_true in H2.
Qed.

(** a source in another place *)
Definition elsewhere_n : notification := mkNotif uuid_B 1 "https://x/s.xml" (demo_hash (snap_doc uuid_B 1)) [].
Definition elsewhere : env := run_env [("https://x/notification.xml", json_text (j_notif elsewhere_n)); ("https://x/s.xml", snap_doc uuid_B 1)] 1000.
Definition elsewhere_config : config := with_notif demo_config "https://x/notification.xml".
Lemma elsewhere_offers f n : offers elsewhere_config elsewhere f n -> n = elsewhere_n.
Proof.
  intros (src & b & Hl & Hs & Hp). cbn in Hl. injection Hl as <-. destruct Hs as (k & t & hdr & Hs).
  assert (E : x_parse_notif safe_ext (json_text (j_notif elsewhere_n)) = Some elsewhere_n) by (by vm_compute).
  cbn [elsewhere run_env e_http e_ext] in Hs, Hp. unfold serve in Hs. cbn [Demo.assoc] in Hs. rewrite String.eqb_refl in Hs.
  injection Hs as _ Hb. rewrite <- Hb in Hp. assert (E' := eq_trans (eq_sym E) Hp). injection E' as E'. exact (eq_sym E').
Qed.
Definition err_b (r : res unit * world) : bool := match r with (Err ENotRelative, _) => true | _ => false end.
Lemma elsewhere_checked : err_b (run elsewhere_config elsewhere (tree3 1)) = true.
Proof. vme. Qed.
Lemma err_b_ok r : err_b r = true -> r.1 = Err ENotRelative.
Proof. by destruct r as [[|[]|] ?]. Qed.

Lemma new_xml : file_name "new.xml".
Proof. repeat split; try discriminate; by vm_compute. Qed.
Lemma tree3_no_links : no_links (staging_dir demo_config) (tree3 1).
Proof. exact (proj1 (proj2 (serve_honest 1 ltac:(lia)))). Qed.
Lemma tree3_mirror : mirror any_notif demo_config base name (tree3 1).
Proof. apply mirror3. lia. Qed.
Lemma elsewhere_outside rel : n_snap_uri elsewhere_n <> base +:+ rel.
Proof. apply strip_prefix_none. by vm_compute. Qed.

(** trust anchors are configured, and the notification has another name *)
Definition anchored_docs : list (string * string) :=
  (base +:+ "new.xml", json_text (j_notif fresh_notif)) :: content_docs 2 (ca_files "ta/" [] [] []).
Definition anchored : env := run_env anchored_docs 4600.
Definition anchored_config : config := with_notif tal_config (base +:+ "new.xml").
Lemma anchored_offers f n : offers anchored_config anchored f n -> n = fresh_notif.
Proof.
  intros (src & b & Hl & Hs & Hp). cbn in Hl. injection Hl as <-. destruct Hs as (k & t & hdr & Hs).
  assert (E : x_parse_notif safe_ext (json_text (j_notif fresh_notif)) = Some fresh_notif) by (by vm_compute).
  cbn [anchored run_env e_http e_ext] in Hs, Hp. unfold serve, anchored_docs in Hs. cbn [Demo.assoc] in Hs. rewrite String.eqb_refl in Hs.
  injection Hs as _ Hb. rewrite <- Hb in Hp. assert (E' := eq_trans (eq_sym E) Hp). injection E' as E'. exact (eq_sym E').
Qed.
Lemma fresh_good : good_notif base name fresh_notif.
Proof. apply good_check_ok. vme. Qed.
Lemma fresh_refs h : (base +:+ "new.xml", h) ∉ refs fresh_notif.
Proof. intros H%elem_of_list_singleton. injection H as H _. revert H. by vm_compute. Qed.
(** with the old URI the run publishes; with the new one it fails *)
Definition anchored_b (f : fs) (r r' : res unit * world) : bool :=
  fs_exists f (rrdp_state_path tal_config) && none_b f (staging_dir tal_config ++ ["new.xml"]) &&
  match r with
  | (Ok _, w) => negb (at_b (w_fs w) (notif_path tal_config name) (f !! notif_path tal_config name))
  | _ => false
  end &&
  match r' with (Err _, _) => true | _ => false end.
Lemma anchored_checked : anchored_b tal_run1 (run tal_config anchored tal_run1) (run anchored_config anchored tal_run1) = true.
Proof. vme. Qed.
Lemma anchored_ok f r r' : anchored_b f r r' = true ->
  fs_exists f (rrdp_state_path tal_config) = true /\ f !! (staging_dir tal_config ++ ["new.xml"]) = None /\
  (exists w, r = (Ok tt, w) /\ w_fs w !! notif_path tal_config name <> f !! notif_path tal_config name) /\
  exists x w, r' = (Err x, w).
Proof.
  unfold anchored_b. intros [[[H1 H2]%andb_true_iff H3]%andb_true_iff H4]%andb_true_iff. split; [exact H1|]. split.
  { unfold none_b in H2. by destruct (f !! _). }
  split.
  - destruct r as [[[]|x|] w]; [|done..]. exists w. split; [done|]. unfold at_b in H3. by apply negb_true_iff, bool_decide_eq_false in H3.
  - destruct r' as [[?|x|] w]; [done| |done]. by exists x, w.
Qed.

Opaque run.
(** A run that publishes the new version under the old name. *)
Example C79_applies :
  cfg_ok demo_config base name /\ mirror any_notif demo_config base name (tree3 1) /\
  fs_exists (tree3 1) (rrdp_state_path demo_config) = true /\ clean_snapshots (e_ext renamed) /\
  (forall n, offers renamed_config renamed (tree3 1) n -> good_notif base name n /\ one_hash n) /\
  located (e_ext renamed) (config_fetcher demo_config) (base +:+ name) = Some (SUri notif_uri Strict) /\
  located (e_ext renamed) (config_fetcher renamed_config) (base +:+ "new.xml") = Some (SUri (base +:+ "new.xml") Strict) /\
  file_name "new.xml" /\ no_bad_304 renamed /\ no_links (staging_dir demo_config) (tree3 1) /\
  exists w, run renamed_config renamed (tree3 1) = (Ok tt, w) /\
    w_fs w !! notif_path demo_config name <> tree3 1 !! notif_path demo_config name /\
    w_fs w !! notif_path demo_config "new.xml" = None.
Proof.
  destruct (renamed_ok _ _ renamed_checked) as [H1 H2].
  split; [apply demo_cfg_ok|]. split; [apply tree3_mirror|]. split; [exact H1|]. split; [apply safe_clean|].
  split; [intros n ->%renamed_offers; split; [apply src3_good|apply src3_one_hash]|].
  split; [reflexivity|]. split; [reflexivity|]. split; [exact new_xml|]. split; [apply serve_no_304|].
  split; [exact tree3_no_links|]. exact H2.
Qed.
(** A run that fails, although the other source has all its files. *)
Example C79_base_applies :
  (forall n rel, offers elsewhere_config elsewhere (tree3 1) n -> n_snap_uri n <> base +:+ rel) /\
  c_state_dir elsewhere_config = c_state_dir demo_config /\
  (run elsewhere_config elsewhere (tree3 1)).1 = Err ENotRelative.
Proof.
  split; [|split; [done|]].
  - intros n rel ->%elsewhere_offers. apply elsewhere_outside.
  - apply err_b_ok, elsewhere_checked.
Qed.
(** A run that would publish under the old URI, and fails under the new one. *)
Example C79_anchors_apply :
  cfg_ok tal_config base name /\ mirror any_notif tal_config base name tal_run1 /\
  fs_exists tal_run1 (rrdp_state_path tal_config) = true /\ c_tal_files tal_config <> [] /\
  https_parent (base +:+ "new.xml") = Some base /\ file_name "new.xml" /\ "new.xml" <> name /\
  (forall n, offers anchored_config anchored tal_run1 n -> good_notif base name n /\ forall h, (base +:+ "new.xml", h) ∉ refs n) /\
  tal_run1 !! (staging_dir tal_config ++ ["new.xml"]) = None /\
  (exists w, run tal_config anchored tal_run1 = (Ok tt, w) /\
     w_fs w !! notif_path tal_config name <> tal_run1 !! notif_path tal_config name) /\
  exists x w, run anchored_config anchored tal_run1 = (Err x, w).
Proof.
  destruct (anchored_ok _ _ _ anchored_checked) as (H1 & H2 & H3).
  split; [apply fresh_setting|]. split; [apply fresh_setting|]. split; [exact H1|]. split; [discriminate|].
  split; [reflexivity|]. split; [exact new_xml|]. split; [discriminate|].
  split; [intros n ->%anchored_offers; split; [apply fresh_good|apply fresh_refs]|]. split; [exact H2|]. exact H3.
Qed.
Transparent run.
Print Assumptions C79_other_name.
Print Assumptions C79_old_name.
Print Assumptions C79_other_base.
Print Assumptions C79_with_anchors.
