(** * The requests a program sends *)
From Verif Require Export RunCoarse.

(** only requests satisfying [R] *)
Definition http_ok (R : https -> fetch_mode -> option string -> Prop) (ev : event) : Prop :=
  match ev with EvHttp u m t => R u m t | _ => True end.
Definition asks {A} (e : env) (R : https -> fetch_mode -> option string -> Prop) (m : M A) : Prop :=
  forall w, wpt e (http_ok R) m w (fun _ _ => True).

Section asks.
  Context (e : env) (R : https -> fetch_mode -> option string -> Prop).
  Lemma asks_ret {A} (a : A) : asks e R (mret a).
  Proof. intros w. by apply wpt_ret. Qed.
  Lemma asks_fail {A} x : asks e R (fail (A := A) x).
  Proof. intros w. by apply wpt_fail. Qed.
  Lemma asks_panic {A} : asks e R (panic (A := A)).
  Proof. intros w. by apply wpt_panic. Qed.
  Lemma asks_bind {A B} (m : M A) (k : A -> M B) : asks e R m -> (forall a, asks e R (k a)) -> asks e R (m ≫= k).
  Proof. intros H1 H2 w. apply wpt_bind. eapply wpt_post; [apply H1|]. intros [a|x|] w' _; auto. by apply H2. Qed.
  Lemma asks_catch {A} (m : M A) : asks e R m -> asks e R (catch m).
  Proof. intros H1 w. apply wpt_catch. eapply wpt_post; [apply H1|]. intros [a|x|] w' _; auto. Qed.
  Lemma asks_of_option {A} x (o : option A) : asks e R (of_option x o).
  Proof. intros w. by apply wpt_of_option. Qed.
  Lemma asks_when b m : asks e R m -> asks e R (when_ b m).
  Proof. destruct b; [done|]. intros _. apply asks_ret. Qed.
  Lemma asks_unless b m : asks e R m -> asks e R (unless_ b m).
  Proof. destruct b; [|done]. intros _. apply asks_ret. Qed.
  Lemma asks_for_each {A} (l : list A) (f : A -> M unit) :
    (forall a, a ∈ l -> asks e R (f a)) -> asks e R (for_each l f).
  Proof.
    induction l as [|a l IH]; intros H; cbn; [apply asks_ret|].
    apply asks_bind; [apply H; constructor|]. intros []. apply IH. intros b Hb. apply H. by constructor.
  Qed.
  Lemma asks_getext : asks e R getext.
  Proof. intros w. by apply wpt_getext. Qed.
  Lemma asks_exists p : asks e R (f_exists p).
  Proof. intros w. by apply wpt_exists. Qed.
  Lemma asks_is_file p : asks e R (f_is_file p).
  Proof. intros w. by apply wpt_is_file. Qed.
  Lemma asks_is_dir p : asks e R (f_is_dir p).
  Proof. intros w. by apply wpt_is_dir. Qed.
  Lemma asks_read p : asks e R (f_read p).
  Proof. intros w. by apply wpt_read. Qed.
  Lemma asks_clock : asks e R clock.
  Proof. intros w. by apply wpt_clock. Qed.
  Lemma asks_script p : asks e R (run_script p).
  Proof. intros w. by apply wpt_script. Qed.
  Lemma asks_sleep p : asks e R (sleep p).
  Proof. intros w. by apply wpt_sleep. Qed.
  Lemma asks_step k f : asks e R (fs_step k f).
  Proof.
    intros w. unfold wpt, fs_step.
    assert (H : forall l, exists l', w_trace (push_fs l w) = w_trace w ++ l' /\ Forall (http_ok R) l').
    { intros l. exists (EvFs <$> l). split; [done|]. apply Forall_fmap. by apply Forall_true. }
    destruct (f (w_fs w)) as [[mids fin]|]; [destruct (e_fault e (w_n w) k)|]; cbn [fst snd].
    - destruct (H (take n mids)) as (l' & H1 & H2). by exists l'.
    - destruct (H (mids ++ [fin])) as (l' & H1 & H2). by exists l'.
    - destruct (H []) as (l' & H1 & H2). by exists l'.
  Qed.
End asks.
Global Hint Resolve asks_ret asks_fail asks_panic asks_catch asks_of_option asks_when asks_unless asks_getext asks_exists
  asks_is_file asks_is_dir asks_read asks_clock asks_script asks_sleep asks_step : asks.
Ltac ask := repeat first [progress (auto with asks) | apply asks_bind; [|intros ?]].

Section programs.
  Context (e : env) (R : https -> fetch_mode -> option string -> Prop).
  Lemma asks_create_dir_all p : asks e R (create_dir_all p).
  Proof. apply asks_for_each. intros. apply asks_step. Qed.
  Lemma asks_create_path p : asks e R (create_path_for_file p).
  Proof. apply asks_bind; [auto with asks|]. intros. apply asks_create_dir_all. Qed.
  Lemma asks_write_buf p b : asks e R (write_buf p b).
  Proof. apply asks_bind; [apply asks_create_path|]. intros. apply asks_step. Qed.
  Lemma asks_move_file a b r : asks e R (move_file a b r).
  Proof.
    apply asks_bind; [apply asks_create_path|]. intros _. apply asks_bind; [auto with asks|]. intros ex.
    destruct (negb ex); [auto with asks|]. apply asks_bind; [apply asks_catch, asks_step|]. intros [|].
    - apply asks_ret.
    - apply asks_bind; [apply asks_step|]. intros _. apply asks_step.
  Qed.
  Lemma asks_remove_up rp : asks e R (remove_up rp).
  Proof.
    induction rp as [|a rp IH]; cbn [remove_up].
    all: apply asks_bind; [auto with asks|]; intros isf.
    all: apply asks_bind; [destruct isf; [apply asks_step|apply asks_bind; [auto with asks|]; intros []; [apply asks_step|auto with asks]]|].
    all: intros _.
    - apply asks_ret.
    - apply asks_bind; [by apply asks_catch|]. intros. apply asks_ret.
  Qed.
  Lemma asks_deprecate_all l : asks e R (deprecate_all l).
  Proof.
    induction l as [|p l IH]; cbn; [apply asks_ret|]. apply asks_bind.
    - apply asks_bind; [apply asks_clock|]. intros. apply asks_ret.
    - intros. apply asks_bind; [done|]. intros. apply asks_ret.
  Qed.
  Lemma asks_clean st c : asks e R (clean st c).
  Proof.
    apply asks_bind; [apply asks_bind; [apply asks_clock|intros; apply asks_ret]|]. intros t.
    apply asks_bind; [|intros; apply asks_ret]. apply asks_for_each. intros d _.
    apply asks_bind; [apply asks_exists|]. intros ex. apply asks_when, asks_remove_up.
  Qed.
  Lemma asks_apply st sg c : asks e R (apply_staged_changed st sg c).
  Proof.
    apply asks_bind; [apply asks_move_file|]. intros _. apply asks_bind; [apply asks_for_each; intros; apply asks_move_file|]. intros _.
    apply asks_bind.
    { unfold deprecate_snapshot. destruct (snapshot_path st); [|apply asks_ret].
      apply asks_bind; [apply asks_bind; [apply asks_clock|intros; apply asks_ret]|]. intros. apply asks_ret. }
    intros st1. apply asks_bind; [|intros; apply asks_clean]. destruct (sg_reset sg).
    - apply asks_bind; [apply asks_deprecate_all|]. intros. apply asks_ret.
    - unfold deltas_deprecate_before. destruct (split_before _ _). apply asks_bind; [apply asks_deprecate_all|]. intros. apply asks_ret.
  Qed.
  Lemma asks_rsync st c : asks e R (update_from_rrdp_state st c).
  Proof.
    unfold update_from_rrdp_state. destruct (st_snap st) as [s|]; [|apply asks_ret]. cbv zeta.
    apply asks_bind.
    { apply asks_bind; [apply asks_exists|]. intros []; [|apply asks_ret]. apply asks_bind; [apply asks_read|]. intros. apply asks_of_option. }
    intros rs. apply asks_bind.
    { apply asks_bind; [apply asks_exists|]. intros. apply asks_unless, asks_create_dir_all. }
    intros _. apply asks_bind.
    { apply asks_bind; [apply asks_read|]. intros b. apply asks_bind; [apply asks_getext|]. intros x.
      destruct (x_snapshot x b) as [els fine]. apply asks_bind; [|intros; destruct fine; [apply asks_ret|apply asks_fail]].
      apply asks_for_each. intros [u d] _. apply asks_bind; [apply asks_of_option|]. intros b'.
      apply asks_bind; [apply asks_write_buf|]. intros _. apply asks_bind; [apply asks_getext|]. intros x'.
      destruct (object_time _ _ _); [|apply asks_ret]. apply asks_bind; [apply asks_catch, asks_step|]. intros. apply asks_ret. }
    intros _. apply asks_bind.
    { destruct (use_symlinks c).
      - unfold symlink_current. cbv zeta. apply asks_bind; [apply asks_exists|]. intros ex.
        apply asks_bind; [apply asks_when, asks_step|]. intros _. apply asks_bind; [apply asks_step|]. intros _. apply asks_step.
      - unfold rename_new_revision. cbv zeta. apply asks_bind; [|intros _; apply asks_step].
        destruct (rs_current rs); [|apply asks_ret]. apply asks_bind; [apply asks_exists|]. intros ex. apply asks_when, asks_step. }
    intros _. apply asks_bind.
    { unfold update_current. destruct (rs_current rs); [|apply asks_ret]. apply asks_bind; [apply asks_clock|]. intros. apply asks_ret. }
    intros rs1. apply asks_bind; [|intros; apply asks_write_buf].
    apply asks_bind; [apply asks_bind; [apply asks_clock|intros; apply asks_ret]|]. intros t.
    apply asks_bind; [|intros; apply asks_ret]. apply asks_for_each. intros o _.
    apply asks_bind; [apply asks_exists|]. intros ex. apply asks_when, asks_step.
  Qed.
  Lemma asks_mp_uri m r : asks e R (mp_uri m r).
  Proof. unfold mp_uri. ask. Qed.
  Lemma asks_notification st d : asks e R (write_notification st d).
  Proof.
    apply asks_bind; [apply asks_when, asks_sleep|]. intros _. cbv zeta. apply asks_bind.
    { apply asks_bind; [apply asks_of_option|]. intros s. apply asks_bind; [apply asks_mp_uri|]. intros u.
      apply asks_bind; [|intros; apply asks_ret]. induction (st_deltas st) as [|d' l IH]; cbn [delta_infos]; [apply asks_ret|].
      apply asks_bind; [apply asks_mp_uri|]. intros. apply asks_bind; [done|]. intros. apply asks_ret. }
    intros n. apply asks_bind; [apply asks_getext|]. intros x. apply asks_bind; [apply asks_write_buf|]. intros _. apply asks_step.
  Qed.
  Lemma asks_scripts c : asks e R (pre_validate_scripts c).
  Proof.
    unfold pre_validate_scripts. destruct (is_empty (c_scripts c)); [apply asks_ret|].
    apply asks_bind; [|intros issues; destruct (issues && c_reject c); [apply asks_fail|apply asks_ret]].
    generalize false as b. induction (c_scripts c) as [|p l IH]; intros b; cbn [run_scripts]; [apply asks_ret|].
    apply asks_bind; [apply asks_script|]. intros []; [apply IH|apply IH|apply asks_fail].
  Qed.
  Lemma asks_load c : asks e R (load_state c).
  Proof.
    unfold load_state. apply asks_bind; [apply asks_exists|]. intros []; [|].
    - unfold recover. apply asks_bind; [apply asks_read|]. intros. apply asks_of_option.
    - unfold create, mappings_build, notif_source_build. ask. case_match; ask.
  Qed.

  (** staging *)
  Lemma asks_fetch src h t target : req_ok (http_ok R) src t -> asks e R (fetch src h t target).
  Proof.
    intros Hr. unfold fetch. apply asks_bind.
    - unfold fetch_raw. destruct src as [p|u m]; [apply asks_bind; [apply asks_read|intros; apply asks_ret]|].
      apply asks_bind; [intros w; by apply wpt_http|]. intros [|st hdr body]; [apply asks_fail|].
      destruct (st =? 200)%N; [|destruct (st =? 304)%N; ask].
      apply asks_bind; [destruct hdr as [[]|]; ask|]. intros. destruct body; ask.
    - intros r. apply asks_bind; [apply asks_getext|]. intros x. apply asks_bind.
      + destruct h, r; try apply asks_ret. destruct (hash_matches _ _ _); ask.
      + intros _. destruct target, r; try apply asks_ret. apply asks_bind; [apply asks_write_buf|]. intros. apply asks_ret.
  Qed.
  Lemma asks_retrieve f u h target :
    (forall src, located (e_ext e) f u = Some src -> req_ok (http_ok R) src None) -> asks e R (retrieve_file f u h target).
  Proof.
    intros Hr. unfold retrieve_file. apply asks_bind; [apply asks_getext|]. intros x.
    apply asks_bind; [apply asks_catch, asks_read|].
    assert (H : asks e R (src ← resolve_source f u; _ ← fetch src (Some h) None (Some target); mret tt)).
    { intros w. apply wpt_bind. apply w_resolve_source; [|done]. intros src Hs. cbn.
      apply asks_bind; [by apply asks_fetch, Hr|]. intros. apply asks_ret. }
    intros [b|]; [|done]. destruct (hash_matches x h b); [apply asks_ret|done].
  Qed.
  Lemma asks_relative m u : asks e R (mp_relative m u).
  Proof. unfold mp_relative. ask. Qed.
  Lemma asks_deltas_stage st reset f c l :
    (forall d src, d ∈ l -> located (e_ext e) f (di_uri d) = Some src -> req_ok (http_ok R) src None) ->
    asks e R (deltas_stage st reset f c l).
  Proof.
    induction l as [|d l IH]; intros Hr; cbn [deltas_stage]; [apply asks_ret|].
    assert (IH' : asks e R (deltas_stage st reset f c l)) by (apply IH; intros d' src Hd; apply Hr; by right).
    destruct (delta_is_new st reset (di_serial d)); [|done].
    apply asks_bind; [apply asks_relative|]. intros rel. apply asks_bind.
    { apply asks_retrieve. intros src. apply Hr. by left. }
    intros _. apply asks_bind; [apply asks_relative|]. intros rel'. apply asks_bind; [apply asks_clock|]. intros.
    apply asks_bind; [done|]. intros. apply asks_ret.
  Qed.
  Lemma w_staging_requests st c w :
    (forall src, located (e_ext e) (config_fetcher c) (c_notif_uri c) = Some src ->
       req_ok (http_ok R) src (ns_etag (st_source st))) ->
    (forall n u h src, offers c e (w_fs w) n -> (u, h) ∈ refs n ->
       located (e_ext e) (config_fetcher c) u = Some src -> req_ok (http_ok R) src None) ->
    wpt e (http_ok R) (update_staged st c) w (fun _ _ => True).
  Proof.
    intros H1 H2. unfold update_staged. cbv zeta. apply wpt_bind.
    assert (H : wpt e (http_ok R) (notif_source_fetch (st_source st) (config_fetcher c)) w
      (fun r w' => match r with Ok (Some (n, _)) => offers c e (w_fs w) n | _ => True end)).
    { unfold notif_source_fetch. apply wpt_bind. apply w_read_notification; [done|..]; try done.
      - intros w' src b n t Hw Hl Hs Hp. apply wpt_ret. exists src, b. done.
      - intros w' src Hw Hl Hs. by apply wpt_ret. }
    eapply wpt_post; [exact H|]. clear H. intros [[[n0 t]|]|x|] w' Hn; cbn; auto; [|by apply wpt_ret].
    revert w'. change (asks e R (x ← getext;
      match sort_and_verify x (c_max_deltas c) n0 with
      | Some (n, fine) => if negb fine then fail EGap else
          match compare_version st n with
          | VUpdate reset => write_buf (staging_path c (ns_name (st_source st))) (x_write_notif x n);;
              snap ← snapshot_stage st n (config_fetcher c) c;
              deltas ← deltas_stage st reset (config_fetcher c) c (n_deltas n);
              mret (Some (mkStaged t snap deltas (cutoff_of n) reset))
          | VSame => mret None
          | VBehind => fail ESerialBehind
          end
      | None => panic end)).
    apply asks_bind; [apply asks_getext|]. intros x.
    destruct (sort_and_verify x (c_max_deltas c) n0) as [[n fine]|] eqn:Ev; [|apply asks_panic].
    destruct (negb fine); [apply asks_fail|]. destruct (compare_version st n); [|apply asks_ret|apply asks_fail].
    apply asks_bind; [apply asks_write_buf|]. intros _. apply asks_bind.
    { unfold snapshot_stage. apply asks_bind; [apply asks_relative|]. intros rel. apply asks_bind.
      - apply asks_retrieve. intros src. eapply (H2 n0 _ (n_snap_hash n)); [done|].
        eapply sav_refs; [exact Ev|]. by left.
      - intros _. apply asks_bind; [apply asks_relative|]. intros. apply asks_bind; [apply asks_clock|]. intros. apply asks_ret. }
    intros snap. apply asks_bind; [|intros; apply asks_ret].
    apply asks_deltas_stage. intros d src Hd. eapply (H2 n0 _ (di_hash d)); [done|].
    eapply sav_refs; [exact Ev|]. right. apply elem_of_list_fmap. by exists d.
  Qed.

  (** a whole run *)
  Lemma w_run_asks c f :
    (forall w st, load_state c e (resume f) = (Ok st, w) -> asks e R (pre_validate st c)) ->
    (forall src t, located (e_ext e) (config_fetcher c) (c_notif_uri c) = Some src -> 
       (exists w st, load_state c e (resume f) = (Ok st, w) /\ t = ns_etag (st_source st)) -> req_ok (http_ok R) src t) ->
    (forall n u h src, offers c e f n -> (u, h) ∈ refs n ->
       located (e_ext e) (config_fetcher c) u = Some src -> req_ok (http_ok R) src None) ->
    wpt e (http_ok R) (process c) (resume f) (fun _ _ => True).
  Proof.
    intros Ht H1 H2. unfold process.
    assert (HL : wpt e (http_ok R) (load_state c) (resume f) (fun r w => w_fs w = f /\ (r, w) = load_state c e (resume f))).
    { destruct (asks_load c (resume f)) as (l & E1 & E2 & _). exists l. split; [done|]. split; [done|]. split.
      - assert (H : keeps e (fun g => g = f) (load_state c)).
        { unfold load_state. apply keeps_bind; [apply keeps_exists|]. intros []; [|].
          - unfold recover. apply keeps_bind; [apply keeps_read|]. intros. apply keeps_of_option.
          - unfold create, mappings_build, notif_source_build. repeat first [apply keeps_of_option|apply keeps_ret|apply keeps_panic|case_match|apply keeps_bind; [|intros ?]]. }
        specialize (H (resume f) eq_refl). by apply wpt_elim in H.
      - by destruct (load_state c e (resume f)). }
    apply wpt_bind. eapply wpt_post; [exact HL|]. intros [st|x|] w [Hw Hl]; cbn; auto.
    apply wpt_bind. eapply wpt_post; [apply w_staging_requests|].
    - intros src Hs. eapply H1; [done|]. exists w, st. done.
    - rewrite Hw. done.
    - intros [[sg|]|x|] w' _; cbn; auto; [|by apply wpt_ret]. revert w'. apply asks_bind.
      { by apply (Ht w). }
      intros st1. apply asks_bind; [apply asks_scripts|]. intros _. apply asks_bind; [apply asks_apply|]. intros st2.
      apply asks_bind; [apply asks_when, asks_rsync|]. intros _. apply asks_bind; [apply asks_notification|]. intros _.
      apply asks_write_buf.
  Qed.
  (** without trust anchors *)
  Lemma w_run_requests c f :
    c_tal_files c = [] ->
    (forall src t, located (e_ext e) (config_fetcher c) (c_notif_uri c) = Some src -> 
       (exists w st, load_state c e (resume f) = (Ok st, w) /\ t = ns_etag (st_source st)) -> req_ok (http_ok R) src t) ->
    (forall n u h src, offers c e f n -> (u, h) ∈ refs n ->
       located (e_ext e) (config_fetcher c) u = Some src -> req_ok (http_ok R) src None) ->
    wpt e (http_ok R) (process c) (resume f) (fun _ _ => True).
  Proof.
    intros Ht. apply w_run_asks. intros _ st _ w1. unfold pre_validate, reconfigure_validator. rewrite Ht.
    exists []. by rewrite app_nil_r.
  Qed.
End programs.
