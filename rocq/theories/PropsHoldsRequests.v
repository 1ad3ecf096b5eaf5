(** * All requests of a run, also those of the validator (C41, C44, C45) *)
From Verif Require Import PropsValidator PropsRequests ReadBack Refuted PropsDecide.
From Verif Require Import FsWf.

(** the requests of a validator that was set up by krill-sync *)
Lemma usual_fetcher c v e (R : https -> fetch_mode -> option string -> Prop) u : usual_validator c v -> (forall u t, R u Insecure t) ->
  fetcher_ok e (http_ok R) (get_fetcher (vd_repos v) u).
Proof.
  intros [_ (b & Hb & Ef)] HR u' src t. unfold get_fetcher. rewrite Ef.
  destruct (decide (u = c_notif_uri c)) as [->|Hne].
  - rewrite lookup_singleton. cbn. unfold located. cbn. destruct (strip_prefix b u'); [|done]. by intros [= <-].
  - rewrite lookup_singleton_ne by done. cbn. intros [= <-]. cbn. apply HR.
Qed.
Lemma asks_read_tals e R l : asks e R (read_tals l).
Proof.
  induction l as [|p l IH]; cbn [read_tals]; [apply asks_ret|]. apply asks_bind; [apply asks_read|]. intros b.
  apply asks_bind; [|intros t; apply asks_bind; [exact IH|intros; apply asks_ret]].
  unfold tal_parse. apply asks_bind; [apply asks_getext|]. intros x. apply asks_bind; [apply asks_of_option|]. intros [uris key].
  apply asks_bind; [apply asks_of_option|]. intros. apply asks_ret.
Qed.
Lemma asks_initialise c v e (R : https -> fetch_mode -> option string -> Prop) : usual_validator c v -> (forall u t, R u Insecure t) ->
  asks e R (initialise_staging_data v (c_notif_uri c)).
Proof.
  intros Hv HR. unfold initialise_staging_data. apply asks_bind; [apply asks_clock|]. intros now. apply asks_bind.
  - intros w. apply w_get_latest; [|done]. intros _ _. split; [done|]. by eapply usual_fetcher.
  - intros [v' [d|x]]; [apply asks_ret|apply asks_fail].
Qed.
Lemma asks_validate c v off e (R : https -> fetch_mode -> option string -> Prop) : order_ok (e_ext e) -> usual_validator c v -> (forall u t, R u Insecure t) ->
  asks e R (validate v off).
Proof.
  intros Hx Hv HR. unfold validate. apply asks_bind; [apply asks_clock|]. intros now w.
  apply w_validate_at; try done.
  - intros _. split; [done|]. intros u. by eapply usual_fetcher.
  - intros t Ht. destruct Hv as [Hv _]. rewrite Forall_forall in Hv. destruct (Hv t Ht) as [u ->]. cbn. apply HR.
Qed.
Lemma wpt_yields {A} e J (m : M A) w (P : A -> Prop) : wpt e J m w (fun _ _ => True) -> yields P m ->
  wpt e J m w (fun r _ => forall a, r = Ok a -> P a).
Proof.
  intros (l & H1 & H2 & _) HP. exists l. split; [done|]. split; [done|]. destruct (m e w) as [r w'] eqn:E. cbn.
  intros a ->. by eapply HP.
Qed.
Lemma asks_pre_validate st c e (R : https -> fetch_mode -> option string -> Prop) : order_ok (e_ext e) -> usual_check c (st_validator st) ->
  (c_tal_files c <> [] -> forall u t, R u Insecure t) -> asks e R (pre_validate st c).
Proof.
  intros Hx Hv HR.
  destruct (c_tal_files c) as [|p l] eqn:Et.
  { intros w. unfold pre_validate, reconfigure_validator. rewrite Et. exists []. by rewrite app_nil_r. }
  assert (HR' : forall u t, R u Insecure t) by (by apply HR). clear HR.
  intros w. unfold pre_validate. apply wpt_bind. eapply wpt_post.
  - apply wpt_yields; [|by apply reconfigure_usual]. unfold reconfigure_validator. apply wpt_bind.
    eapply wpt_post.
    + eapply (wpt_yields _ _ _ _ (fun st' => usual_check c (st_validator st'))).
      * rewrite Et. cbn [is_empty]. revert w. apply asks_bind.
        -- unfold create_validator. apply asks_bind; [apply asks_read_tals|]. intros. apply asks_bind; [apply asks_of_option|]. intros. apply asks_ret.
        -- intros v. apply asks_ret.
      * rewrite Et. cbn [is_empty]. eapply yields_bind; [by apply create_validator_usual|]. intros v Hcv. apply yields_ret.
        by destruct (new_validator_needed st v).
    + intros [st1|x|] w1 H1; cbn; auto. specialize (H1 _ eq_refl). cbv beta in H1.
      destruct (st_validator st1) as [v|] eqn:Ev; [|by apply wpt_ret].
      revert w1. apply asks_bind; [by apply asks_initialise|]. intros. apply asks_ret.
  - intros [st1|x|] w1 H1; cbn; auto. specialize (H1 _ eq_refl). cbv beta in H1.
    destruct (st_validator st1) as [v|] eqn:Ev; [|by apply wpt_ret].
    revert w1. apply asks_bind; [by eapply asks_validate|]. intros [v' rep]. cbv zeta.
    destruct (rp_repos rep !! c_notif_uri c) as [rr|].
    + destruct (is_empty (rr_issues rr)); [apply asks_ret|]. destruct (c_reject c); [apply asks_fail|apply asks_ret].
    + destruct (c_reject c); [apply asks_fail|apply asks_ret].
Qed.

(** Every request of a run is one for the notification or a file that it lists,
    sent where the command line says, as strict about TLS as it says, and
    unconditional; or it is one of the validator, and those ignore TLS errors,
    whatever the command line says. *)
Theorem C45_all_requests c base name e f u m t :
  setting c base name e f -> order_ok (e_ext e) -> EvHttp u m t ∈ w_trace (run c e f).2 ->
  (exists uri, wanted c e f uri /\ located (e_ext e) (config_fetcher c) uri = Some (SUri u m) /\ t = None) \/
  (c_tal_files c <> [] /\ m = Insecure).
Proof.
  intros Hs Hx Hin. pose proof (setting_sane _ _ _ _ _ Hs) as Hsn.
  assert (Hload : forall w st, load_state c e (resume f) = (Ok st, w) -> starts_from c base name f st).
  { intros w st El. assert (H : wpt e anyev (load_state c) (resume f) (fun r _ => forall st, r = Ok st -> starts_from c base name f st)).
    { apply (w_load_state c base name (sn_cfg _ _ _ _ _ Hsn)).
      - by intros w' st' _ Hst ? [= <-].
      - by intros. }
    apply wpt_elim in H. apply H. by rewrite El. }
  pose (R := fun (u : https) (m : fetch_mode) (t : option string) => (exists uri, wanted c e f uri /\ located (e_ext e) (config_fetcher c) uri = Some (SUri u m) /\ t = None) \/
    (c_tal_files c <> [] /\ m = Insecure)).
  destruct (w_run_asks e R c f) as (l & E & HJ & _).
  - intros w st El. apply asks_pre_validate; [done| |].
    + apply Hload in El. by eapply setting_usual.
    + intros Ht u' t'. right. done.
  - intros src t' Hl (w & st & El & ->). destruct src as [p|u' m']; [done|]. cbn. left.
    exists (c_notif_uri c). split; [by left|]. split; [done|]. apply Hload in El.
    apply (start_good c base name e f Hsn) in El. by rewrite (gs_source _ _ _ _ El).
  - intros n uri h [p|u' m'] Ho Hr Hl; [done|]. cbn. left. exists uri. split; [|done]. right. by exists n, h.
  - unfold run in Hin. rewrite E in Hin. cbn in Hin. rewrite Forall_forall in HJ. by apply (HJ _ Hin).
Qed.
(** the same, in terms of the command line *)
Theorem C45_strictness f0 a c s base name e f parent u m t :
  post_configure f0 a = Ok c -> cli_source_base a = source_of_str (e_ext e) <$> s ->
  https_parent (cli_notif_uri a) = Some parent ->
  setting c base name e f -> order_ok (e_ext e) -> EvHttp u m t ∈ w_trace (run c e f).2 ->
  (exists uri, wanted c e f uri /\ goes_to (e_ext e) s (cli_insecure a) parent uri u m /\ t = None) \/
  (cli_tal_files a <> [] /\ m = Insecure).
Proof.
  intros Hp Hb Hpar Hs Hx Hin. destruct (C45_all_requests _ _ _ _ _ _ _ _ Hs Hx Hin) as [(uri & Hw & Hl & Ht)|[Ht Hm]].
  - left. exists uri. split; [done|]. split; [|done]. by eapply located_goes_to.
  - right. split; [|done]. intros E. apply Ht. unfold post_configure in Hp.
    destruct (post_configure_source _ _ _ _) as [[]| |]; try done.
    destruct (post_configure_dirs _ _ _). by injection Hp as <-.
Qed.

(** Non-vacuity: a strict configuration with a TAL.  Its first run sends both
    kinds of requests. *)
Definition tal_env : env := run_env (content_docs 1 (ca_files "ta/" [] [] [])) 0.
Definition tal_notif : notification := mkNotif uuid_A 1 (base +:+ "s1") (demo_hash (snap_text (ca_files "ta/" [] [] []))) [].
Lemma tal_offers f n : offers tal_config tal_env f n -> n = tal_notif.
Proof.
  intros H. apply serve_offers in H as (b & H1 & H2); [|reflexivity..].
  assert (E : match Demo.assoc (content_docs 1 (ca_files "ta/" [] [] [])) notif_uri with
              | Some b => bool_decide (x_parse_notif safe_ext b = Some tal_notif) | None => false end = true) by vme.
  rewrite H1 in E. apply bool_decide_eq_true in E. rewrite E in H2. by injection H2 as <-.
Qed.
Lemma tal_setting : setting tal_config base name tal_env tal_start.
Proof.
  split.
  - split; try (vm_compute; done); try (by repeat constructor); (split; intros [k Hk]; vm_compute in Hk; done).
  - apply mi_start; [apply wf_check_ok; vme|reflexivity].
  - split; [|apply safe_clean]. intros n ->%tal_offers. apply good_check_ok. vme.
Qed.
Definition sends_b (u : https) (m : fetch_mode) (l : list event) : bool :=
  existsb (fun ev => match ev with EvHttp u' m' None => String.eqb u' u && bool_decide (m' = m) | _ => false end) l.
Lemma sends_ok u m l : sends_b u m l = true -> EvHttp u m None ∈ l.
Proof.
  unfold sends_b. intros (ev & Hin & H)%existsb_exists. apply elem_of_list_In in Hin. destruct ev as [|u' m' [t|]| | |]; try done.
  apply andb_true_iff in H as [H1 H2]. apply String.eqb_eq in H1. apply bool_decide_eq_true in H2. by subst.
Qed.
Example C45_applies :
  setting tal_config base name tal_env tal_start /\ order_ok (e_ext tal_env) /\ c_insecure tal_config = false /\
  EvHttp notif_uri Strict None ∈ w_trace (run tal_config tal_env tal_start).2 /\
  EvHttp ta_uri Insecure None ∈ w_trace (run tal_config tal_env tal_start).2.
Proof.
  split; [apply tal_setting|]. split; [exact (demo_order_ok [] 0)|]. split; [reflexivity|].
  split; apply sends_ok; vme.
Qed.
Print Assumptions C45_all_requests.
Print Assumptions C45_strictness.
