(** * Validation keeps the paths in the recorded validator well formed *)
From Verif Require Export CodecProofs Rrdp.

(** every result of the program satisfies [P] *)
Definition yields {A} (P : A -> Prop) (m : M A) : Prop := forall e w a w', m e w = (Ok a, w') -> P a.

Lemma yields_ret {A} (P : A -> Prop) a : P a -> yields P (mret a).
Proof. by intros H e w b w' [= <- <-]. Qed.
Lemma yields_fail {A} (P : A -> Prop) x : yields P (fail x).
Proof. done. Qed.
Lemma yields_bind {A B} (R : A -> Prop) (P : B -> Prop) (m : M A) (k : A -> M B) :
  yields R m -> (forall a, R a -> yields P (k a)) -> yields P (m ≫= k).
Proof.
  intros Hm Hk e w b w'. unfold mbind, M_bind. destruct (m e w) as [[a|x|] w1] eqn:E; [|done..].
  intros Hb. by eapply Hk; [eapply Hm|].
Qed.
Lemma yields_step {A B} (P : B -> Prop) (m : M A) (k : A -> M B) :
  (forall a, yields P (k a)) -> yields P (m ≫= k).
Proof. intros Hk. by apply (yields_bind (fun _ => True)). Qed.

Lemma get_latest_fetchers v u offline when :
  yields (fun r => vi_fetchers r.1 = vi_fetchers v) (get_latest v u offline when).
Proof.
  unfold get_latest. destruct (vi_data v !! u) as [d|].
  - destruct (rd_fetched d); [by apply yields_ret|]. destruct offline; [by apply yields_ret|].
    apply yields_step. intros now. destruct (_ <? _)%Z; [by apply yields_ret|].
    apply yields_step. intros [[n etag|]|x]; [|by apply yields_ret..].
    destruct (_ && _); [by apply yields_ret|]. apply yields_step. intros [d1|x]; [by apply yields_ret|].
    apply yields_step. by intros [d2|x2]; apply yields_ret.
  - destruct offline; [by apply yields_ret|]. apply yields_step. by intros [d1|x]; apply yields_ret.
Qed.
Lemma fold_m_fetchers {A} (F : visited * report -> A -> M (visited * report)) v0 b (l : list A) :
  (forall a b', vi_fetchers b'.1 = vi_fetchers v0 -> yields (fun r => vi_fetchers r.1 = vi_fetchers v0) (F b' a)) ->
  vi_fetchers b.1 = vi_fetchers v0 ->
  yields (fun r => vi_fetchers r.1 = vi_fetchers v0) (fold_m F b l).
Proof.
  intros HF. revert b. induction l as [|a l IH]; intros b Hb; cbn [fold_m]; [by apply yields_ret|].
  eapply yields_bind; [by apply HF|]. intros b' Hb'. by apply IH.
Qed.
Lemma tree_fetchers fuel : forall v rc info offline when,
  yields (fun r => vi_fetchers r.1 = vi_fetchers v) (validate_tree_at fuel v rc info offline when).
Proof.
  induction fuel as [|k IH]; intros v rc info offline when; cbn [validate_tree_at]; [done|].
  destruct (ci_rrdp info) as [u|]; [|by apply yields_ret].
  eapply yields_bind; [apply get_latest_fetchers|]. intros [v1 [d|x]] Hv; cbn in Hv; [|by apply yields_ret].
  apply yields_step. intros x. destruct (check_ca x rc info (rd_objects d) when) as [ca' children].
  apply (fold_m_fetchers _ v); [|done].
  intros [crc cinfo] [v' rep] Hv'. eapply yields_bind; [apply IH|]. intros [v'' rep'] Hv''. apply yields_ret. cbn in *. congruence.
Qed.
(** validating keeps the trust anchors and the fetchers *)
Definition same_setup (vd vd' : validator) : Prop :=
  vd_tals vd' = vd_tals vd /\ vi_fetchers (vd_repos vd') = vi_fetchers (vd_repos vd).
Lemma validate_setup vd offline : yields (fun r => same_setup vd r.1) (validate vd offline).
Proof.
  unfold validate. apply yields_step. intros now. unfold validate_at.
  eapply (yields_bind (fun r : visited * report => vi_fetchers r.1 = vi_fetchers (vd_repos vd))).
  - apply (fold_m_fetchers _ (vd_repos vd)); [|done].
    intros t [v rep] Hv'. eapply (yields_bind (fun r : visited * report => vi_fetchers r.1 = vi_fetchers v)).
    + unfold validate_ta_at. apply yields_step. intros rc. apply yields_step. intros info. apply yields_step. intros e.
      apply tree_fetchers.
    + intros [v' rep'] Hv''. apply yields_ret. cbn in *. congruence.
  - intros [v rep] Hv'. apply yields_ret. by split.
Qed.
Lemma initialise_setup vd u : yields (same_setup vd) (initialise_staging_data vd u).
Proof.
  unfold initialise_staging_data. apply yields_step. intros now.
  eapply yields_bind; [apply get_latest_fetchers|]. intros [v [d|x]] Hv'; [|done]. apply yields_ret. by split.
Qed.
Lemma setup_clean vd vd' : same_setup vd vd' -> clean_validator vd -> clean_validator vd'.
Proof. intros [H1 H2] [Ht Hv]. split; [by rewrite H1|]. unfold clean_visited. by rewrite H2. Qed.
Lemma yields_post {A} (P Q : A -> Prop) (m : M A) : yields P m -> (forall a, P a -> Q a) -> yields Q m.
Proof. intros H HQ e w a w' E. by eapply HQ, H. Qed.
Lemma validate_clean vd offline : clean_validator vd -> yields (fun r => clean_validator r.1) (validate vd offline).
Proof. intros H. eapply yields_post; [apply validate_setup|]. intros r Hr. exact (setup_clean _ _ Hr H). Qed.
Lemma initialise_clean vd u : clean_validator vd -> yields clean_validator (initialise_staging_data vd u).
Proof. intros H. eapply yields_post; [apply initialise_setup|]. intros r Hr. exact (setup_clean _ _ Hr H). Qed.
Lemma read_tals_clean l : yields (Forall clean_tal) (read_tals l).
Proof.
  induction l as [|p l IH]; cbn [read_tals]; [by apply yields_ret|].
  apply yields_step. intros b. eapply (yields_bind clean_tal).
  - unfold tal_parse. apply yields_step. intros x. apply yields_step. intros [uris key]. apply yields_step.
    intros u. by apply yields_ret.
  - intros t Ht. eapply yields_bind; [exact IH|]. intros r Hr. apply yields_ret. by constructor.
Qed.
Lemma create_validator_clean c : clean_path (staging_dir c) -> yields clean_validator (create_validator c).
Proof.
  intros Hc. unfold create_validator. eapply yields_bind; [apply read_tals_clean|]. intros tals Ht.
  apply yields_step. intros base. apply yields_ret. split; [done|]. cbn. unfold clean_visited. cbn.
  apply map_Forall_insert_2; [done|]. apply map_Forall_empty.
Qed.

Definition clean_check (v : option validator) : Prop := match v with Some v => clean_validator v | None => True end.

Lemma pre_validate_clean st c : clean_path (staging_dir c) -> clean_check (st_validator st) ->
  yields (fun st' => clean_check (st_validator st')) (pre_validate st c).
Proof.
  intros Hc Hv. unfold pre_validate. eapply (yields_bind (fun st' => clean_check (st_validator st'))).
  - unfold reconfigure_validator. eapply (yields_bind (fun st' => clean_check (st_validator st'))).
    + destruct (is_empty (c_tal_files c)); [by apply yields_ret|].
      eapply yields_bind; [by apply create_validator_clean|]. intros v Hcv. apply yields_ret.
      by destruct (new_validator_needed st v).
    + intros st1 H1. destruct (st_validator st1) as [v|] eqn:E; [|apply yields_ret; by rewrite E].
      eapply yields_bind; [by apply initialise_clean|]. intros v' Hv'. by apply yields_ret.
  - intros st1 H1. cbv beta in H1. destruct (st_validator st1) as [v|] eqn:E; [|apply yields_ret; by rewrite E].
    eapply yields_bind; [by apply validate_clean|]. intros [v' rep] Hv'. cbn in Hv'. cbv zeta.
    destruct (rp_repos rep !! c_notif_uri c) as [rr|].
    + destruct (is_empty (rr_issues rr)); [by apply yields_ret|]. destruct (c_reject c); [done|by apply yields_ret].
    + destruct (c_reject c); [done|by apply yields_ret].
Qed.

(** The validator is one that krill-sync sets up for this configuration: trust
    anchors are fetched from the network ignoring TLS errors, and the only
    repository with a fetcher is the synced one, read from the staging directory. *)
Definition usual_validator (c : config) (vd : validator) : Prop :=
  Forall (fun t => exists u, tl_source t = SUri u Insecure) (vd_tals vd) /\
  exists base, https_parent (c_notif_uri c) = Some base /\
    vi_fetchers (vd_repos vd) =
      {[c_notif_uri c := mkFetcher (c_notif_uri c) (Some (mkFM base (SFile (staging_dir c)))) Insecure]}.
Definition usual_check (c : config) (v : option validator) : Prop :=
  match v with Some v => usual_validator c v | None => True end.
Lemma setup_usual c vd vd' : same_setup vd vd' -> usual_validator c vd -> usual_validator c vd'.
Proof. intros [H1 H2] [Ht Hv]. split; [by rewrite H1|]. by rewrite H2. Qed.
Lemma create_validator_usual c : yields (usual_validator c) (create_validator c).
Proof.
  unfold create_validator. eapply (yields_bind (Forall (fun t => exists u, tl_source t = SUri u Insecure))).
  - induction (c_tal_files c) as [|p l IH]; cbn [read_tals]; [by apply yields_ret|].
    apply yields_step. intros b. eapply (yields_bind (fun t => exists u, tl_source t = SUri u Insecure)).
    + unfold tal_parse. apply yields_step. intros x. apply yields_step. intros [uris key]. apply yields_step.
      intros u. apply yields_ret. by exists u.
    + intros t Ht. eapply yields_bind; [exact IH|]. intros r Hr. apply yields_ret. by constructor.
  - intros tals Ht. eapply (yields_bind (fun b => https_parent (c_notif_uri c) = Some b)).
    + destruct (https_parent (c_notif_uri c)); [by apply yields_ret|apply yields_fail].
    + intros base Hb. apply yields_ret. split; [done|]. by exists base.
Qed.
Lemma reconfigure_usual st c : usual_check c (st_validator st) ->
  yields (fun st' => usual_check c (st_validator st')) (reconfigure_validator st c).
Proof.
  intros Hv. unfold reconfigure_validator. eapply (yields_bind (fun st' => usual_check c (st_validator st'))).
  - destruct (is_empty (c_tal_files c)); [by apply yields_ret|].
    eapply yields_bind; [by apply create_validator_usual|]. intros v Hcv. apply yields_ret.
    by destruct (new_validator_needed st v).
  - intros st1 H1. cbv beta in H1. destruct (st_validator st1) as [v|] eqn:E; [|apply yields_ret; by rewrite E].
    eapply yields_bind; [by apply initialise_setup|]. intros v' Hv'. apply yields_ret. exact (setup_usual _ _ _ Hv' H1).
Qed.
Lemma pre_validate_usual st c : usual_check c (st_validator st) ->
  yields (fun st' => usual_check c (st_validator st')) (pre_validate st c).
Proof.
  intros Hv. unfold pre_validate. eapply yields_bind; [by apply reconfigure_usual|].
  intros st1 H1. cbv beta in H1. destruct (st_validator st1) as [v|] eqn:E; [|apply yields_ret; by rewrite E].
  eapply yields_bind; [by apply validate_setup|]. intros [v' rep] Hv'. cbn in Hv'. cbv zeta.
  assert (H : usual_check c (Some v')) by (exact (setup_usual _ _ _ Hv' H1)).
  destruct (rp_repos rep !! c_notif_uri c) as [rr|].
  - destruct (is_empty (rr_issues rr)); [by apply yields_ret|]. destruct (c_reject c); [done|by apply yields_ret].
  - destruct (c_reject c); [done|by apply yields_ret].
Qed.
(** what a run does to the recorded validator *)
Definition check_step (c : config) (a b : option validator) : Prop :=
  (clean_check a -> clean_check b) /\ (usual_check c a -> usual_check c b).
