(** * Pre-validation, scripts and state files: C17, C28, C30, C39 *)
From Verif Require Import PropsValidator CodecProofs FsWf.

(** ** C30: scripts *)
(** What each configured script does when they are started one after the other
    beginning with question number [k] to the world. *)
Fixpoint outcomes (e : env) (k : nat) (l : list path) : list script_res :=
  match l with
  | [] => []
  | p :: l' => e_script e k p :: outcomes e (S k) l'
  end.

Lemma run_scripts_all e l b w :
  SNoSpawn ∉ outcomes e (w_n w) l ->
  exists w', run_scripts l b e w = (Ok (b || existsb (fun o => match o with SFail => true | _ => false end)
                                           (outcomes e (w_n w) l)), w') /\
    w_fs w' = w_fs w /\ w_trace w' = w_trace w ++ (EvScript <$> l).
Proof.
  revert b w. induction l as [|p l IH]; intros b w Hn; cbn in *.
  - exists w. rewrite app_nil_r, orb_false_r. done.
  - unfold mbind, M_bind, run_script. apply not_elem_of_cons in Hn as [Hp Hn].
    set (w1 := push_ev (EvScript p) w).
    destruct (e_script e (w_n w) p); [| |done].
    + destruct (IH b w1 Hn) as (w' & E & H1 & H2). exists w'. rewrite E. cbn.
      split; [done|]. split; [done|]. rewrite H2. cbn. by rewrite <- app_assoc.
    + destruct (IH true w1 Hn) as (w' & E & H1 & H2). exists w'. rewrite E. cbn. rewrite orb_true_r.
      split; [done|]. split; [done|]. rewrite H2. cbn. by rewrite <- app_assoc.
Qed.
Lemma run_scripts_nospawn e l1 p l2 b w :
  SNoSpawn ∉ outcomes e (w_n w) l1 -> e_script e (w_n w + length l1) p = SNoSpawn ->
  exists w', run_scripts (l1 ++ p :: l2) b e w = (Err ESpawn, w') /\
    w_fs w' = w_fs w /\ w_trace w' = w_trace w ++ (EvScript <$> l1 ++ [p]).
Proof.
  revert b w. induction l1 as [|q l IH]; intros b w Hn Hp; cbn in *.
  - unfold mbind, M_bind, run_script. rewrite Nat.add_0_r in Hp. rewrite Hp. eauto.
  - unfold mbind, M_bind, run_script. apply not_elem_of_cons in Hn as [Hq Hn].
    set (w1 := push_ev (EvScript q) w).
    assert (Hp' : e_script e (w_n w1 + length l) p = SNoSpawn) by (cbn; by rewrite Nat.add_succ_r in Hp).
    destruct (e_script e (w_n w) q); [| |done].
    + destruct (IH b w1 Hn Hp') as (w' & E & H1 & H2). exists w'. rewrite E.
      split; [done|]. split; [done|]. rewrite H2. cbn. by rewrite <- app_assoc.
    + destruct (IH true w1 Hn Hp') as (w' & E & H1 & H2). exists w'. rewrite E.
      split; [done|]. split; [done|]. rewrite H2. cbn. by rewrite <- app_assoc.
Qed.

(** If every script can be started, all are, in order, and the run stops with
    the script error exactly when one failed and rejection is configured. *)
Theorem C30_all_run c e w :
  SNoSpawn ∉ outcomes e (w_n w) (c_scripts c) ->
  exists r w', pre_validate_scripts c e w = (r, w') /\
    w_fs w' = w_fs w /\ w_trace w' = w_trace w ++ (EvScript <$> c_scripts c) /\
    (SFail ∈ outcomes e (w_n w) (c_scripts c) /\ c_reject c = true -> r = Err EScripts) /\
    (~ (SFail ∈ outcomes e (w_n w) (c_scripts c) /\ c_reject c = true) -> r = Ok tt).
Proof.
  intros Hn. unfold pre_validate_scripts. destruct (c_scripts c) as [|p l] eqn:El.
  - exists (Ok tt), w. cbn. rewrite app_nil_r. repeat split. by intros [?%elem_of_nil _].
  - rewrite <- El in *. assert (is_empty (c_scripts c) = false) as -> by (by rewrite El).
    destruct (run_scripts_all e (c_scripts c) false w Hn) as (w' & E & H1 & H2).
    unfold mbind, M_bind. rewrite E. clear E. cbn [orb].
    set (o := outcomes e (w_n w) (c_scripts c)) in *.
    assert (Hf : existsb (fun o => match o with SFail => true | _ => false end) o = true <-> SFail ∈ o).
    { rewrite existsb_exists. split.
      - intros (x & Hx & Ex). apply elem_of_list_In in Hx. by destruct x.
      - intros H. exists SFail. split; [by apply elem_of_list_In|done]. }
    destruct (existsb _ o) eqn:Ee.
    + assert (SFail ∈ o) by by apply Hf. destruct (c_reject c); cbn.
      * exists (Err EScripts), w'. repeat split; auto. intros []. auto.
      * exists (Ok tt), w'. repeat split; auto. by intros [].
    + assert (SFail ∉ o) by (intros H%Hf; done). cbn.
      exists (Ok tt), w'. repeat split; auto. by intros [].
Qed.
(** A script that cannot be started stops the run there, whatever the flag. *)
Theorem C30_cannot_start c e w l1 p l2 :
  c_scripts c = l1 ++ p :: l2 ->
  SNoSpawn ∉ outcomes e (w_n w) l1 -> e_script e (w_n w + length l1) p = SNoSpawn ->
  exists w', pre_validate_scripts c e w = (Err ESpawn, w') /\
    w_fs w' = w_fs w /\ w_trace w' = w_trace w ++ (EvScript <$> l1 ++ [p]).
Proof.
  intros El Hn Hp. unfold pre_validate_scripts.
  assert (is_empty (c_scripts c) = false) as -> by (rewrite El; by destruct l1).
  destruct (run_scripts_nospawn e l1 p l2 false w Hn Hp) as (w' & E & H1 & H2).
  exists w'. unfold mbind, M_bind. rewrite El, E. auto.
Qed.
Definition c_scripted : config := {|
  c_verbose := 0; c_quiet := false;
  c_state_dir := ["var"; "ks"]; c_rrdp_dir := ["srv"; "rrdp"];
  c_notify_delay := 0; c_max_deltas := Some 100;
  c_rsync_dir := ["srv"; "rsync"]; c_force_moves := false; c_rsync_disable := true;
  c_include_host := false; c_cleanup_after := 7200; c_insecure := false;
  c_notif_uri := notif_uri; c_source_base := None; c_fetch_map := None;
  c_tal_files := []; c_scripts := [["a"]; ["b"]; ["c"]]; c_reject := true; c_offline := false |}.
Definition script_env (second : script_res) : env :=
  with_script (demo_env [] 0) (fun _ p => if decide (p = ["b"]) then second else SOk).
Example C30_example :
  outcomes (script_env SFail) 0 (c_scripts c_scripted) = [SOk; SFail; SOk] /\
  (pre_validate_scripts c_scripted (script_env SFail) start).1 = Err EScripts /\
  w_trace (pre_validate_scripts c_scripted (script_env SNoSpawn) start).2 = [EvScript ["a"]; EvScript ["b"]].
Proof. vm_compute. done. Qed.

(** ** C28: what pre-validation decides *)
(** There is trouble with the repository [u] in a report: no certificate of the
    tree points to it, or one that does has an issue. *)
Definition trouble (rep : report) (u : https) : Prop :=
  (forall ca, ca ∈ rp_certs rep -> ci_rrdp (ca_info_ ca) <> Some u) \/
  (exists ca, ca ∈ rp_certs rep /\ ci_rrdp (ca_info_ ca) = Some u /\ ca_issues ca <> []).

Lemma trouble_repos rep u : totals_ok rep ->
  (trouble rep u <-> match rp_repos rep !! u with Some rr => rr_issues rr <> [] | None => True end).
Proof.
  intros H. destruct (H u) as [Hs Ht]. destruct (rp_repos rep !! u) as [rr|] eqn:E.
  - destruct (Ht rr eq_refl) as (_ & _ & _ & _ & _ & ->).
    assert (Hne : certs_of u rep <> []) by (apply Hs; by eexists). split.
    + intros [Hno|(ca & Hin & Hu & Hi)].
      * destruct (certs_of u rep) as [|ca l] eqn:Ec; [done|].
        assert (Hin : ca ∈ certs_of u rep) by (rewrite Ec; left).
        apply elem_of_list_filter in Hin as [Hu Hin]. by destruct (Hno ca Hin).
      * intros Hf. assert (Hin' : ca ∈ certs_of u rep) by (by apply elem_of_list_filter).
        destruct (ca_issues ca) as [|i l] eqn:Ei; [done|].
        assert (i ∈ flat_map ca_issues (certs_of u rep)) as Hi'.
        { apply elem_of_list_In, in_flat_map. exists ca. split; [by apply elem_of_list_In|].
          rewrite Ei. by left. }
        rewrite Hf in Hi'. by apply elem_of_nil in Hi'.
    + intros Hf. right. destruct (flat_map ca_issues (certs_of u rep)) as [|i l] eqn:Ef; [done|].
      assert (In i (flat_map ca_issues (certs_of u rep))) as Hin by (rewrite Ef; by left).
      apply in_flat_map in Hin as (ca & Hca & Hi). apply elem_of_list_In, elem_of_list_filter in Hca as [Hu Hca].
      exists ca. split; [done|]. split; [done|]. intros E'. by rewrite E' in Hi.
  - split; [done|]. intros _. left. intros ca Hin Hu.
    assert (Hne : certs_of u rep <> []).
    { intros E'. assert (ca ∈ certs_of u rep) as Hc by (by apply elem_of_list_filter).
      rewrite E' in Hc. by apply elem_of_nil in Hc. }
    apply Hs in Hne as [? ?]. done.
Qed.

Theorem C28_decision st c e w r w' :
  order_ok (e_ext e) ->
  pre_validate st c e w = (r, w') ->
  (* without TAL files nothing happens and the validator is dropped *)
  (c_tal_files c = [] -> r = Ok (set_validator st None) /\ w' = w) /\
  (* failing to set up the validator with the staged data stops the run *)
  (forall x w1, reconfigure_validator st c e w = (Err x, w1) -> r = Err x) /\
  (c_tal_files c <> [] -> forall st1 w1, reconfigure_validator st c e w = (Ok st1, w1) ->
    exists v, st1 = set_validator st (Some v) /\
    (* so does failing to obtain a trust anchor *)
    (forall x w2, validate v (c_offline c) e w1 = (Err x, w2) -> r = Err x) /\
    (* the report decides *)
    (forall v' rep w2, validate v (c_offline c) e w1 = (Ok (v', rep), w2) -> w' = w2 /\
      (c_reject c = true -> trouble rep (c_notif_uri c) -> exists x, r = Err x /\ (x = EInvalid \/ x = ENotSeen)) /\
      (~ (c_reject c = true /\ trouble rep (c_notif_uri c)) -> r = Ok (set_validator st (Some v'))))).
Proof.
  intros Hx E. split; [|split].
  - intros Ht. revert E. unfold pre_validate, reconfigure_validator. rewrite Ht.
    cbn. intros [= <- <-]. done.
  - intros x w1 Er. revert E. unfold pre_validate, mbind, M_bind. rewrite Er. by intros [= <- <-].
  - intros Ht st1 w1 Er.
    assert (exists v, st1 = set_validator st (Some v)) as [v ->].
    { revert Er. unfold reconfigure_validator.
      destruct (c_tal_files c) as [|t l]; [done|]. cbn [is_empty].
      unfold mbind, M_bind. destruct (create_validator c e w) as [[v0| |] w0]; try done.
      unfold mret, M_ret. destruct (new_validator_needed st v0) eqn:En.
      - cbn [st_validator set_validator].
        destruct (initialise_staging_data v0 (c_notif_uri c) e w0) as [[v'| |] w2]; try done.
        intros [= <- <-]. by exists v'.
      - unfold new_validator_needed in En. destruct (st_validator st) as [old|] eqn:Eo; [|done].
        destruct (initialise_staging_data old (c_notif_uri c) e w0) as [[v'| |] w2]; try done.
        intros [= <- <-]. by exists v'. }
    exists v. split; [done|]. revert E. unfold pre_validate. unfold mbind at 1, M_bind at 1. rewrite Er.
    cbn [st_validator set_validator]. unfold mbind, M_bind. split.
    + intros x w2 Ev. rewrite Ev in E. by injection E as <- <-.
    + intros v' rep w2 Ev. rewrite Ev in E.
      assert (Htot : totals_ok rep).
      { unfold validate, mbind, M_bind, clock in Ev. by eapply C33_totals. }
      rewrite (trouble_repos rep (c_notif_uri c) Htot).
      destruct (rp_repos rep !! c_notif_uri c) as [rr|].
      * destruct (rr_issues rr) as [|i l]; cbn [is_empty] in E.
        -- injection E as <- <-. split; [done|]. split; [done|]. done.
        -- destruct (c_reject c); injection E as <- <-; (split; [done|]).
           ++ split; [by eauto|]. intros Hn. by destruct Hn.
           ++ split; [done|]. done.
      * destruct (c_reject c); injection E as <- <-; (split; [done|]).
        -- split; [by eauto|]. intros Hn. by destruct Hn.
        -- split; [done|]. done.
Qed.

(** a staged repository, with and without a missing object, and a TAL *)
Definition staged_world (objs : list (rsync_uri * string)) : world :=
  resume (<[staging_dir c_tal ++ ["notification.xml"] := File (json_text (j_notif
             (mkNotif uuid_A 1 "https://h/rrdp/s1" (demo_hash (snap_text objs)) []))) None]>
         (<[staging_dir c_tal ++ ["s1"] := File (snap_text objs) None]>
         (<[staging_dir c_tal := Dir]> (<[c_state_dir c_tal := Dir]> tal_fs)))).
Definition bad_files : list (rsync_uri * string) := ca_files "ta/" [] [] [("gone.roa", "x")].
Definition with_reject (c : config) : config := {|
  c_verbose := c_verbose c; c_quiet := c_quiet c; c_state_dir := c_state_dir c;
  c_rrdp_dir := c_rrdp_dir c; c_notify_delay := c_notify_delay c; c_max_deltas := c_max_deltas c;
  c_rsync_dir := c_rsync_dir c; c_force_moves := c_force_moves c; c_rsync_disable := c_rsync_disable c;
  c_include_host := c_include_host c; c_cleanup_after := c_cleanup_after c; c_insecure := c_insecure c;
  c_notif_uri := c_notif_uri c; c_source_base := c_source_base c; c_fetch_map := c_fetch_map c;
  c_tal_files := c_tal_files c; c_scripts := c_scripts c; c_reject := true; c_offline := c_offline c |}.
Definition fresh_state : rrdp_state :=
  mkState (mkNS notif_uri "notification.xml" None) (mkMap base ["srv"; "rrdp"]) None [] [] None.
Example C28_example :
  let e := demo_env [(ta_uri, text j_cert ta_cert)] 1000 in
  order_ok (e_ext e) /\
  is_ok (pre_validate fresh_state c_tal e (staged_world bad_files)).1 = true /\
  (pre_validate fresh_state (with_reject c_tal) e (staged_world bad_files)).1 = Err EInvalid /\
  is_ok (pre_validate fresh_state (with_reject c_tal) e (staged_world (ca_files "ta/" [] [] []))).1 = true.
Proof. split; [apply (demo_order_ok [] 0)|]. vm_compute. done. Qed.

(** ** C39: when a stored validator is reused *)
(** the fetcher that reads the synced repository from the staging directory *)
Definition staged_fetcher (c : config) (base : https) : fetcher :=
  mkFetcher (c_notif_uri c) (Some (mkFM base (SFile (staging_dir c)))) Insecure.
(** a stored validator fits the configured trust anchors and source *)
Definition fits (c : config) (base : https) (tals : list tal) (v : validator) : Prop :=
  vd_tals v = tals /\ exists u, vi_fetchers (vd_repos v) !! u = Some (staged_fetcher c base).

Lemma equivalent_fits c base tals old :
  equivalent old (validator_new tals [staged_fetcher c base]) = true <-> fits c base tals old.
Proof.
  unfold equivalent, fits, validator_new. cbn [vd_tals vd_repos vi_fetchers fmap list_fmap reverse rev_append list_to_map foldr].
  rewrite insert_empty, map_to_list_singleton. cbn [fmap list_fmap snd forallb]. rewrite andb_true_r.
  rewrite andb_true_iff, bool_decide_eq_true, existsb_exists. split.
  - intros [(f & Hf & ->%bool_decide_eq_true) ->]. split; [done|].
    apply elem_of_list_In, elem_of_list_fmap in Hf as ([u f] & Ef & Hf).
    apply elem_of_map_to_list in Hf. exists u. by rewrite Hf, Ef.
  - intros [-> [u Hu]]. split; [|done]. exists (staged_fetcher c base). split; [|by apply bool_decide_eq_true].
    apply elem_of_list_In, elem_of_list_fmap. exists (u, staged_fetcher c base). split; [done|].
    by apply elem_of_map_to_list.
Qed.

Lemma create_validator_inv c e w v w1 :
  create_validator c e w = (Ok v, w1) ->
  exists tals base, read_tals (c_tal_files c) e w = (Ok tals, w1) /\
    https_parent (c_notif_uri c) = Some base /\ v = validator_new tals [staged_fetcher c base].
Proof.
  unfold create_validator, mbind, M_bind.
  destruct (read_tals (c_tal_files c) e w) as [[tals| |] w2]; try done.
  destruct (https_parent (c_notif_uri c)) as [base|]; [|done].
  cbn. intros [= <- <-]. exists tals, base. done.
Qed.
Theorem C39_reuse st c e w st' w' :
  c_tal_files c <> [] ->
  reconfigure_validator st c e w = (Ok st', w') ->
  exists tals base v0 v' w1,
    read_tals (c_tal_files c) e w = (Ok tals, w1) /\ https_parent (c_notif_uri c) = Some base /\
    (forall old, st_validator st = Some old -> fits c base tals old -> v0 = old) /\
    ((forall old, st_validator st = Some old -> ~ fits c base tals old) ->
       vd_tals v0 = tals /\ vi_data (vd_repos v0) = ∅ /\
       vi_fetchers (vd_repos v0) = {[c_notif_uri c := staged_fetcher c base]}) /\
    (* the staged data is then loaded into it *)
    initialise_staging_data v0 (c_notif_uri c) e w1 = (Ok v', w') /\
    st' = set_validator st (Some v').
Proof.
  intros Ht. unfold reconfigure_validator.
  assert (is_empty (c_tal_files c) = false) as -> by (by destruct (c_tal_files c)).
  unfold mbind, M_bind.
  destruct (create_validator c e w) as [[fresh| |] w1] eqn:Ec; try done.
  apply create_validator_inv in Ec as (tals & base & Er & Eb & Ef). unfold mret, M_ret.
  destruct (new_validator_needed st fresh) eqn:En.
  - cbn [st_validator set_validator].
    destruct (initialise_staging_data fresh (c_notif_uri c) e w1) as [[v'| |] w2] eqn:Ei; try done.
    intros [= <- <-]. exists tals, base, fresh, v', w1.
    split; [done|]. split; [done|]. split; [|split; [|done]].
    + intros old Eo Hf. unfold new_validator_needed in En. rewrite Eo in En.
      apply equivalent_fits in Hf. rewrite Ef, Hf in En. done.
    + intros _. subst fresh. split; [done|]. split; [done|]. unfold validator_new.
      cbn [vd_repos vi_fetchers fmap list_fmap reverse rev_append list_to_map foldr]. by rewrite insert_empty.
  - unfold new_validator_needed in En. destruct (st_validator st) as [old|] eqn:Eo; [|done].
    destruct (initialise_staging_data old (c_notif_uri c) e w1) as [[v'| |] w2] eqn:Ei; try done.
    intros [= <- <-]. exists tals, base, old, v', w1.
    split; [done|]. split; [done|]. split; [|split; [|done]].
    + by intros ? [= <-].
    + intros Hno. exfalso. apply (Hno old eq_refl). apply equivalent_fits. rewrite <- Ef. by apply negb_false_iff.
Qed.

Definition state_of (o : res rrdp_state) : rrdp_state := get_ok fresh_state o.
(** the second reconfiguration keeps the cache of the first; with another TAL
    key it does not *)
Example C39_example :
  let e := demo_env [] 1000 in
  let w := staged_world bad_files in
  let st1 := state_of (reconfigure_validator fresh_state c_tal e w).1 in
  let w2 := mkWorld (<[["ta.tal"] := File (json_text (JArr [JStr ta_uri; JStr "other"])) None]> (w_fs w)) [] 0 in
  let e2 := demo_env [] 1100 in
  let data r := match st_validator (state_of r) with
                | Some v => rd_last_fetch <$> vi_data (vd_repos v) !! notif_uri | None => None end in
  data (reconfigure_validator st1 c_tal e2 w).1 = Some 1000%Z /\
  data (reconfigure_validator st1 c_tal e2 w2).1 = Some 1100%Z.
Proof. vm_compute. done. Qed.

(** ** C17: state files *)
(** At every instant while the RRDP state is being saved the file is as before,
    or it is a state file: complete, and then reading it gives the state back
    (without the per-run marks), or incomplete, and then it is refused. *)
Definition reads_as (p : path) (f : fs) (o : option rrdp_state) : Prop :=
  forall e n l, (forall k, e_fault e k ORead = None) ->
    (recover p e (mkWorld f l n)).1 = match o with Some s => Ok s | None => Err EParseState end.
Definition reads_as_rsync (c : config) (f : fs) (o : option rsync_state) : Prop :=
  forall e n l, (forall k, e_fault e k ORead = None) ->
    (rsync_recover c e (mkWorld f l n)).1 = match o with Some s => Ok s | None => Err EParseState end.

Lemma reads_file p f t m : p <> [] -> f !! p = Some (File t m) -> reads_as p f (state_parse t).
Proof.
  intros Hp Hf e n l Hr. unfold recover, read_file, mbind, M_bind, f_read, op_read, fs_stat. cbn [w_fs w_n].
  rewrite fs_get_nonroot by done. rewrite Hf, Hr. by destruct (state_parse t).
Qed.
Lemma reads_file_rsync c f t m : rsync_state_path c <> [] ->
  f !! rsync_state_path c = Some (File t m) -> reads_as_rsync c f (rsync_state_parse t).
Proof.
  intros Hp Hf e n l Hr.
  unfold rsync_recover, read_file, mbind, M_bind, f_exists, f_read, fs_exists, op_read, fs_stat. cbn [w_fs w_n].
  rewrite fs_get_nonroot by done. rewrite Hf. cbn [w_fs w_n].
  rewrite fs_get_nonroot by done. rewrite Hf, Hr. by destruct (rsync_state_parse t).
Qed.
Lemma str_pre_cases t b : str_pre t b -> t = b \/ exists r, b = t +:+ r /\ r <> "".
Proof.
  intros [r <-]. destruct r as [|a r]; [left; by rewrite sapp_nil_r|]. right. by eexists.
Qed.

(** writing one file *)
Definition partly (p : path) (b : string) (f0 f : fs) : Prop :=
  f !! p = f0 !! p \/ exists t m, f !! p = Some (File t m) /\ str_pre t b.
Lemma w_write_buf_partly e p b w : p <> [] ->
  wpt e (on_fs (partly p b (w_fs w))) (write_buf p b) w (fun r w' =>
    partly p b (w_fs w) (w_fs w') /\ (r = Ok tt -> w_fs w' !! p = Some (File b None))).
Proof.
  intros Hp. eapply (w_write_buf e _ (fun q => q <> p)).
  - by left.
  - intros f q [H|H] Hq _ _ _; [left|right]; by rewrite lookup_insert_ne.
  - intros q [_ H] _. done.
  - intros f b' _ Hb' _ _ _. right. exists b', None. by rewrite lookup_insert.
  - intros x w' H. by split.
  - intros w' H H'. by split.
Qed.
Lemma rrdp_state_path_ne c : rrdp_state_path c <> [].
Proof. unfold rrdp_state_path. rewrite path_join_name by (by repeat split). by destruct (c_state_dir c). Qed.
Lemma rsync_state_path_ne c : rsync_state_path c <> [].
Proof. unfold rsync_state_path. rewrite path_join_name by (by repeat split). by destruct (c_state_dir c). Qed.

Theorem C17_rrdp_state c st e f r w' :
  clean_state st ->
  persist st (rrdp_state_path c) e (resume f) = (r, w') ->
  let p := rrdp_state_path c in
  (forall g, EvFs g ∈ w_trace w' ->
     g !! p = f !! p \/ reads_as p g (Some (norm_state st)) \/ reads_as p g None) /\
  (r = Ok tt -> reads_as p (w_fs w') (Some (norm_state st))).
Proof.
  intros Hc E p. pose proof (rrdp_state_path_ne c) as Hp. fold p in Hp.
  destruct (w_write_buf_partly e p (state_text st) (resume f) Hp) as (l & Ht & Hl & _ & Hok).
  unfold persist in E. fold p in E. rewrite E in *. cbn [fst snd resume w_fs w_trace app] in *. split.
  - intros g Hg. rewrite Ht in Hg. rewrite Forall_forall in Hl. specialize (Hl _ Hg).
    unfold on_fs, partly in Hl. destruct Hl as [Hl|(t & m & Hl & Hpre)]; [by left|]. right.
    pose proof (reads_file p g t m Hp Hl) as Hr.
    destruct (str_pre_cases _ _ Hpre) as [->|(k & Hk & Hne)].
    + left. by rewrite state_roundtrip in Hr.
    + right. by rewrite (state_prefix _ _ _ Hk Hne) in Hr.
  - intros ->. pose proof (reads_file p _ _ _ Hp (Hok eq_refl)) as Hr. by rewrite state_roundtrip in Hr.
Qed.
Theorem C17_rsync_state c st e f r w' :
  rsync_persist st c e (resume f) = (r, w') ->
  let p := rsync_state_path c in
  (forall g, EvFs g ∈ w_trace w' ->
     g !! p = f !! p \/ reads_as_rsync c g (Some st) \/ reads_as_rsync c g None) /\
  (r = Ok tt -> reads_as_rsync c (w_fs w') (Some st)).
Proof.
  intros E p. pose proof (rsync_state_path_ne c) as Hp. fold p in Hp.
  destruct (w_write_buf_partly e p (rsync_state_text st) (resume f) Hp) as (l & Ht & Hl & _ & Hok).
  unfold rsync_persist in E. fold p in E. rewrite E in *. cbn [fst snd resume w_fs w_trace app] in *. split.
  - intros g Hg. rewrite Ht in Hg. rewrite Forall_forall in Hl. specialize (Hl _ Hg).
    unfold on_fs, partly in Hl. destruct Hl as [Hl|(t & m & Hl & Hpre)]; [by left|]. right.
    pose proof (reads_file_rsync c g t m Hp Hl) as Hr.
    destruct (str_pre_cases _ _ Hpre) as [->|(k & Hk & Hne)].
    + left. by rewrite rsync_state_roundtrip in Hr.
    + right. by rewrite (rsync_state_prefix _ _ _ Hk Hne) in Hr.
  - intros ->. pose proof (reads_file_rsync c _ _ _ Hp (Hok eq_refl)) as Hr. by rewrite rsync_state_roundtrip in Hr.
Qed.

Definition demo_state : rrdp_state :=
  mkState (mkNS notif_uri "notification.xml" None) (mkMap base ["srv"; "rrdp"])
    (Some (mkSnap uuid_A 7 "h" "10/7/snapshot.xml" 100))
    [mkDelta 100 7 "h7" "10/7/delta.xml"; mkDelta 50 6 "h6" "10/6/delta.xml"]
    [mkDep 90 ["srv"; "rrdp"; "10"; "5"; "delta.xml"]]
    (Some tree_validator).
Example C17_example : clean_state demo_state /\
  (forall k, e_fault (demo_env [] 0) k ORead = None) /\
  is_ok (persist demo_state (rrdp_state_path demo_config) (demo_env [] 0) (resume (w_fs start))).1 = true.
Proof.
  split; [|split; [done|vm_compute; reflexivity]].
  split; [|split].
  - repeat constructor; by vm_compute.
  - repeat constructor; by vm_compute.
  - split.
    + repeat constructor; by vm_compute.
    + intros u f Hf. vm_compute in Hf. done.
Qed.

Print Assumptions C30_all_run.
Print Assumptions C30_cannot_start.
Print Assumptions C28_decision.
Print Assumptions C39_reuse.
Print Assumptions C17_rrdp_state.
Print Assumptions C17_rsync_state.
