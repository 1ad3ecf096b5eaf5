(** * Properties of validation: C31 - C39, C45, C49 - C51

    [m e w = (r, w')]: program [m] run in environment [e] from world [w] ends
    with result [r] in world [w'].  [w_trace] is everything observable so far. *)
From Coq Require Import ZifyN ZifyNat ZifyBool.
From Verif Require Export TreeProofs DemoTree.

Lemma wpt_run {A} e J (m : M A) w Q r w' :
  wpt e J m w Q -> m e w = (r, w') ->
  exists l, w_trace w' = w_trace w ++ l /\ Forall J l /\ Q r w'.
Proof. intros (l & H1 & H2 & H3) E. rewrite E in *. eauto. Qed.

Lemma validate_at_run e off when vd w r w' (J : event -> Prop) :
  order_ok (e_ext e) ->
  (off = false -> (forall t, J (EvClock t)) /\ forall u, fetcher_ok e J (get_fetcher (vd_repos vd) u)) ->
  (forall t, t ∈ vd_tals vd -> req_ok J (tl_source t) None) ->
  validate_at vd off when e w = (r, w') ->
  exists l, w_trace w' = w_trace w ++ l /\ Forall J l /\
    w_fs w' = w_fs w /\
    match r with
    | Ok (vd', rep) => vd_tals vd' = vd_tals vd /\ stable (vd_repos vd) (vd_repos vd') /\
        run_ok e (w_fs w) when (vd_tals vd) (vd_repos vd') rep
    | Err _ => True
    | Panic => exists v' t ta rc, stable (vd_repos vd) v' /\ t ∈ vd_tals vd /\
        ta_of e (w_fs w) when t ta /\ nsteps (kid (e_ext e) when v') (e_stack e) ta rc
    end.
Proof.
  intros Hx HJ HT E. apply (wpt_run e J (validate_at vd off when) w (fun r w' => w_fs w' = w_fs w /\
    match r with
    | Ok (vd', rep) => vd_tals vd' = vd_tals vd /\ stable (vd_repos vd) (vd_repos vd') /\
        run_ok e (w_fs w) when (vd_tals vd) (vd_repos vd') rep
    | Err _ => True
    | Panic => exists v' t ta rc, stable (vd_repos vd) v' /\ t ∈ vd_tals vd /\
        ta_of e (w_fs w) when t ta /\ nsteps (kid (e_ext e) when v') (e_stack e) ta rc
    end)); [|exact E]. apply w_validate_at; auto.
  intros w1 v' t ta rc Hw Hs Ht Hta Hn. split; [done|]. eauto 10.
Qed.
Lemma fetcher_any e v u : fetcher_ok e (fun _ => True) (get_fetcher v u).
Proof. intros u' src t _. by destruct src. Qed.
Lemma validate_at_report e off when vd w vd' rep w' :
  order_ok (e_ext e) -> validate_at vd off when e w = (Ok (vd', rep), w') ->
  run_ok e (w_fs w) when (vd_tals vd) (vd_repos vd') rep.
Proof.
  intros Hx E. apply (validate_at_run e off when vd w _ _ (fun _ => True) Hx) in E.
  - destruct E as (l & _ & _ & _ & _ & _ & H). exact H.
  - intros _. split; [done|]. apply fetcher_any.
  - intros t _. by destruct (tl_source t).
Qed.

Lemma demo_order_ok docs t : order_ok (e_ext (demo_env docs t)).
Proof. by intros l. Qed.
(** The example run behind the examples of this file. *)
Definition get_ok {A} (d : A) (r : res A) : A := match r with Ok a => a | _ => d end.
Definition is_ok {A} (r : res A) : bool := match r with Ok _ => true | _ => false end.
Lemma res_split {A B} (x : res A * B) (d : A) : is_ok x.1 = true -> x = (Ok (get_ok d x.1), x.2).
Proof. by destruct x as [[]]. Qed.
(** run and test the result by computation *)
Lemma run_test {A} (m : res A * world) (P : A -> world -> bool) :
  (match m.1 with Ok a => P a m.2 | _ => false end) = true -> exists a w', m = (Ok a, w') /\ P a w' = true.
Proof. destruct m as [[a| |] w]; try done. eauto. Qed.
Definition tree_both : validator * report := get_ok (tree_validator, report_default) tree_result.1.
Definition tree_report : report := tree_both.2.
Definition tree_end : validator := tree_both.1.
Lemma tree_ok_computes : is_ok tree_result.1 = true.
Proof. vm_compute. reflexivity. Qed.
Lemma tree_runs : validate_at tree_validator false 1000 tree_env start = (Ok (tree_end, tree_report), tree_result.2).
Proof.
  transitivity (Ok tree_both, tree_result.2).
  - unfold tree_both, tree_result. apply res_split. vm_compute. reflexivity.
  - unfold tree_end, tree_report. by destruct tree_both.
Qed.

(** ** C31: offline validation contacts nothing but trust anchor locations *)
Theorem C31_offline e vd w r w' :
  order_ok (e_ext e) ->
  validate vd true e w = (r, w') ->
  exists l, w_trace w' = w_trace w ++ l /\
    forall u m t, EvHttp u m t ∈ l -> t = None /\ exists ta, ta ∈ vd_tals vd /\ tl_source ta = SUri u m.
Proof.
  intros Hx E.
  set (J := fun ev => match ev with
                      | EvHttp u m t => t = None /\ exists ta, ta ∈ vd_tals vd /\ tl_source ta = SUri u m
                      | _ => True end).
  assert (H : wpt e J (validate vd true) w (fun _ _ => True)).
  { unfold validate. apply wpt_bind, wpt_clock; [done|].
    apply w_validate_at; try done.
    intros t Ht. destruct (tl_source t) as [|u m] eqn:Es; [done|]. cbn. eauto. }
  destruct (wpt_run _ _ _ _ _ _ _ H E) as (l & H1 & H2 & _). exists l. split; [done|].
  intros u m t Hin. rewrite Forall_forall in H2. apply (H2 _ Hin).
Qed.
Example C31_example : EvHttp other_uri Insecure None ∈ w_trace tree_result.2 /\
  w_trace (validate tree_validator true tree_env start).2 = [EvClock 1000; EvHttp ta_uri Insecure None].
Proof. split; [|vm_compute; reflexivity]. vm_compute. do 3 constructor. Qed.

(** ** C32: cached repository data is never a mixture *)
Theorem C32_lookup e v u off when w r w' :
  get_latest v u off when e w = (r, w') ->
  exists v' d, r = Ok (v', d) /\ w_fs w' = w_fs w /\
    vi_fetchers v' = vi_fetchers v /\
    (forall u', u' <> u -> vi_data v' !! u' = vi_data v !! u') /\
    lookup_outcome e (w_fs w) (get_fetcher v u) (vi_data v !! u) (vi_data v' !! u) /\
    (forall d', d = inl d' -> vi_data v' !! u = Some d').
Proof.
  intros E.
  assert (H : wpt e (fun _ => True) (get_latest v u off when) w (fun r w' =>
    exists v' d, r = Ok (v', d) /\ w_fs w' = w_fs w /\
    vi_fetchers v' = vi_fetchers v /\
    (forall u', u' <> u -> vi_data v' !! u' = vi_data v !! u') /\
    lookup_outcome e (w_fs w) (get_fetcher v u) (vi_data v !! u) (vi_data v' !! u) /\
    (forall d', d = inl d' -> vi_data v' !! u = Some d'))).
  { apply w_get_latest; [intros _ _; split; [done|apply fetcher_any]|].
    intros w1 v1 r1 Hw Hs Ho Hout Hr _. exists v1, r1. destruct Hs. repeat split; auto. apply Hr. }
  destruct (wpt_run _ _ _ _ _ _ _ H E) as (l & _ & _ & Q). exact Q.
Qed.
(** an update of two objects by two deltas, and one that fails its hash check
    and falls back to the snapshot *)
Definition old_data : repo_data := mkRD None 0 false uuid_A 1 {[rsync_str (ruri "x") := "one"]}.
Definition d2 : string := delta_text [DUpdate (ruri "x") (demo_hash "one") "two"].
Definition d3 : string := delta_text [DPublish (ruri "y") "new"; DWithdraw (ruri "x") (demo_hash "two")].
Definition n3 : notification :=
  mkNotif uuid_A 3 "https://h/rrdp/s3" (demo_hash (snap_text [file_of "y" "new"]))
    [mkDI 2 "https://h/rrdp/d2" (demo_hash d2); mkDI 3 "https://h/rrdp/d3" (demo_hash d3)].
Definition docs3 : list (string * string) :=
  [(notif_uri, json_text (j_notif n3)); ("https://h/rrdp/d2", d2); ("https://h/rrdp/d3", d3);
   ("https://h/rrdp/s3", snap_text [file_of "y" "new"])].
Example C32_example :
  match (get_latest (mkVisited ∅ {[notif_uri := old_data]}) notif_uri false 9000 (demo_env docs3 9000) start).1 with
  | Ok (v, inl d) => rd_serial d = 3%N /\ map_to_list (rd_objects d) = [(rsync_str (ruri "y"), "new")]
  | _ => False
  end.
Proof. vm_compute. split; reflexivity. Qed.

(** ** C49 (violated): refreshed data has the version of the notification offered *)
Definition n2_back : notification :=
  mkNotif uuid_A 2 "https://h/rrdp/s2" (demo_hash (snap_text [file_of "x" "two"]))
    [mkDI 2 "https://h/rrdp/d2" (demo_hash d2)].
Theorem C49_refuted : exists e v u when w v' d n w',
  offered_notif e (w_fs w) (get_fetcher v u) n /\
  get_latest v u false when e w = (Ok (v', inl d), w') /\
  rd_last_fetch d = when /\ rd_session d = n_session n /\ rd_serial d <> n_serial n.
Proof.
  set (e := demo_env [(notif_uri, json_text (j_notif n2_back))] 9000).
  set (d5 := mkRD None 0 false uuid_A 5 {[rsync_str (ruri "x") := "five"]}).
  set (v := mkVisited ∅ {[notif_uri := d5]}).
  destruct (run_test (get_latest v notif_uri false 9000 e start) (fun '(_, r) _ =>
    match r with
    | inl d => (rd_last_fetch d =? 9000)%Z && bool_decide (rd_session d = uuid_A) && (rd_serial d =? 5)%N
    | inr _ => false end)) as ([v' [d|]] & w' & E & H); [vm_compute; reflexivity| |done].
  apply andb_true_iff in H as [H H3%N.eqb_eq]. apply andb_true_iff in H as [H1%Z.eqb_eq H2%bool_decide_eq_true].
  exists e, v, notif_uri, 9000%Z, start, v', d, n2_back, w'. split; [|split; [exact E|]].
  - exists (SUri notif_uri Insecure), (json_text (j_notif n2_back)). split; [vm_compute; reflexivity|].
    split; [|vm_compute; reflexivity]. exists 0, None, None. vm_compute. reflexivity.
  - rewrite H1, H2, H3. repeat split. discriminate.
Qed.
(** Positive part: with a notification that is not older than the data and whose
    deltas end at its serial, refreshed data has the notification's version. *)
Theorem C49_not_older e v u off when w v' d d' r w' :
  get_latest v u off when e w = (Ok (v', r), w') ->
  (forall n, offered_notif e (w_fs w) (get_fetcher v u) n ->
     (n_session n = rd_session d -> (rd_serial d <= n_serial n)%N) /\
     (n_deltas n <> [] -> exists di, di ∈ n_deltas n /\ di_serial di = n_serial n) /\
     forall di, di ∈ n_deltas n -> (di_serial di <= n_serial n)%N) ->
  vi_data v !! u = Some d -> vi_data v' !! u = Some d' ->
  same_content d d' \/
  (exists n, offered_notif e (w_fs w) (get_fetcher v u) n /\
     rd_session d' = n_session n /\ rd_serial d' = n_serial n).
Proof.
  intros E Hn Hd Hd'. apply C32_lookup in E as (v1 & r1 & [= <- <-] & _ & _ & _ & Ho & _).
  rewrite Hd, Hd' in Ho.
  inversion Ho as [|? ? Hsame|? ? n Hof Hse Hne En Hse' Hmax Hex Hcu|? ? n Hof Hse Hser Hsn|]; subst.
  - by left.
  - destruct (Hn n Hof) as (H1 & H2 & H3).
    right. exists n. split; [done|]. split; [done|].
    destruct (H2 En) as (di & Hdi & Hs). specialize (H1 Hse). specialize (Hmax _ Hdi).
    destruct Hex as [Hex|(di' & Hdi' & Hex)]; [lia|]. specialize (H3 _ Hdi'). lia.
  - right. by exists n.
Qed.

(** ** C50 (violated): two lookups in one run give the same answer *)
Theorem C50_refuted : exists e v u when w v1 x w1 d,
  get_latest v u false when e w = (Ok (v1, inr x), w1) /\
  get_latest v1 u false when e w1 = (Ok (v1, inl d), w1).
Proof.
  set (e := demo_env [] 9000). set (v := mkVisited ∅ {[notif_uri := old_data]}).
  destruct (run_test (get_latest v notif_uri false 9000 e start) (fun '(v1, r) _ =>
    match r with
    | inr _ => match vi_data v1 !! notif_uri with Some d => rd_fetched d | None => false end
    | inl _ => false end)) as ([v1 [|x]] & w1 & E & H); [vm_compute; reflexivity|done|].
  destruct (vi_data v1 !! notif_uri) as [d|] eqn:Ed; [|done].
  exists e, v, notif_uri, 9000%Z, start, v1, x, w1, d. split; [exact E|].
  unfold get_latest. rewrite Ed, H. reflexivity.
Qed.

(** ** C33: report totals *)
Theorem C33_totals e off when vd w vd' rep w' :
  order_ok (e_ext e) ->
  validate_at vd off when e w = (Ok (vd', rep), w') -> totals_ok rep.
Proof. intros Hx E. apply totals_eq_ok, (validate_at_report _ _ _ _ _ _ _ _ Hx E). Qed.
(** however a report is put together *)
Inductive built : report -> Prop :=
| built_default : built report_default
| built_cert r c : built r -> built (add_cert r c)
| built_other r o : built r -> built o -> built (add_other r o).
Theorem C33_totals_built rep : built rep -> totals_ok rep.
Proof.
  intros H. apply totals_eq_ok. induction H; eauto using totals_default, totals_add_cert, totals_add_other.
Qed.
Example C33_example : exists rr, rp_repos tree_report !! notif_uri = Some rr /\
  length (certs_of notif_uri tree_report) = 2 /\ rr_roas rr = 2 /\ length (rr_issues rr) = 4.
Proof. eexists. vm_compute. repeat split. Qed.

(** ** C34: every manifest entry is accounted for exactly once *)
Theorem C34_entries e off when vd w vd' rep w' ca :
  order_ok (e_ext e) ->
  validate_at vd off when e w = (Ok (vd', rep), w') ->
  ca ∈ rp_certs rep ->
  exists rc, explained (e_ext e) when (vd_repos vd') rc ca.
Proof.
  intros Hx E Hca. destruct (run_chain _ _ _ _ _ _ (validate_at_report _ _ _ _ _ _ _ _ Hx E) ca Hca)
    as (t & ta & rc & _ & _ & _ & H). eauto.
Qed.
Example C34_example : exists ca, ca ∈ rp_certs tree_report /\ length (mentions ca) = 11 /\
  length (ca_issues ca) = 4 /\ length (ca_children ca) = 3.
Proof. eexists. split; [vm_compute; left|]. vm_compute. repeat split. Qed.

(** ** C35: revoked objects are not reported as valid *)
Theorem C35_not_revoked e off when vd w vd' rep w' ca :
  order_ok (e_ext e) ->
  validate_at vd off when e w = (Ok (vd', rep), w') ->
  ca ∈ rp_certs rep ->
  (ca_roas ca = [] /\ ca_aspas ca = [] /\ ca_children ca = []) \/
  exists rc u d m cr cu,
    details rc (ca_info_ ca) /\ ci_rrdp (ca_info_ ca) = Some u /\
    vi_data (vd_repos vd') !! u = Some d /\
    acceptable (e_ext e) rc (ca_info_ ca) (rd_objects d) when m cr cu /\
    (forall v, v ∈ ca_roas ca -> exists b r, rd_objects d !! vr_uri v = Some b /\
       x_roa (e_ext e) b = Some r /\ ro_ee_serial r ∉ cl_revoked cr) /\
    (forall v, v ∈ ca_aspas ca -> exists b a, rd_objects d !! va_uri v = Some b /\
       x_aspa (e_ext e) b = Some a /\ as_ee_serial a ∉ cl_revoked cr) /\
    (forall k, k ∈ ca_children ca -> exists b c, rd_objects d !! k.1 = Some b /\
       x_cert (e_ext e) b = Some c /\ ct_serial c ∉ cl_revoked cr).
Proof.
  intros Hx E Hca. destruct (C34_entries _ _ _ _ _ _ _ _ _ Hx E Hca) as (rc & info & Hi & H).
  destruct (ci_rrdp info) as [u|] eqn:Eu; [|subst ca; by left].
  destruct H as [->|(d & Hd & _ & Hinfo & H1 & H2)]; [by left|].
  destruct (check_mft (e_ext e) rc info (rd_objects d) when) as [[a b]|[cr en]] eqn:Em.
  - left. destruct H2 as (u' & p & ->); [|done].
    intros (m & cr & cu & Ha). assert (check_mft (e_ext e) rc info (rd_objects d) when = inr (cr, delete cu (mft_entries info m)))
      as E2 by (apply check_mft_spec; eauto). congruence.
  - right. apply check_mft_spec in Em as (m & cu & Ha & _). cbn in Ha.
    destruct (H1 _ _ _ Ha) as [_ _ Hroas Haspas Hkids _ _].
    rewrite Hinfo. exists rc, u, d, m, cr, cu. repeat (split; [done|]). split; [|split].
    + intros v Hv. apply Hroas in Hv as (u' & b & r & (_ & _ & Hb & _) & Hr & _ & Hn & ->). cbn. eauto.
    + intros v Hv. apply Haspas in Hv as (u' & b & r & (_ & _ & Hb & _) & Hr & _ & Hn & ->). cbn. eauto.
    + intros [u' i] Hv. apply Hkids in Hv as (crc & b & c & (_ & _ & Hb & _) & Hc & _ & Hn & _). cbn. eauto.
Qed.
Example C35_example : exists ca, ca ∈ rp_certs tree_report /\ length (ca_roas ca) = 1 /\
  mkIssue "rsync://h/mod/ta/b.roa" PRoaInvalid ∈ ca_issues ca /\
  mkIssue "rsync://h/mod/ta/gone.cer" PCertRevoked ∈ ca_issues ca.
Proof. eexists. split; [vm_compute; left|]. vm_compute. repeat split; repeat constructor. Qed.
Lemma mft_test x rc info objs when n :
  match check_mft x rc info objs when with
  | inr (cr, _) => existsb (N.eqb n) (cl_revoked cr) | _ => false end = true ->
  exists m cr cu, acceptable x rc info objs when m cr cu /\ n ∈ cl_revoked cr.
Proof.
  destruct (check_mft x rc info objs when) as [?|[cr en]] eqn:Em; [done|].
  apply check_mft_spec in Em as (m & cu & Ha & _). intros Et.
  apply existsb_exists in Et as (y & Hy & Ey). apply N.eqb_eq in Ey as <-.
  exists m, cr, cu. split; [done|]. by apply elem_of_list_In.
Qed.
Lemma router_test l u info :
  match l with
  | ca :: _ => match ca_routers ca with v :: _ => String.eqb v u | _ => false end
  | [] => false end = true ->
  match l with ca :: _ => ca_info_ ca | [] => info end = info ->
  exists ca, ca ∈ l /\ u ∈ ca_routers ca /\ ca_info_ ca = info.
Proof.
  destruct l as [|ca l]; [done|]. destruct (ca_routers ca) as [|v us] eqn:Eu; [done|].
  intros E%String.eqb_eq Hi. subst v. exists ca. rewrite Eu. split; [left|]. split; [left|]. exact Hi.
Qed.
(** For router certificates it is false. *)
Theorem C35_routers_refuted : exists e vd when w vd' rep w' ca u rc d m cr cu b c,
  validate_at vd false when e w = (Ok (vd', rep), w') /\
  ca ∈ rp_certs rep /\ details rc (ca_info_ ca) /\
  vi_data (vd_repos vd') !! notif_uri = Some d /\
  acceptable (e_ext e) rc (ca_info_ ca) (rd_objects d) when m cr cu /\
  u ∈ ca_routers ca /\ rd_objects d !! u = Some b /\ x_cert (e_ext e) b = Some c /\
  ct_serial c ∈ cl_revoked cr.
Proof.
  exists tree_env, tree_validator, 1000%Z, start, tree_end, tree_report, tree_result.2.
  set (rc := mkRCert ta_cert "all"). set (info := mkInfo "rsync://h/mod/ta/m.mft" "rsync://h/mod/ta/" (Some notif_uri) "all").
  destruct (router_test (rp_certs tree_report) "rsync://h/mod/ta/router.cer" info)
    as (ca & Hca & Hu & Hi); [vm_compute; reflexivity|vm_compute; reflexivity|].
  destruct (mft_test demo_ext rc info tree_objs 1000 6) as (m & cr & cu & Ha & Hr);
    [vm_compute; reflexivity|].
  exists ca, "rsync://h/mod/ta/router.cer", rc, tree_data, m, cr, cu,
    (text j_cert (router_cert 6)), (router_cert 6).
  split; [apply tree_runs|]. split; [exact Hca|]. split; [rewrite Hi; apply details_eq; reflexivity|].
  split; [vm_compute; reflexivity|]. split; [rewrite Hi; exact Ha|]. split; [exact Hu|].
  split; [vm_compute; reflexivity|]. split; [vm_compute; reflexivity|]. exact Hr.
Qed.

(** ** C36: the recursion *)
(** Violated: for every stack size validation of this tree exceeds it. *)
Theorem C36_refuted : exists (e : env) vd when w, forall k,
  exists w', validate_at vd false when (with_stack e k) w = (Panic, w').
Proof.
  exists (demo_env tree_docs 1000), loop_validator, 1000%Z, start. intros k.
  set (e := with_stack _ k). set (v := vd_repos loop_validator). set (rc := mkRCert ta_cert "all").
  set (info := mkInfo "rsync://h/mod/ta/m.mft" "rsync://h/mod/ta/" (Some notif_uri) "all").
  assert (H : forall j w, validate_tree_at j v rc info false 1000 e w = (Panic, w)).
  { intros j. induction j as [|j IH]; intros w; [reflexivity|]. cbn [validate_tree_at].
    change (ci_rrdp info) with (Some notif_uri). cbn iota.
    assert (Hg : get_latest v notif_uri false 1000 e w = (Ok (v, inl loop_data), w)).
    { unfold get_latest. assert (vi_data v !! notif_uri = Some loop_data) as Hl by reflexivity. rewrite Hl. reflexivity. }
    unfold mbind, M_bind at 1. rewrite Hg. cbn iota beta. unfold mbind, M_bind, getext.
    cbn [e_ext e with_stack demo_env].
    destruct (check_ca demo_ext rc info (rd_objects loop_data) 1000) as [ca kids] eqn:Ec.
    assert (kids = [(rc, info)]) as ->.
    { change kids with (ca, kids).2. rewrite <- Ec. vm_compute. reflexivity. }
    cbn [fold_m]. unfold mbind, M_bind. rewrite IH. reflexivity. }
  eexists. unfold validate_at. cbn [vd_tals loop_validator fold_m]. unfold mbind, M_bind.
  assert (Hta : validate_ta_at v tree_tal false 1000 e start =
    (Panic, push_ev (EvHttp ta_uri Insecure None) start)).
  { unfold validate_ta_at. unfold mbind at 1, M_bind at 1.
    assert (tal_validate_at tree_tal 1000 e start = (Ok rc, push_ev (EvHttp ta_uri Insecure None) start)) as ->
      by (vm_compute; reflexivity).
    unfold mbind, M_bind. assert (info_of_cert rc = Some info) as -> by reflexivity.
    cbn [of_option mret M_ret ask]. unfold mret, M_ret, ask. apply H. }
  fold v. rewrite Hta. reflexivity.
Qed.
(** Positive part: the recursion only exceeds the stack along a chain of as many
    certificates, each a valid child of the one before. *)
Theorem C36_only_long_chains e off when vd w w' :
  order_ok (e_ext e) ->
  validate_at vd off when e w = (Panic, w') ->
  exists v t ta rc, t ∈ vd_tals vd /\ ta_of e (w_fs w) when t ta /\
    nsteps (kid (e_ext e) when v) (e_stack e) ta rc.
Proof.
  intros Hx E. apply (validate_at_run e off when vd w _ _ (fun _ => True) Hx) in E.
  - destruct E as (l & _ & _ & _ & v & t & ta & rc & _ & H). exists v, t, ta, rc. done.
  - intros _. split; [done|]. apply fetcher_any.
  - intros t _. by destruct (tl_source t).
Qed.

(** ** C37: repositories with data are not contacted again *)
(** one lookup leads to another state of the run *)
Definition lookup_step (e : env) (off : bool) (when : Z) (a b : visited * world) : Prop :=
  exists u r, get_latest a.1 u off when e a.2 = (Ok (b.1, r), b.2).
Theorem C37_not_again e off when v w u v1 d w1 v2 w2 :
  get_latest v u off when e w = (Ok (v1, inl d), w1) ->
  rtc (lookup_step e off when) (v1, w1) (v2, w2) ->
  get_latest v2 u off when e w2 = (Ok (v2, inl d), w2).
Proof.
  intros E Hr.
  assert (Hlk : forall v u w v' r w', get_latest v u off when e w = (Ok (v', r), w') ->
            stable v v' /\ forall d, r = inl d -> vi_data v' !! u = Some d /\ rd_fetched d = true).
  { clear. intros v u w v' r w' E.
    assert (H : wpt e (fun _ => True) (get_latest v u off when) w (fun r w' => match r with
       | Ok (v', r) => stable v v' /\ forall d, r = inl d -> vi_data v' !! u = Some d /\ rd_fetched d = true
       | _ => False end)).
    { apply w_get_latest; [intros _ _; split; [done|apply fetcher_any]|]. auto. }
    by destruct (wpt_run _ _ _ _ _ _ _ H E) as (l & _ & _ & Q). }
  destruct (Hlk _ _ _ _ _ _ E) as [_ H1]. destruct (H1 d eq_refl) as [H2 H3].
  assert (Hd : vi_data v2 !! u = Some d).
  { change (vi_data (v1, w1).1 !! u = Some d) in H2. change (vi_data (v2, w2).1 !! u = Some d).
    clear E H1. induction Hr as [|a b c (u' & r & Hs) Hr IH]; [done|]. apply IH.
    destruct (Hlk _ _ _ _ _ _ Hs) as [[_ Hst] _]. auto. }
  unfold get_latest. rewrite Hd, H3. reflexivity.
Qed.
Example C37_example :
  match get_latest (mkVisited ∅ {[notif_uri := old_data]}) notif_uri false 9000 (demo_env docs3 9000) start with
  | (Ok (v1, inl d), w1) => w_trace w1 <> [] /\
      get_latest v1 notif_uri false 9000 (demo_env docs3 9000) w1 = (Ok (v1, inl d), w1)
  | _ => False
  end.
Proof. vm_compute. split; [discriminate|reflexivity]. Qed.
(** Violated for repositories without data: two requests in one run. *)
Theorem C37_refuted : exists e vd when w vd' rep w' u m l1 l2 l3,
  validate_at vd false when e w = (Ok (vd', rep), w') /\
  w_trace w' = l1 ++ [EvHttp u m None] ++ l2 ++ [EvHttp u m None] ++ l3.
Proof.
  exists tree_env, tree_validator, 1000%Z, start, tree_end, tree_report, tree_result.2.
  exists other_uri, Insecure, [EvHttp ta_uri Insecure None], [], []. split; [apply tree_runs|].
  vm_compute. reflexivity.
Qed.

(** ** C38: trust anchors *)
Theorem C38_trust_anchor e t when w rc w' :
  tal_validate_at t when e w = (Ok rc, w') ->
  exists b c, served e (w_fs w) (tl_source t) b /\ x_cert (e_ext e) b = Some c /\
    x_ta_valid (e_ext e) (tl_name t) c when = Some rc /\ ct_key (rc_cert rc) = tl_key t.
Proof.
  intros E.
  assert (H : wpt e (fun _ => True) (tal_validate_at t when) w (fun r _ =>
    forall rc, r = Ok rc -> ta_of e (w_fs w) when t rc)).
  { apply w_tal_validate; [|done|by destruct (tl_source t)]. intros w1 rc1 _ H ? [= <-]. done. }
  destruct (wpt_run _ _ _ _ _ _ _ H E) as (l & _ & _ & Q). by apply Q.
Qed.
(** the location: the override or else the first https URI of the TAL *)
Theorem C38_location e name b over w t w' :
  tal_parse name b over e w = (Ok t, w') ->
  exists uris key pre u post,
    x_tal (e_ext e) b = Some (uris, key) /\
    uris = pre ++ TalHttps u :: post /\ (forall u', TalHttps u' ∉ pre) /\
    t = mkTal name match over with Some s => s | None => SUri u Insecure end key /\ w' = w.
Proof.
  unfold tal_parse, mbind, M_bind, getext. destruct (x_tal (e_ext e) b) as [[uris key]|]; [|done].
  cbn [of_option mret M_ret]. unfold mret, M_ret.
  assert (H : forall u, first_https uris = Some u ->
    exists pre post, uris = pre ++ TalHttps u :: post /\ forall u', TalHttps u' ∉ pre).
  { induction uris as [|[u0|u0] uris IH]; intros u; cbn; [done|..].
    - intros [= ->]. exists [], uris. split; [done|]. intros ? []%not_elem_of_nil.
    - intros H. destruct (IH u H) as (pre & post & -> & Hn). exists (TalRsync u0 :: pre), post.
      split; [done|]. intros u' [?|?]%elem_of_cons; [done|]. by eapply Hn. }
  destruct (first_https uris) as [u|] eqn:Eu; [|done].
  cbn [of_option]. unfold mret, M_ret. intros [= <- <-].
  destruct (H u eq_refl) as (pre & post & -> & Hn).
  exists (pre ++ TalHttps u :: post), key, pre, u, post. repeat split; auto; by destruct over.
Qed.
Example C38_example :
  tal_validate_at tree_tal 1000 tree_env start = (Ok (mkRCert ta_cert "all"), push_ev (EvHttp ta_uri Insecure None) start)
  /\ exists t w, tal_parse "ta" tal_doc None tree_env start = (Ok t, w) /\ t = tree_tal.
Proof. split; [vm_compute; reflexivity|]. eexists _, _. split; vm_compute; reflexivity. Qed.

(** ** C51: what is reported hangs together *)
(** Every reported certificate has a chain of valid certificates to a configured
    trust anchor, every trust anchor is reported on, and so is every child
    certificate that was reported as valid. *)
Theorem C51_complete_tree e off when vd w vd' rep w' :
  order_ok (e_ext e) ->
  validate_at vd off when e w = (Ok (vd', rep), w') ->
  (forall ca, ca ∈ rp_certs rep -> exists t ta rc, t ∈ vd_tals vd /\ ta_of e (w_fs w) when t ta /\
      rtc (kid (e_ext e) when (vd_repos vd')) ta rc /\ details rc (ca_info_ ca)) /\
  (forall t, t ∈ vd_tals vd -> exists ta ca, ta_of e (w_fs w) when t ta /\ ca ∈ rp_certs rep /\
      details ta (ca_info_ ca)) /\
  (forall ca c, ca ∈ rp_certs rep -> c ∈ ca_children ca ->
      exists ca', ca' ∈ rp_certs rep /\ ca_info_ ca' = c.2).
Proof.
  intros Hx E. destruct (validate_at_report _ _ _ _ _ _ _ _ Hx E) as [_ R2 R3 R4].
  assert (He : forall rc ca, explained (e_ext e) when (vd_repos vd') rc ca -> details rc (ca_info_ ca)).
  { intros rc ca (info & Hi & H). assert (ca_info_ ca = info) as ->; [|done].
    destruct (ci_rrdp info); [|by subst]. destruct H as [->|(d & _ & _ & -> & _)]; done. }
  split; [|split; [|exact R4]].
  - intros ca Hca. destruct (R3 ca Hca) as (t & ta & rc & ? & ? & ? & ?). exists t, ta, rc. auto.
  - intros t Ht. destruct (R2 t Ht) as (rc & ca & ? & ? & ?). exists rc, ca. auto.
Qed.
Example C51_example : length (rp_certs tree_report) = 4.
Proof. vm_compute. reflexivity. Qed.

(** ** C45 (violated): validator requests are TLS-strict *)
Lemma lenient_test {A} (r : res A * world) uri :
  is_ok r.1 && existsb (fun ev => match ev with
     | EvHttp u Insecure None => String.eqb u uri | _ => false end) (w_trace r.2) = true ->
  is_ok r.1 = true /\ EvHttp uri Insecure None ∈ w_trace r.2.
Proof.
  intros [H1 H2]%andb_true_iff. split; [done|].
  apply existsb_exists in H2 as (ev & Hin & H2). apply elem_of_list_In in Hin.
  destruct ev as [|u [|] [|]| | |]; try done. by apply String.eqb_eq in H2 as ->.
Qed.
Lemma ok_tt (r : res unit * world) : is_ok r.1 = true -> r.1 = Ok tt.
Proof. destruct r as [[[]| |] ?]; done. Qed.
(** The requests of a validator made for a configuration are lenient although
    --insecure is not given. *)
Definition c_tal : config := {|
  c_verbose := 0; c_quiet := false;
  c_state_dir := ["var"; "ks"]; c_rrdp_dir := ["srv"; "rrdp"];
  c_notify_delay := 0; c_max_deltas := Some 100;
  c_rsync_dir := ["srv"; "rsync"]; c_force_moves := false; c_rsync_disable := true;
  c_include_host := false; c_cleanup_after := 7200; c_insecure := false;
  c_notif_uri := notif_uri; c_source_base := None; c_fetch_map := None;
  c_tal_files := [["ta.tal"]]; c_scripts := []; c_reject := false; c_offline := false |}.
Definition small_files : list (rsync_uri * string) :=
  ca_files "ta/" [] [("o1.cer", text j_cert (ca_cert 11 "k3" "o1/" other_uri))] [].
Definition tree_docs_all : list (string * string) :=
  (ta_uri, text j_cert ta_cert) ::
  (notif_uri, json_text (j_notif (mkNotif uuid_A 1 "https://h/rrdp/s1" (demo_hash (snap_text small_files)) []))) ::
  ("https://h/rrdp/s1", snap_text small_files) :: [].
Definition tal_fs : fs := <[["ta.tal"] := File tal_doc None]> (w_fs start).
Theorem C45_refuted : exists c e f u,
  c_insecure c = false /\ (run c e f).1 = Ok tt /\
  EvHttp u Insecure None ∈ w_trace (run c e f).2.
Proof.
  exists c_tal, (demo_env tree_docs_all 1000), tal_fs, other_uri.
  destruct (lenient_test (run c_tal (demo_env tree_docs_all 1000) tal_fs) other_uri) as [H1 H2];
    [vm_compute; reflexivity|].
  split; [reflexivity|]. split; [exact (ok_tt _ H1)|exact H2].
Qed.

Print Assumptions C31_offline.
Print Assumptions C32_lookup.
Print Assumptions C49_refuted.
Print Assumptions C49_not_older.
Print Assumptions C50_refuted.
Print Assumptions C33_totals.
Print Assumptions C33_totals_built.
Print Assumptions C34_entries.
Print Assumptions C35_not_revoked.
Print Assumptions C35_routers_refuted.
Print Assumptions C36_refuted.
Print Assumptions C36_only_long_chains.
Print Assumptions C37_not_again.
Print Assumptions C37_refuted.
Print Assumptions C38_trust_anchor.
Print Assumptions C38_location.
Print Assumptions C51_complete_tree.
Print Assumptions C45_refuted.
