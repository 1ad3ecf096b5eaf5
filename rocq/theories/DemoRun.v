(** * Concrete histories for the examples *)
From Verif Require Export DemoTree Tracks HistoryProofs.

Global Instance clean_rel_dec r : Decision (clean_rel r).
Proof. unfold clean_rel. apply _. Defined.
Global Instance clean_uri_dec u : Decision (clean_uri u).
Proof. unfold clean_uri. apply _. Defined.
Global Instance good_rel_dec name r : Decision (good_rel name r).
Proof. unfold good_rel. apply _. Defined.

(** the snapshot reader of the demonstration world, refusing URIs with improper
    segments *)
Definition safe_snapshot (b : string) : list (rsync_uri * option string) * bool :=
  let r := demo_snapshot b in
  if bool_decide (Forall (fun el => clean_uri el.1) r.1) then r else ([], false).
Definition safe_ext : ext := {|
  x_hash := demo_hash; x_https_ok := x_https_ok demo_ext; x_parse_notif := x_parse_notif demo_ext;
  x_write_notif := x_write_notif demo_ext; x_sav_last := false; x_snapshot := safe_snapshot;
  x_delta := x_delta demo_ext; x_cert := x_cert demo_ext; x_crl := x_crl demo_ext; x_sigobj := x_sigobj demo_ext;
  x_mft := x_mft demo_ext; x_roa := x_roa demo_ext; x_aspa := x_aspa demo_ext; x_ta_valid := x_ta_valid demo_ext;
  x_mft_valid := x_mft_valid demo_ext; x_crl_signed := x_crl_signed demo_ext; x_ca_valid := x_ca_valid demo_ext;
  x_router_valid := x_router_valid demo_ext; x_roa_valid := x_roa_valid demo_ext;
  x_aspa_valid := x_aspa_valid demo_ext; x_order := x_order demo_ext; x_tal := x_tal demo_ext |}.
Lemma safe_clean : clean_snapshots safe_ext.
Proof.
  intros b u o. cbn. unfold safe_snapshot. cbv zeta. destruct (bool_decide _) eqn:E; [|by intros H%elem_of_nil].
  apply bool_decide_eq_true in E. rewrite Forall_forall in E. intros H. by apply (E _ H).
Qed.

Definition run_env (docs : list (string * string)) (t : Z) : env :=
  mkEnv safe_ext (serve docs) (fun _ => t) (fun _ _ => None) (fun _ _ => SOk) 50.
Definition name : string := "notification.xml".

Lemma demo_cfg_ok : cfg_ok demo_config base name.
Proof. split; try (vm_compute; done); try (by repeat constructor); (split; intros [k Hk]; vm_compute in Hk; done). Qed.

Definition wf_check (f : fs) : bool := bool_decide (map_Forall (fun p _ => parent_is_dir f p = true) f).
Lemma wf_check_ok f : wf_check f = true -> wf f.
Proof. intros H%bool_decide_eq_true p nd E. by apply (H p nd). Qed.
Definition start_tree : fs := w_fs start.
Lemma start_wf : wf start_tree.
Proof. apply wf_check_ok. by vm_compute. Qed.

(** what a source that serves fixed documents offers *)
Lemma serve_offers c docs t f n : c_source_base c = None -> c_fetch_map c = None -> c_notif_uri c = notif_uri ->
  offers c (run_env docs t) f n -> exists b, Demo.assoc docs notif_uri = Some b /\ x_parse_notif safe_ext b = Some n.
Proof.
  intros E1 E2 E3 (src & b & Hl & Hs & Hp). unfold located, config_fetcher in Hl. cbn in Hl. rewrite E2, E3 in Hl.
  cbn in Hl. injection Hl as <-. cbn in Hs. destruct Hs as (k & etag & hdr & Hs). cbn in Hs. unfold serve in Hs.
  exists b. split; [|done]. destruct (Demo.assoc docs notif_uri) as [b'|]; [|done]. by injection Hs as _ ->.
Qed.
Lemma serve_no_304 docs t : no_bad_304 (run_env docs t).
Proof. intros k u m hdr b. cbn. unfold serve. by destruct (Demo.assoc docs u). Qed.
Lemma serve_no_copy docs t : ~ may_copy (run_env docs t).
Proof. intros [n H]. done. Qed.
Lemma serve_patient c docs t : (0 < c_cleanup_after c)%Z -> (- 2 ^ 62 <= t < 2 ^ 62)%Z -> (c_cleanup_after c < 2 ^ 62)%Z ->
  patient c (run_env docs t).
Proof. intros H1 H2 H3 a b. cbn. lia. Qed.

(** ** A source with three versions, the last in another session *)
Definition src3 (i : nat) : notification :=
  match i with
  | 0 => notif_for uuid_A 3 [3; 2]%N
  | 1 => notif_for uuid_A 5 [5; 4; 3]%N
  | _ => notif_for uuid_B 1 []
  end.
Definition docs3 (i : nat) : list (string * string) :=
  match i with
  | 0 => docs_for uuid_A 3 [3; 2]%N
  | 1 => docs_for uuid_A 5 [5; 4; 3]%N
  | _ => docs_for uuid_B 1 []
  end.
Global Instance kind_eq_dec : EqDecision kind.
Proof. solve_decision. Defined.
Global Instance listing_eq_dec : EqDecision listing.
Proof. solve_decision. Defined.
Definition unique_check (n n' : notification) : bool :=
  bool_decide (Forall (fun a => Forall (fun b => li_uri a = li_uri b -> a = b) (listings n')) (listings n)).
Lemma unique_check_ok n n' a b : unique_check n n' = true -> a ∈ listings n -> b ∈ listings n' -> li_uri a = li_uri b -> a = b.
Proof.
  intros H%bool_decide_eq_true Ha Hb. rewrite Forall_forall in H. specialize (H a Ha). rewrite Forall_forall in H. by apply H.
Qed.
Lemma src3_cases i : src3 i = src3 0 \/ src3 i = src3 1 \/ src3 i = src3 2.
Proof. destruct i as [|[|i]]; auto. Qed.
Definition good_check (n : notification) : bool :=
  forallb (fun r => match strip_prefix base r.1 with Some rel => bool_decide (good_rel name rel) | None => true end) (refs n).
Lemma good_check_ok n : good_check n = true -> good_notif base name n.
Proof.
  intros H u h rel Hin ->. unfold good_check in H. rewrite forallb_forall in H. apply elem_of_list_In in Hin.
  specialize (H _ Hin). cbn [fst] in H. rewrite strip_prefix_app in H. by apply bool_decide_eq_true in H.
Qed.
Lemma src3_good i : good_notif base name (src3 i).
Proof. apply good_check_ok. destruct (src3_cases i) as [->|[->| ->]]; by vm_compute. Qed.
Definition lists_check (ni nj nl : option (notification * bool)) : bool :=
  match ni, nj, nl with
  | Some (ni, true), Some (nj, true), Some (nl, true) =>
      bool_decide (Forall (fun a => a ∈ li_uri <$> listings nl -> a ∈ li_uri <$> listings nj) (li_uri <$> listings ni))
  | _, _, _ => true
  end.
Lemma src3_gone : forall i j l, i <= j -> j <= l ->
  lists_check (sort_and_verify safe_ext (Some 100) (src3 i)) (sort_and_verify safe_ext (Some 100) (src3 j))
    (sort_and_verify safe_ext (Some 100) (src3 l)) = true.
Proof.
  intros i j l H1 H2.
  destruct i as [|[|i]], j as [|[|j]], l as [|[|l]]; try lia; cbn [src3]; by vm_compute.
Qed.
Lemma lists_uri n u : lists n u <-> u ∈ li_uri <$> listings n.
Proof. rewrite elem_of_list_fmap. split; intros (a & H1 & H2); exists a; auto. Qed.
Lemma src3_distinct i : distinct_serials (src3 i) = true.
Proof. destruct (src3_cases i) as [->|[->| ->]]; by vm_compute. Qed.
Lemma src3_stable : stable_source safe_ext (c_max_deltas demo_config) src3.
Proof.
  split.
  - intros i j a b. apply unique_check_ok.
    destruct (src3_cases i) as [->|[->| ->]], (src3_cases j) as [->|[->| ->]]; by vm_compute.
  - intros i j l ni nj nl u H1 H2 Vi Vj Vl. rewrite !lists_uri. pose proof (src3_gone i j l H1 H2) as H.
    apply (in_use_sav _ _ _ _ (src3_distinct _)) in Vi, Vj, Vl.
    change (c_max_deltas demo_config) with (Some 100) in *. rewrite Vi, Vj, Vl in H.
    apply bool_decide_eq_true in H. rewrite Forall_forall in H. intros Hi Hl. by apply H.
Qed.

Definition env3 (i : nat) : env := run_env (docs3 i) (1000 * Z.of_nat i).
Lemma docs3_offers i t f n : i <= 2 -> offers demo_config (run_env (docs3 i) t) f n -> n = src3 i.
Proof.
  intros Hi H. apply serve_offers in H as (b & H1 & H2); [|done..].
  assert (E : x_parse_notif safe_ext (json_text (j_notif (src3 i))) = Some (src3 i) /\
          Demo.assoc (docs3 i) notif_uri = Some (json_text (j_notif (src3 i)))).
  { destruct i as [|[|[|i]]]; [..|lia]; by vm_compute. }
  destruct E as [E1 E2]. congruence.
Qed.
Lemma env3_offers i f n : i <= 2 -> offers demo_config (env3 i) f n -> n = src3 i.
Proof. apply docs3_offers. Qed.
(** the tree before the first run, and after each of the three runs *)
Fixpoint tree3 (i : nat) : fs :=
  match i with
  | 0 => start_tree
  | S j => after (run demo_config (env3 j) (tree3 j))
  end.
Lemma env3_good i f : i <= 2 -> good_world demo_config base name (env3 i) f.
Proof. intros Hi. split; [|apply safe_clean]. intros n ->%env3_offers; [apply src3_good|done]. Qed.
Lemma follows3 i : i <= 3 -> follows demo_config base name safe_ext src3 (pred i) (tree3 i).
Proof.
  induction i as [|i IH]; intros Hi.
  - apply fo_start; [apply start_wf|done|done|]. intros p t _ E. cbn [tree3] in E. unfold start_tree, start in E. cbn [w_fs] in E.
    apply lookup_insert_Some in E as [[_ ?]|[_ E]]; [done|]. apply lookup_insert_Some in E as [[_ ?]|[_ E]]; [done|].
    by rewrite lookup_empty in E.
  - cbn [tree3 pred]. eapply (fo_run _ _ _ _ _ (pred i) i _ demo_config (env3 i)); [apply IH; lia|done|done|done| | | | | |apply after_instant].
    + apply serve_no_304.
    + intros H. by apply serve_no_copy in H.
    + apply serve_patient; cbn; lia.
    + lia.
    + intros n ->%env3_offers; [|lia]. exists i. split; [lia|]. done.
Qed.
Lemma mirror3 i : i <= 3 -> mirror any_notif demo_config base name (tree3 i).
Proof.
  induction i as [|i IH]; intros Hi.
  - by apply mi_start; [apply start_wf|].
  - cbn [tree3]. eapply (mi_run _ _ _ _ _ demo_config (env3 i)); [apply IH; lia|done|apply env3_good; lia|done|apply after_instant].
Qed.
Lemma setting3 i : i <= 2 -> setting demo_config base name (env3 i) (tree3 i).
Proof. intros Hi. split; [apply demo_cfg_ok|apply mirror3; lia|by apply env3_good]. Qed.

(** reading off a computed run *)
Lemma ran_ok c e f (P : fs -> Prop) :
  (match (run c e f).1 with Ok _ => true | _ => false end) = true -> P (after (run c e f)) ->
  exists w, run c e f = (Ok tt, w) /\ P (w_fs w).
Proof.
  unfold after. destruct (run c e f) as [[[]| |] w]; cbn [fst snd]; intros H1 H2; [|done|done]. by exists w.
Qed.

(** the state in the state file *)
Definition state_of (c : config) (f : fs) : option rrdp_state :=
  match op_read f (rrdp_state_path c) with Some b => state_parse b | None => None end.
Lemma state_of_starts c base name f st : state_of c f = Some st -> starts_from c base name f st.
Proof.
  unfold state_of. destruct (op_read f (rrdp_state_path c)) as [b|] eqn:E; [|done]. intros H. left. split.
  - unfold op_read in E. unfold fs_exists. by destruct (fs_stat f _).
  - by exists b.
Qed.
Lemma state_of_check c base name f (P : rrdp_state -> Prop) `{forall st, Decision (P st)} :
  match state_of c f with Some st => bool_decide (P st) | None => false end = true ->
  exists st, starts_from c base name f st /\ P st.
Proof.
  intros H'. destruct (state_of c f) as [st|] eqn:E; [|done]. exists st. split; [by apply state_of_starts|].
  by apply bool_decide_eq_true in H'.
Qed.

(** ** The three runs, computed once *)
Definition shown (f : fs) : option notification :=
  match f !! notif_path demo_config name with Some (File b _) => x_parse_notif safe_ext b | _ => None end.
Definition t3_1 : fs := after (run demo_config (env3 0) start_tree).
Definition t3_2 : fs := after (run demo_config (env3 1) t3_1).
Definition t3_3 : fs := after (run demo_config (env3 2) t3_2).
Definition tree_at (i : nat) : fs := match i with 0 => start_tree | 1 => t3_1 | 2 => t3_2 | _ => t3_3 end.
Lemma tree_at_eq i : i <= 3 -> tree_at i = tree3 i.
Proof. intros H. destruct i as [|[|[|[|i]]]]; [reflexivity..|lia]. Qed.
Definition ok_b (r : res unit * world) : bool := match r.1 with Ok _ => true | _ => false end.
(** session, serial, serials of the deltas, number of files, number of records *)
Definition summary (st : rrdp_state) : option (uuid * N * list N * nat * nat) :=
  (fun s => (ss_session s, ss_serial s, ds_serial <$> st_deltas st, length (state_files st), length (st_deprecated st))) <$> st_snap st.
Definition expected (i : nat) : option (uuid * N * list N * nat * nat) :=
  match i with
  | 1 => Some (uuid_A, 3%N, [3; 2]%N, 3, 0)
  | 2 => Some (uuid_A, 5%N, [5; 4; 3]%N, 4, 2)
  | _ => Some (uuid_B, 1%N, [], 1, 6)
  end.
Definition state_b (f : fs) (x : option (uuid * N * list N * nat * nat)) : bool :=
  match state_of demo_config f with Some st => bool_decide (summary st = x) | None => false end.
Definition served_b (f : fs) (x : option (N * list N)) : bool :=
  bool_decide ((fun n => (n_serial n, di_serial <$> n_deltas n)) <$> shown f = x).
Definition served_at (i : nat) : option (N * list N) :=
  match i with 1 => Some (3, [3; 2])%N | 2 => Some (5, [5; 4; 3])%N | _ => Some (1%N, []) end.
Definition file_b (f : fs) (rel : string) : bool :=
  match f !! public_path demo_config rel with Some (File _ _) => true | _ => false end.
Definition none_b (f : fs) (p : path) : bool := match f !! p with None => true | Some _ => false end.
Definition facts3 : list bool := [
  ok_b (run demo_config (env3 0) start_tree);
  ok_b (run demo_config (env3 1) t3_1);
  ok_b (run demo_config (env3 2) t3_2);
  state_b t3_1 (expected 1);
  state_b t3_2 (expected 2);
  state_b t3_3 (expected 3);
  served_b t3_1 (served_at 1);
  served_b t3_2 (served_at 2);
  served_b t3_3 (served_at 3);
  none_b start_tree (notif_path demo_config name);
  file_b t3_2 (snap_rel uuid_A 3);
  file_b t3_2 (snap_rel uuid_A 5);
  none_b t3_1 (public_path demo_config (snap_rel uuid_A 5))].
Lemma facts3_ok : forallb id facts3 = true.
Proof. vm_cast_no_check (eq_refl true). Qed.
Lemma all_true l : forallb id l = true -> Forall (fun b => b = true) l.
Proof. induction l as [|b l IH]; cbn; [constructor|]. intros [H1 H2]%andb_prop. constructor; auto. Qed.
Lemma facts3_all : Forall (fun b => b = true) facts3.
Proof. apply all_true, facts3_ok. Qed.
Ltac facts := pose proof facts3_all as F; unfold facts3 in F;
  apply Forall_cons in F as [F0 F]; apply Forall_cons in F as [F1 F]; apply Forall_cons in F as [F2 F];
  apply Forall_cons in F as [F3 F]; apply Forall_cons in F as [F4 F]; apply Forall_cons in F as [F5 F];
  apply Forall_cons in F as [F6 F]; apply Forall_cons in F as [F7 F]; apply Forall_cons in F as [F8 F];
  apply Forall_cons in F as [F9 F]; apply Forall_cons in F as [F10 F]; apply Forall_cons in F as [F11 F];
  apply Forall_cons in F as [F12 F].
Opaque run t3_1 t3_2 t3_3 start_tree.
Lemma ok_b_ok r : ok_b r = true -> exists w, r = (Ok tt, w) /\ w_fs w = after r.
Proof. unfold ok_b, after. destruct r as [[[]| |] w]; [by exists w|done|done]. Qed.
Lemma ran3 i : i <= 2 -> exists w, run demo_config (env3 i) (tree3 i) = (Ok tt, w) /\ w_fs w = tree3 (S i).
Proof.
  intros Hi. apply (ok_b_ok (run demo_config (env3 i) (tree3 i))). rewrite <- tree_at_eq by lia. facts.
  destruct i as [|[|[|i]]]; [exact F0|exact F1|exact F2|lia].
Qed.
Lemma state_b_ok f x : state_b f x = true -> exists st, state_of demo_config f = Some st /\ summary st = x.
Proof. unfold state_b. destruct (state_of demo_config f) as [st|]; [|done]. intros H. exists st. by apply bool_decide_eq_true in H. Qed.
Lemma state3 i : 1 <= i -> i <= 3 -> exists st, state_of demo_config (tree3 i) = Some st /\ summary st = expected i.
Proof.
  intros Hi1 Hi2. apply state_b_ok. rewrite <- tree_at_eq by lia. facts.
  destruct i as [|[|[|[|i]]]]; [lia|exact F3|exact F4|exact F5|lia].
Qed.
Lemma served_b_ok f x : served_b f x = true -> (fun n => (n_serial n, di_serial <$> n_deltas n)) <$> shown f = x.
Proof. apply bool_decide_eq_true_1. Qed.
Lemma served3 i : 1 <= i -> i <= 3 -> (fun n => (n_serial n, di_serial <$> n_deltas n)) <$> shown (tree3 i) = served_at i.
Proof.
  intros Hi1 Hi2. apply served_b_ok. rewrite <- tree_at_eq by lia. facts.
  destruct i as [|[|[|[|i]]]]; [lia|exact F6|exact F7|exact F8|lia].
Qed.
Lemma served3_deltas i : 1 <= i -> i <= 3 -> (fun n => di_serial <$> n_deltas n) <$> shown (tree3 i) = snd <$> served_at i.
Proof. intros H1 H2. rewrite <- served3 by done. by destruct (shown (tree3 i)). Qed.
Lemma none_b_ok f p : none_b f p = true -> f !! p = None.
Proof. unfold none_b. by destruct (f !! p). Qed.
Lemma served_same f g : f !! notif_path demo_config name = g !! notif_path demo_config name -> shown f = shown g.
Proof. unfold shown. by intros ->. Qed.
Lemma served_none f : f !! notif_path demo_config name = None -> shown f = None.
Proof. unfold shown. by intros ->. Qed.
Lemma served_start : shown (tree3 0) = None.
Proof. apply served_none, none_b_ok. facts. exact F9. Qed.
Lemma moved3 i : i <= 2 -> tree3 (S i) !! notif_path demo_config name <> tree3 i !! notif_path demo_config name.
Proof.
  intros Hi E%served_same. pose proof (served3 (S i) ltac:(lia) ltac:(lia)) as H. rewrite E in H.
  destruct i as [|i]; [rewrite served_start in H; discriminate H|]. rewrite served3 in H by lia.
  destruct i as [|[|i]]; [discriminate H|discriminate H|lia].
Qed.
Lemma changed3 i : i <= 2 -> tree3 (S i) <> tree3 i.
Proof. intros Hi E. apply (moved3 i Hi). by rewrite E. Qed.
Lemma ran_changed3 i : i <= 2 -> exists w, run demo_config (env3 i) (tree3 i) = (Ok tt, w) /\ w_fs w <> tree3 i.
Proof. intros Hi. destruct (ran3 i Hi) as (w & H1 & H2). exists w. rewrite H2. split; [exact H1|by apply changed3]. Qed.
Lemma file_b_ok f rel : file_b f rel = true -> exists b m, f !! public_path demo_config rel = Some (File b m).
Proof. unfold file_b. destruct (f !! _) as [[b m| |]|]; [by exists b, m|done..]. Qed.
Lemma file3 rel : (rel = snap_rel uuid_A 3 \/ rel = snap_rel uuid_A 5) ->
  exists b m, tree3 2 !! public_path demo_config rel = Some (File b m).
Proof.
  intros Hr. apply file_b_ok. rewrite <- (tree_at_eq 2) by lia. facts. destruct Hr as [-> | ->]; [exact F10|exact F11].
Qed.
Lemma new3 : tree3 1 !! public_path demo_config (snap_rel uuid_A 5) = None.
Proof. apply none_b_ok. rewrite <- (tree_at_eq 1) by lia. facts. exact F12. Qed.
Transparent run t3_1 t3_2 t3_3 start_tree.
