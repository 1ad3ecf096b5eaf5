(** * Which requests a run sends: C41, C44 *)
From Verif Require Export Requests RunDone.
From Verif Require Import PropsRun DemoRun.
From Verif Require Import FsWf.

(** ** C41 *)
(** The request for the source's [uri], with the --source-base argument [s] (if
    any), with or without --insecure; [parent] is the base of the notification
    URI. *)
Definition goes_to (x : ext) (s : option string) (insecure : bool) (parent uri u : https) (m : fetch_mode) : Prop :=
  m = (if insecure then Insecure else Strict) /\
  match s with
  | None => u = uri
  | Some b => x_https_ok x b = true /\ exists rel, uri = parent +:+ rel /\ u = b +:+ rel
  end.
(** the notification, or a file that a notification offered by the source lists *)
Definition wanted (c : config) (e : env) (f : fs) (uri : https) : Prop :=
  uri = c_notif_uri c \/ exists n h, offers c e f n /\ (uri, h) ∈ refs n.

Lemma located_goes_to f0 a c s x parent uri u m :
  post_configure f0 a = Ok c -> cli_source_base a = source_of_str x <$> s -> https_parent (cli_notif_uri a) = Some parent ->
  located x (config_fetcher c) uri = Some (SUri u m) -> goes_to x s (cli_insecure a) parent uri u m.
Proof.
  intros Hp Hb Hpar. unfold post_configure, post_configure_source in Hp. rewrite Hpar, Hb in Hp.
  destruct s as [b|]; cbn [fmap option_fmap option_map] in Hp.
  - destruct (source_is_dir f0 (apply_insecure (cli_insecure a) (source_of_str x b))) eqn:Ed; [|done].
    destruct (post_configure_dirs _ _ _) as [rr ry]. injection Hp as <-.
    unfold located, config_fetcher. cbn [fe_map c_fetch_map fm_base fm_fetch].
    destruct (strip_prefix parent uri) as [rel|] eqn:Es; [|done]. apply strip_prefix_spec in Es.
    unfold source_of_str in Ed |- *. destruct (x_https_ok x b) eqn:Eh.
    + unfold apply_insecure in Ed |- *. unfold goes_to.
      assert (Edir : ends_with "/" b = true) by (by destruct (cli_insecure a)). clear Ed.
      destruct (cli_insecure a); unfold https_join; rewrite Edir; (destruct (x_https_ok x (b +:+ _)) eqn:E2; [|done]);
        cbn; intros H; injection H as <- <-; (split; [done|]); (split; [done|]); by exists rel.
    + unfold apply_insecure. by destruct (cli_insecure a).
  - destruct (post_configure_dirs _ _ _) as [rr ry]. injection Hp as <-. cbn. intros [= <- <-]. by split.
Qed.
Theorem C41_requests f0 a c s e f parent u m t :
  post_configure f0 a = Ok c -> cli_source_base a = source_of_str (e_ext e) <$> s ->
  https_parent (cli_notif_uri a) = Some parent -> cli_tal_files a = [] ->
  EvHttp u m t ∈ w_trace (run c e f).2 ->
  exists uri, wanted c e f uri /\ goes_to (e_ext e) s (cli_insecure a) parent uri u m.
Proof.
  intros Hp Hb Hpar Ht Hin.
  assert (Htc : c_tal_files c = []).
  { unfold post_configure in Hp. destruct (post_configure_source _ _ _ _) as [[]| |]; try done.
    destruct (post_configure_dirs _ _ _). by injection Hp as <-. }
  pose (R := fun u m (_ : option string) => exists uri, wanted c e f uri /\ goes_to (e_ext e) s (cli_insecure a) parent uri u m).
  assert (HR : forall uri src t', wanted c e f uri -> located (e_ext e) (config_fetcher c) uri = Some src -> req_ok (http_ok R) src t').
  { intros uri [p|u' m'] t' Hw Hl; [done|]. cbn. exists uri. split; [done|]. eapply located_goes_to; eauto. }
  destruct (w_run_requests e R c f Htc) as (l & E & HJ & _).
  - intros src t' Hl _. eapply HR; [by left|done].
  - intros n uri h src Ho Hr Hl. eapply HR; [|done]. right. by exists n, h.
  - unfold run in Hin. rewrite E in Hin. cbn in Hin. rewrite Forall_forall in HJ. by apply (HJ _ Hin).
Qed.
(** A run that publishes a new version published only URIs below that base. *)
Theorem C41_refused c base name e f w :
  setting c base name e f -> run c e f = (Ok tt, w) ->
  w_fs w = f \/
  exists n n', offers c e f n /\ (exists rel, n_snap_uri n = base +:+ rel) /\
    w_fs w !! notif_path c name = Some (File (x_write_notif (e_ext e) n') None) /\
    forall u h, (u, h) ∈ refs n' -> exists rel, u = base +:+ rel.
Proof.
  intros Hs%setting_sane Hrun. destruct (ok_run c base name e f Hs w Hrun)
    as [(H & _)|(st & n0 & n & sg & f1 & v & st' & f2 & cb & st2 & f3 & f4 & n' & f5 & Ha & _ & Hg & HN & _)]; [by left|right].
  destruct Ha as [[A1 _] (s & Es & Hn') _ _].
  pose proof (am_staged _ _ _ _ _ _ _ _ _ _ (ac_move _ _ _ _ _ _ _ _ _ _ _ _ _ (ar_clean _ _ _ _ _ _ _ _ _ _ _ _ _ _ _ _ A1))) as Hst.
  destruct (so_source _ _ _ _ _ _ _ _ Hst) as [Ho Hsv]. destruct (sav_same _ _ _ _ _ Hsv) as (E1 & E2 & E3 & E4).
  destruct (so_snap _ _ _ _ _ _ _ _ Hst) as (S1 & S2 & S3 & S4 & _).
  exists n0, n'. split; [done|]. split; [exists (ss_rel (sg_snap sg)); by rewrite <- E3|]. split; [done|].
  rewrite Hn'. intros u h [[= -> _]|Hin]%elem_of_cons; [by eexists|].
  apply elem_of_list_fmap in Hin as (d & [= -> _] & Hd). cbn in Hd. apply elem_of_list_fmap in Hd as (d' & -> & _). by eexists.
Qed.
Print Assumptions C41_requests.
Print Assumptions C41_refused.

(** The source is fetched from another host, leniently. *)
Definition cli41 : cli := mkCli 0 false "/var/ks" "/srv/rrdp" "/srv/rsync" 0 (Some 100) false false false 7200 true notif_uri
  (source_of_str safe_ext <$> Some "https://proxy/cache/") [] [] false false.
Definition proxy_env : env := run_env ((fun d => ("https://proxy/cache/" +:+ default "" (strip_prefix base d.1), d.2)) <$> docs3 0) 0.
Fixpoint requests (l : list event) : list (https * fetch_mode * option string) :=
  match l with
  | [] => []
  | EvHttp u m t :: l' => (u, m, t) :: requests l'
  | _ :: l' => requests l'
  end.
Example C41_example : exists c, post_configure start_tree cli41 = Ok c /\
  fst <$> requests (w_trace (run c proxy_env start_tree).2) =
    [("https://proxy/cache/notification.xml", Insecure);
     ("https://proxy/cache/" +:+ snap_rel uuid_A 3, Insecure);
     ("https://proxy/cache/" +:+ delta_rel uuid_A 2, Insecure);
     ("https://proxy/cache/" +:+ delta_rel uuid_A 3, Insecure)] /\
  match (run c proxy_env start_tree).1 with Ok _ => true | _ => false end = true.
Proof. eexists. split; [reflexivity|]. split; by vm_compute. Qed.

(** ** C44 *)
(** In every history, no request that a run sends for the notification or any
    other file of the source is conditional, whatever ETags were received. *)
Theorem C44_unconditional c base name e f u m t :
  setting c base name e f -> c_tal_files c = [] ->
  EvHttp u m t ∈ w_trace (run c e f).2 -> t = None.
Proof.
  intros Hs Ht Hin. pose proof (setting_sane _ _ _ _ _ Hs) as Hsn.
  destruct (w_run_requests e (fun _ _ t => t = None) c f Ht) as (l & E & HJ & _).
  - intros src t' Hl (w & st & El & ->). destruct src as [p|u' m']; [done|]. cbn.
    assert (Hst : starts_from c base name f st).
    { assert (H : wpt e anyev (load_state c) (resume f) (fun r _ => forall st, r = Ok st -> starts_from c base name f st)).
      { apply (w_load_state c base name (sn_cfg _ _ _ _ _ Hsn)).
        - by intros w' st' _ Hst ? [= <-].
        - by intros. }
      apply wpt_elim in H. apply H. by rewrite El. }
    apply (start_good c base name e f Hsn) in Hst. by rewrite (gs_source _ _ _ _ Hst).
  - intros n uri h src Ho Hr Hl. by destruct src.
  - unfold run in Hin. rewrite E in Hin. cbn in Hin. rewrite Forall_forall in HJ. by apply (HJ _ Hin).
Qed.
Print Assumptions C44_unconditional.
(** So the property is violated: the first run receives an ETag with the
    notification, completes, and the second run does not send it. *)
Definition tagged (docs : list (string * string)) (t : Z) : env :=
  mkEnv safe_ext (fun k u m tag => match Demo.assoc docs u with
                                    | Some b => HReply 200 (Some (Some "v1")) (Some b)
                                    | None => HReply 404 None (Some "") end)
    (fun _ => t) (fun _ _ => None) (fun _ _ => SOk) 50.
Definition tag_tree : fs := after (run demo_config (tagged (docs3 0) 0) start_tree).
Definition fine (r : res unit * world) (P : list event -> bool) : bool :=
  match r.1 with Ok _ => P (w_trace r.2) | _ => false end.
Lemma fine_ok c e f P : fine (run c e f) P = true ->
  exists w, run c e f = (Ok tt, w) /\ P (w_trace w) = true /\ after (run c e f) = w_fs w.
Proof.
  unfold fine, after. destruct (run c e f) as [[[]| |] w]; cbn [fst snd]; [|done|done]. intros H. exists w.
  split; [reflexivity|]. by split.
Qed.
Definition plain_request (r : https * fetch_mode * option string) : bool :=
  match r with (u, Strict, None) => String.eqb u notif_uri | _ => false end.
Definition no_tag (r : https * fetch_mode * option string) : bool := match r.2 with None => true | Some _ => false end.
Lemma in_requests l u m t : (u, m, t) ∈ requests l <-> EvHttp u m t ∈ l.
Proof.
  induction l as [|ev l IH]; [by rewrite !elem_of_nil|].
  destruct ev; cbn [requests]; rewrite !elem_of_cons, IH; naive_solver.
Qed.
Lemma plain_asked l : existsb plain_request (requests l) = true -> EvHttp notif_uri Strict None ∈ l.
Proof.
  intros ([[u m] t] & H1%elem_of_list_In & H2)%existsb_exists. apply in_requests.
  destruct m; [|done]. destruct t; [done|]. cbn in H2. apply String.eqb_eq in H2. by subst.
Qed.
Theorem C44_refuted : exists e0 e1 f g w0 w1 tag b,
  run demo_config e0 f = (Ok tt, w0) /\ g = w_fs w0 /\ run demo_config e1 g = (Ok tt, w1) /\
  (forall k t, e_http e0 k notif_uri Strict t = HReply 200 (Some (Some tag)) (Some b)) /\
  (exists t0, EvHttp notif_uri Strict t0 ∈ w_trace w0) /\
  (exists t1, EvHttp notif_uri Strict t1 ∈ w_trace w1) /\
  (forall t1, EvHttp notif_uri Strict t1 ∈ w_trace w1 -> t1 <> Some tag).
Proof.
  destruct (fine_ok demo_config (tagged (docs3 0) 0) start_tree (fun l => existsb plain_request (requests l)))
    as (w0 & E0 & H0 & F0); [vm_cast_no_check (eq_refl true)|].
  destruct (fine_ok demo_config (tagged (docs3 1) 1000) tag_tree
    (fun l => existsb plain_request (requests l) && forallb no_tag (requests l)))
    as (w1 & E1 & H1 & _); [vm_cast_no_check (eq_refl true)|].
  exists (tagged (docs3 0) 0), (tagged (docs3 1) 1000), start_tree, tag_tree, w0, w1, "v1", (json_text (j_notif (src3 0))).
  split; [exact E0|]. split; [exact F0|]. split; [exact E1|]. split; [intros k t; by vm_compute|].
  apply andb_true_iff in H1 as [H1 H1']. split; [exists None; by apply plain_asked|]. split; [exists None; by apply plain_asked|].
  intros t1 Hin%in_requests. rewrite forallb_forall in H1'. apply elem_of_list_In in Hin. specialize (H1' _ Hin).
  cbn in H1'. by destruct t1.
Qed.
Print Assumptions C44_refuted.
Example C44_applies : setting demo_config base name (env3 1) (tree3 1) /\ c_tal_files demo_config = [] /\
  Exists (fun ev => match ev with EvHttp _ _ _ => True | _ => False end) (w_trace (run demo_config (env3 1) (tree3 1)).2).
Proof.
  split; [apply setting3; lia|]. split; [done|]. apply Exists_exists. exists (EvHttp notif_uri Strict None). split; [|done].
  apply plain_asked. vm_cast_no_check (eq_refl true).
Qed.
