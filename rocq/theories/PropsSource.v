(** * What the source's answer means for the run: C04, C05, C06 *)
From Coq Require Import ZifyN ZifyNat ZifyBool.
From Verif Require Import DemoRun RunDone Fails FsWf.

(** ** C04: a refused update leaves the published data alone *)
(** nothing but the staging directory differs; directories above it may have
    been created *)
Definition only_staging (c : config) (f g : fs) : Prop :=
  forall p, under (staging_dir c) p \/ g !! p = f !! p \/
    (below p (staging_dir c) /\ f !! p = None /\ g !! p = Some Dir).

Lemma wpt_instants {A} c e f (J : event -> Prop) (m : M A) (k : A -> M unit) Q :
  (forall w, process c e w = (m ≫= k) e w) ->
  wpt e J m (resume f) Q -> (forall a, (m e (resume f)).1 <> Ok a) ->
  Forall J (w_trace (run c e f).2) /\
  ((run c e f).1 = match (m e (resume f)).1 with Ok _ => Ok tt | Err x => Err x | Panic => Panic end).
Proof.
  intros Hp (l & Ht & Hl & HQ) Hn. unfold run. rewrite Hp. unfold mbind, M_bind.
  destruct (m e (resume f)) as [[a|x|] w]; cbn [fst snd resume w_trace] in *.
  - by destruct (Hn a).
  - by rewrite Ht.
  - by rewrite Ht.
Qed.
Lemma instants_in c e f g : g ∈ instants c e f <-> g = f \/ EvFs g ∈ w_trace (run c e f).2.
Proof. unfold instants. by rewrite elem_of_cons, trees_in. Qed.

Lemma process_prepare c w e : process c e w = (prepare c ≫= (fun o =>
  match o with
  | None => mret tt
  | Some (st1, sg) =>
     st2 ← apply_staged_changed st1 sg c;
     when_ (rsync_enabled c) (update_from_rrdp_state st2 c) ;;
     write_notification st2 (c_notify_delay c) ;;
     persist st2 (rrdp_state_path c)
  end)) e w.
Proof.
  unfold process, prepare, publish_staged, mbind, M_bind.
  destruct (load_state c e w) as [[st| |] w1]; [|done..].
  destruct (update_staged st c e w1) as [[[sg|]| |] w2]; [|done..].
  destruct (pre_validate st c e w2) as [[st1| |] w3]; [|done..].
  by destruct (pre_validate_scripts c e w3) as [[[]| |] w4].
Qed.

(** [prepare] is a run up to and including pre-validation and its scripts.  If
    that does not succeed, for whatever reason, the run ends with the same
    error, and at every instant only the staging directory is different. *)
Theorem C04_not_prepared c base name e f g :
  setting c base name e f ->
  (forall o, (prepare c e (resume f)).1 <> Ok o) -> g ∈ instants c e f ->
  only_staging c f g /\
  (run c e f).1 = match (prepare c e (resume f)).1 with Ok _ => Ok tt | Err x => Err x | Panic => Panic end.
Proof.
  intros Hs%setting_sane Hno Hg. pose proof (w_prepare c base name e f Hs) as H.
  destruct (wpt_instants c e f _ (prepare c) _ _ (fun w => process_prepare c w e) H Hno) as [HJ HR].
  split; [|done]. apply instants_in in Hg as [->|Hg]; [by right; left|].
  rewrite Forall_forall in HJ. by destruct (HJ _ Hg) as [[_ H'] _].
Qed.

(** What publishing can end with: input/output errors, a staged file that went
    missing, an unreadable rsync state, a snapshot that cannot be unpacked. *)
Definition late_error (x : err) : Prop :=
  x ∈ [EIo; ESourceMissing; EParseState; ESnapshotXml; ENoSnapshot; EJoin].
(** A run that panics or ends with any other error (nothing fetched, not
    parsed, hash mismatch, gap in the deltas, serial behind, rejected by the
    validator or by a script, ...) has changed the staging directory only. *)
Theorem C04_refused c base name e f g :
  setting c base name e f ->
  (forall x, (run c e f).1 = Err x -> ~ late_error x) -> (run c e f).1 <> Ok tt ->
  g ∈ instants c e f -> only_staging c f g.
Proof.
  intros Hset Hx Hok Hg. apply (C04_not_prepared c base name e f g Hset); [|done].
  intros o E. unfold run in Hx, Hok. rewrite process_prepare in Hx, Hok. unfold mbind, M_bind in Hx, Hok.
  destruct (prepare c e (resume f)) as [r w]. cbn [fst] in E. subst r.
  destruct o as [[st1 sg]|]; [|by apply Hok].
  pose proof (fl_publish st1 sg c e w) as H. unfold mbind, M_bind in H.
  match type of H with match ?r.1 with _ => _ end => set (z := r) in * end.
  destruct z as [[[]|x|] w'] eqn:Ez; cbn [fst] in *.
  - by apply Hok.
  - by apply (Hx x).
  - done.
Qed.

(** An unreadable state file stops the run at once. *)
Theorem C04_bad_state c e f b :
  op_read f (rrdp_state_path c) = Some b -> state_parse b = None ->
  (exists x, (run c e f).1 = Err x) /\ instants c e f = [f].
Proof.
  intros Hr Hp. assert (Hex : fs_exists f (rrdp_state_path c) = true).
  { unfold op_read in Hr. unfold fs_exists. by destruct (fs_stat f _). }
  assert (E : exists x w, process c e (resume f) = (Err x, w) /\ w_trace w = []).
  { unfold process, load_state, f_exists, mbind, M_bind. cbn [resume w_fs]. rewrite Hex.
    unfold recover, read_file, f_read, mbind, M_bind. cbn [resume w_fs w_n]. rewrite Hr.
    destruct (e_fault e 0 ORead); [by do 2 eexists|]. rewrite Hp. by do 2 eexists. }
  destruct E as (x & w & E & Et). unfold instants, run. rewrite E. cbn. rewrite Et. split; [by eexists|done].
Qed.

(** The source has the new notification but not the files: staging starts, and
    the run fails. *)
Definition bare : env := run_env (filter (fun d => d.1 = notif_uri) (docs3 1)) 1000.
Lemma bare_offers f n : offers demo_config bare f n -> n = src3 1.
Proof.
  intros H. apply serve_offers in H as (b & H1 & H2); [|done..].
  assert (E : x_parse_notif safe_ext (json_text (j_notif (src3 1))) = Some (src3 1) /\
          Demo.assoc (filter (fun d => d.1 = notif_uri) (docs3 1)) notif_uri = Some (json_text (j_notif (src3 1)))) by (by vm_compute).
  destruct E as [E1 E2]. congruence.
Qed.
Lemma bare_setting : setting demo_config base name bare (tree3 1).
Proof.
  split; [apply demo_cfg_ok|apply mirror3; lia|]. split; [|apply safe_clean]. intros n ->%bare_offers. apply src3_good.
Qed.
Example C04_applies : setting demo_config base name bare (tree3 1) /\
  (exists x, (run demo_config bare (tree3 1)).1 = Err x /\ ~ late_error x) /\
  (exists x, (prepare demo_config bare (resume (tree3 1))).1 = Err x) /\
  (exists p, under (staging_dir demo_config) p /\ after (run demo_config bare (tree3 1)) !! p <> tree3 1 !! p).
Proof.
  split; [apply bare_setting|]. split; [|split].
  - assert (H : match (run demo_config bare (tree3 1)).1 with Err x => bool_decide (x ∉ [EIo; ESourceMissing; EParseState; ESnapshotXml; ENoSnapshot; EJoin]) | _ => false end = true) by (by vm_compute).
    destruct (run demo_config bare (tree3 1)).1 as [|x|]; [done| |done]. exists x. split; [done|]. by apply bool_decide_eq_true in H.
  - assert (H : match (prepare demo_config bare (resume (tree3 1))).1 with Err x => true | _ => false end = true) by (by vm_compute).
    destruct (prepare demo_config bare (resume (tree3 1))).1 as [|x|]; [done|by exists x|done].
  - exists (staging_dir demo_config ++ [name]). split; [apply under_app|]. apply (bool_decide_unpack _); by vm_compute.
Qed.
Example C04_bad_state_applies : let f := <[["var"; "ks"] := Dir]> (<[rrdp_state_path demo_config := File "{" None]> start_tree) in
  op_read f (rrdp_state_path demo_config) = Some "{" /\ state_parse "{" = None.
Proof. split; by vm_compute. Qed.
Print Assumptions C04_not_prepared.
Print Assumptions C04_refused.
Print Assumptions C04_bad_state.

(** ** C05: no change at the source means no change on disk *)
(** whoever asks the source for the notification gets these bytes *)
Definition source_says (c : config) (e : env) (f : fs) (b : string) : Prop :=
  match located (e_ext e) (config_fetcher c) (c_notif_uri c) with
  | Some (SUri u m) => forall k etag, exists hdr, e_http e k u m etag = HReply 200 hdr (Some b) /\ hdr <> Some None
  | Some (SFile p) => op_read f p = Some b
  | None => False
  end.
(** whoever asks is told that nothing changed *)
Definition source_unmodified (c : config) (e : env) : Prop :=
  exists u m, located (e_ext e) (config_fetcher c) (c_notif_uri c) = Some (SUri u m) /\
    forall k etag, exists hdr b, e_http e k u m etag = HReply 304 hdr b.
Definition readable (e : env) : Prop := forall k, e_fault e k ORead = None.

Lemma load_state_ok c base name e f st : cfg_ok c base name -> starts_from c base name f st -> readable e ->
  exists w, load_state c e (resume f) = (Ok st, w) /\ w_fs w = f /\ trees (w_trace w) = [].
Proof.
  intros Hc Hst Hr. unfold load_state, f_exists, mbind, M_bind. cbn [resume w_fs].
  destruct Hst as [[-> (b & Hb & Hp)]|[-> ->]].
  - unfold recover, read_file, f_read, mbind, M_bind. cbn [resume w_fs w_n]. rewrite Hb, (Hr 0), Hp. cbn. by eexists.
  - unfold create, notif_source_build, mappings_build, mbind, M_bind. cbn [resume].
    rewrite (ck_parent _ _ _ Hc). cbn. rewrite (ck_uri _ _ _ Hc), strip_prefix_app. cbn. unfold M_bind. cbn.
    unfold first_state. rewrite (ck_uri _ _ _ Hc). by eexists.
Qed.
Lemma resolve_ok x f u src e w : e_ext e = x -> located x f u = Some src -> resolve_source f u e w = (Ok src, w).
Proof.
  intros <- H. unfold resolve_source, located in *. destruct (fe_map f) as [m|]; [|by injection H as <-].
  unfold map_source. destruct (strip_prefix (fm_base m) u) as [rel|]; [|done]. unfold source_join.
  destruct (fm_fetch m) as [b|b md]; [by injection H as <-|]. unfold getext, mbind, M_bind.
  destruct (https_join (e_ext e) b rel) as [u'|]; [|done]. cbn in *. by injection H as <-.
Qed.
Lemma trees_snoc l ev : (forall g, ev <> EvFs g) -> trees (l ++ [ev]) = trees l.
Proof. intros H. induction l as [|a l IH]; cbn; [|destruct a; by rewrite ?IH]. destruct ev; try done. by destruct (H f). Qed.
Lemma fetch_unmodified c e w s : source_unmodified c e ->
  exists w', notif_source_fetch s (config_fetcher c) e w = (Ok None, w') /\ w_fs w' = w_fs w /\ trees (w_trace w') = trees (w_trace w).
Proof.
  intros (u & m & Hl & H). unfold notif_source_fetch, read_notification_file, mbind, M_bind.
  change (fe_notif (config_fetcher c)) with (c_notif_uri c).
  rewrite (resolve_ok (e_ext e) _ _ (SUri u m)) by done. unfold fetch, fetch_raw, http_get, mbind, M_bind.
  destruct (H (w_n w) (ns_etag s)) as (hdr & b & ->). cbn. eexists. split; [done|]. cbn. split; [done|]. by apply trees_snoc.
Qed.
Lemma fetch_says c e w s b n : source_says c e (w_fs w) b -> readable e -> x_parse_notif (e_ext e) b = Some n ->
  exists w' t, notif_source_fetch s (config_fetcher c) e w = (Ok (Some (n, t)), w') /\
    w_fs w' = w_fs w /\ trees (w_trace w') = trees (w_trace w).
Proof.
  unfold source_says. destruct (located _ _ _) as [[p|u m]|] eqn:Hl; [| |done]; intros H Hr Hp;
    unfold notif_source_fetch, read_notification_file, mbind, M_bind;
    change (fe_notif (config_fetcher c)) with (c_notif_uri c);
    rewrite (resolve_ok (e_ext e) _ _ _ _ _ eq_refl Hl); unfold fetch, fetch_raw, http_get, mbind, M_bind.
  - unfold read_file, f_read. rewrite H, Hr. cbn. unfold M_bind, getext. rewrite Hp. cbn. do 2 eexists. split; [done|].
    cbn. split; [done|]. by rewrite app_nil_r.
  - destruct (H (w_n w) (ns_etag s)) as (hdr & -> & Hh). cbn. unfold M_bind.
    destruct hdr as [[t|]|]; [| done |]; cbn; unfold getext; rewrite Hp; cbn; (do 2 eexists; split; [done|]; cbn; split; [done|]; by apply trees_snoc).
Qed.

Theorem C05_unmodified c base name e f st :
  cfg_ok c base name -> starts_from c base name f st -> readable e ->
  source_unmodified c e ->
  (run c e f).1 = Ok tt /\ instants c e f = [f].
Proof.
  intros Hc Hst Hr Hu. destruct (load_state_ok c base name e f st Hc Hst Hr) as (w1 & E1 & F1 & T1).
  destruct (fetch_unmodified c e w1 (st_source st) Hu) as (w2 & E2 & F2 & T2).
  unfold instants, run, process, update_staged, mbind, M_bind. rewrite E1, E2. cbn. by rewrite T2, T1.
Qed.
(** The state file records the version of the source's notification (whose
    deltas, limited, have no gap). *)
Theorem C05_same_version c base name e f st s b n0 l :
  cfg_ok c base name -> starts_from c base name f st -> st_snap st = Some s -> readable e ->
  source_says c e f b -> x_parse_notif (e_ext e) b = Some n0 ->
  ungapped (e_ext e) (c_max_deltas c) n0 l ->
  n_session n0 = ss_session s -> n_serial n0 = ss_serial s ->
  (run c e f).1 = Ok tt /\ instants c e f = [f].
Proof.
  intros Hc Hst Hsn Hr Hb Hp [n Hv]%ungapped_sav Es En. destruct (load_state_ok c base name e f st Hc Hst Hr) as (w1 & E1 & F1 & T1).
  rewrite <- F1 in Hb. destruct (fetch_says c e w1 (st_source st) b n0 Hb Hr Hp) as (w2 & t & E2 & F2 & T2).
  destruct (sav_same _ _ _ _ _ Hv) as (V1 & V2 & _).
  unfold instants, run, process, update_staged, mbind, M_bind, getext. rewrite E1, E2, Hv. cbn [negb].
  assert (compare_version st n = VSame) as ->.
  { unfold compare_version. rewrite Hsn, bool_decide_true by congruence. cbn. rewrite V2, En. by rewrite N.compare_refl. }
  cbn. by rewrite T2, T1.
Qed.

Lemma serve_says docs t f b : Demo.assoc docs notif_uri = Some b -> source_says demo_config (run_env docs t) f b.
Proof. intros E k etag. exists None. cbn. unfold serve. by rewrite E. Qed.
Lemma tree3_state i : 1 <= i -> i <= 3 -> exists st s, starts_from demo_config base name (tree3 i) st /\ st_snap st = Some s /\
  ss_session s = n_session (src3 (pred i)) /\ ss_serial s = n_serial (src3 (pred i)).
Proof.
  intros H1 H2. assert (H : exists st, starts_from demo_config base name (tree3 i) st /\
    (fun s => (ss_session s, ss_serial s)) <$> st_snap st = Some (n_session (src3 (pred i)), n_serial (src3 (pred i)))).
  { destruct i as [|[|[|[|i]]]]; [lia|..|lia]; refine (state_of_check _ _ _ _ _ _); by vm_compute. }
  destruct H as (st & H3 & H4). apply fmap_Some in H4 as (s & Es & [= E1 E2]). exists st, s. auto.
Qed.
Lemma src3_ungapped i : exists l, ungapped safe_ext (c_max_deltas demo_config) (src3 i) l.
Proof.
  assert (H : exists n, sort_and_verify safe_ext (c_max_deltas demo_config) (src3 i) = Some (n, true)).
  { destruct (src3_cases i) as [->|[->| ->]]; eexists; vm_compute; done. }
  destruct H as [n H]. exists (n_deltas n). by apply sav_in_use.
Qed.
(** a source that always answers "not modified" *)
Definition quiet_env : env :=
  mkEnv safe_ext (fun _ _ _ _ => HReply 304 None None) (fun _ => 5000%Z) (fun _ _ => None) (fun _ _ => SOk) 50.
Example C05_applies :
  (exists st, starts_from demo_config base name (tree3 2) st) /\ readable quiet_env /\ source_unmodified demo_config quiet_env /\
  (exists st s, starts_from demo_config base name (tree3 2) st /\ st_snap st = Some s /\
     n_session (src3 1) = ss_session s /\ n_serial (src3 1) = ss_serial s) /\
  readable (env3 1) /\
  (exists b, source_says demo_config (env3 1) (tree3 2) b /\ x_parse_notif safe_ext b = Some (src3 1)) /\
  (exists l, ungapped safe_ext (c_max_deltas demo_config) (src3 1) l).
Proof.
  destruct (tree3_state 2) as (st & s & H1 & H2 & H3 & H4); [lia..|]. split; [by exists st|]. split; [done|]. split.
  { exists notif_uri, Strict. split; [done|]. intros k etag. by exists None, None. }
  split; [by exists st, s|]. split; [done|]. split.
  - exists (json_text (j_notif (src3 1))). split; [apply serve_says|]; by vm_compute.
  - apply src3_ungapped.
Qed.
Print Assumptions C05_unmodified.
Print Assumptions C05_same_version.

(** ** C06: the serial never goes backwards within a session *)
(** A source with a lower serial for the recorded session: the run fails with
    that error, and nothing changes. *)
Theorem C06_behind c base name e f st s b n0 l :
  cfg_ok c base name -> starts_from c base name f st -> st_snap st = Some s -> readable e ->
  source_says c e f b -> x_parse_notif (e_ext e) b = Some n0 ->
  ungapped (e_ext e) (c_max_deltas c) n0 l ->
  n_session n0 = ss_session s -> (n_serial n0 < ss_serial s)%N ->
  (run c e f).1 = Err ESerialBehind /\ instants c e f = [f].
Proof.
  intros Hc Hst Hsn Hr Hb Hp [n Hv]%ungapped_sav Es En. destruct (load_state_ok c base name e f st Hc Hst Hr) as (w1 & E1 & F1 & T1).
  rewrite <- F1 in Hb. destruct (fetch_says c e w1 (st_source st) b n0 Hb Hr Hp) as (w2 & t & E2 & F2 & T2).
  destruct (sav_same _ _ _ _ _ Hv) as (V1 & V2 & _).
  unfold instants, run, process, update_staged, mbind, M_bind, getext. rewrite E1, E2, Hv. cbn [negb].
  assert (compare_version st n = VBehind) as ->.
  { unfold compare_version. rewrite Hsn, bool_decide_true by congruence. cbn. rewrite V2.
    apply N.compare_gt_iff in En. by rewrite En. }
  cbn. by rewrite T2, T1.
Qed.
(** Whatever goes wrong, and whatever else the source has: as long as all it
    offers is of the recorded session and not newer, nothing changes. *)
Theorem C06_not_newer c base name e f st s :
  cfg_ok c base name -> starts_from c base name f st -> st_snap st = Some s ->
  (forall n, offers c e f n -> n_session n = ss_session s /\ (n_serial n <= ss_serial s)%N) ->
  instants c e f = [f] /\ (forall r w, run c e f = (r, w) -> w_fs w = f).
Proof.
  intros Hc Hst Hsn Ho.
  assert (H : wpt e (on_fs (fun _ => False)) (process c) (resume f) (fun _ w' => w_fs w' = f)).
  { unfold process. wp1. eapply (w_load_state c base name Hc); [|by intros w1 x ->].
    intros w1 st' E1 Hst'. cbn [resume w_fs] in *. rewrite (starts_unique _ _ _ _ _ _ Hst' Hst). clear st' Hst'.
    wp1. unfold update_staged. wp1. unfold notif_source_fetch. wp1. apply w_read_notification.
    { by intros [| ] _. }
    2: { intros w2 src E2 _ _. wp1. wp1. wp1. by rewrite E2. }
    2: { intros w2 x E2. by rewrite E2. }
    intros w2 src b n0 t E2 Hl Hs Hn. wp1. wp1. wp1.
    destruct (sort_and_verify (e_ext e) (c_max_deltas c) n0) as [[n fine]|] eqn:Hv; [|wp1; by rewrite E2].
    destruct fine; cbn [negb]; [|wp1; by rewrite E2].
    destruct (Ho n0) as [O1 O2]; [exists src, b; rewrite E1 in Hs; done|].
    destruct (sav_same _ _ _ _ _ Hv) as (V1 & V2 & _).
    unfold compare_version. rewrite Hsn, bool_decide_true by congruence. cbn [negb]. rewrite V2.
    destruct (N.compare_spec (ss_serial s) (n_serial n0)); [|lia|]; wp1; [wp1|]; by rewrite E2. }
  destruct H as (l & Ht & Hl & HQ). split.
  - unfold instants. f_equal. cbn [resume w_trace app] in Ht. unfold run. rewrite Ht.
    clear -Hl. induction Hl as [|ev l H _ IH]; [done|]. by destruct ev.
  - intros r w E. unfold run in E. by rewrite E in HQ.
Qed.

(** the source goes back from serial 5 to serial 3 *)
Example C06_behind_applies :
  (exists st s, starts_from demo_config base name (tree3 2) st /\ st_snap st = Some s /\
     n_session (src3 0) = ss_session s /\ (n_serial (src3 0) < ss_serial s)%N) /\
  readable (env3 0) /\
  (exists b, source_says demo_config (env3 0) (tree3 2) b /\ x_parse_notif safe_ext b = Some (src3 0)) /\
  (exists l, ungapped safe_ext (c_max_deltas demo_config) (src3 0) l) /\
  forall n, offers demo_config (env3 0) (tree3 2) n -> n = src3 0.
Proof.
  destruct (tree3_state 2) as (st & s & H1 & H2 & H3 & H4); [lia..|].
  split; [exists st, s; rewrite H3, H4; done|]. split; [done|]. split; [|split].
  - exists (json_text (j_notif (src3 0))). split; [apply serve_says|]; by vm_compute.
  - apply src3_ungapped.
  - intros n. apply env3_offers. lia.
Qed.
Print Assumptions C06_behind.
Print Assumptions C06_not_newer.
