(** * The steps of a run, and which paths they touch *)
From Coq Require Import ZifyN ZifyNat ZifyBool Sorting.Sorted.
From Verif Require Export Yields CoarseProofs.

Local Arguments as_mode : simpl never.
Local Arguments j_mode : simpl never.
Local Arguments as_source : simpl never.
Local Arguments j_source : simpl never.
Local Arguments as_fetch_map : simpl never.
Local Arguments j_fetch_map : simpl never.
Local Arguments as_fetcher : simpl never.
Local Arguments j_fetcher : simpl never.
Local Arguments as_tal : simpl never.
Local Arguments j_tal : simpl never.
Local Arguments as_object : simpl never.
Local Arguments j_object : simpl never.
Local Arguments as_repo_data : simpl never.
Local Arguments j_repo_data : simpl never.
Local Arguments as_visited : simpl never.
Local Arguments j_visited : simpl never.
Local Arguments as_validator : simpl never.
Local Arguments j_validator : simpl never.
Local Arguments as_notif_source : simpl never.
Local Arguments j_notif_source : simpl never.
Local Arguments as_mappings : simpl never.
Local Arguments j_mappings : simpl never.
Local Arguments as_snap : simpl never.
Local Arguments j_snap : simpl never.
Local Arguments as_delta : simpl never.
Local Arguments j_delta : simpl never.
Local Arguments as_dep : simpl never.
Local Arguments j_dep : simpl never.
Local Arguments as_rev : simpl never.
Local Arguments j_rev : simpl never.
Local Arguments as_old : simpl never.
Local Arguments j_old : simpl never.
Local Arguments as_uuid : simpl never.
Local Arguments j_uuid : simpl never.
Local Arguments as_path : simpl never.
Local Arguments j_path : simpl never.
Local Arguments as_N : simpl never.
Local Arguments j_N : simpl never.
Local Arguments as_list : simpl never.
Local Arguments j_list : simpl never.
Local Arguments as_map : simpl never.
Local Arguments j_map : simpl never.
Local Arguments as_opt : simpl never.
Local Arguments j_opt : simpl never.
Local Arguments b64_dec : simpl never.
Local Arguments b64_enc : simpl never.

(** Whatever is read back has everything but perhaps the validator. *)
Lemma state_parse_core s s' :
  clean_path (mp_dir (st_map s)) -> Forall (fun d => clean_path (dp_path d)) (st_deprecated s) ->
  state_parse (state_text s) = Some s' -> exists v, s' = set_validator s v.
Proof.
  intros H1 H2. unfold state_parse, state_text. rewrite json_roundtrip. cbn [mbind option_bind].
  unfold as_state, j_state. destruct s as [so m sn ds dp v]. cbn in H1, H2.
  cbn [st_source st_map st_snap st_deltas st_deprecated st_validator].
  cbn. rewrite as_notif_source_j. cbn. rewrite as_mappings_j by done. cbn.
  unfold field_opt. cbn. rewrite as_opt_j by (done || intros; apply as_snap_j). cbn.
  rewrite (as_list_j j_delta _ id) by (intros; apply as_delta_j). cbn.
  rewrite (as_list_j j_dep _ id).
  2: { rewrite Forall_forall in H2. intros a Ha. by apply as_dep_j, H2. }
  cbn. rewrite !list_fmap_id. intros H.
  apply bind_Some in H as (v' & _ & [= <-]). by exists v'.
Qed.

(** ** The recorded state *)
(** the state file of this tree holds [st] *)
Definition recorded (c : config) (f : fs) (st : rrdp_state) : Prop :=
  exists b, op_read f (rrdp_state_path c) = Some b /\ state_parse b = Some st.
(** the state of a mirror that has never run *)
Definition first_state (c : config) (base name : string) : rrdp_state :=
  mkState (mkNS (c_notif_uri c) name None) (mkMap base (c_rrdp_dir c)) None [] [] None.
(** what a run on this tree starts from *)
Definition starts_from (c : config) (base name : string) (f : fs) (st : rrdp_state) : Prop :=
  (fs_exists f (rrdp_state_path c) = true /\ recorded c f st) \/
  (fs_exists f (rrdp_state_path c) = false /\ st = first_state c base name).

(** A state as krill-sync makes it for this configuration from well-behaved
    notifications. *)
Record good_state (c : config) (base name : string) (st : rrdp_state) : Prop := {
  gs_source : st_source st = mkNS (c_notif_uri c) name None;
  gs_map : st_map st = mkMap base (c_rrdp_dir c);
  gs_snap : forall s, st_snap st = Some s -> good_rel name (ss_rel s);
  gs_deltas : forall d, d ∈ st_deltas st -> good_rel name (ds_rel d);
  gs_deprecated : forall d, d ∈ st_deprecated st ->
    exists rel, good_rel name rel /\ dp_path d = public_path c rel;
  gs_sorted : StronglySorted (fun a b => (ds_serial b <= ds_serial a)%N) (st_deltas st) }.

Lemma good_first c base name : good_state c base name (first_state c base name).
Proof. split; cbn; try done; [by intros d ?%elem_of_nil..|constructor]. Qed.
Lemma good_set_validator c base name st v :
  good_state c base name (set_validator st v) <-> good_state c base name st.
Proof. split; intros []; by split. Qed.

(** ** Rules for steps that do not touch the tree *)
Lemma wpt_quiet {B} e (I : fs -> Prop) (m : M B) w (R : res B -> Prop) (Q : res B -> world -> Prop) :
  (forall I', keeps e I' m) -> wpt e anyev m w (fun r _ => R r) -> I (w_fs w) ->
  (forall r w', w_fs w' = w_fs w -> R r -> Q r w') -> wpt e (on_fs I) m w Q.
Proof.
  intros Hk HR HI HQ.
  assert (Hk' : wpt e (on_fs (fun g => g = w_fs w)) m w (fun _ w' => w_fs w' = w_fs w)) by (by apply (Hk (fun g => g = w_fs w))).
  eapply wpt_conseq; [exact (wpt_strengthen _ _ _ _ _ _ _ Hk' HR)| |].
  - intros []; cbn; auto. by intros ->.
  - intros r w' [H1 H2]. by apply HQ.
Qed.
Lemma wpt_triv {B} e (m : M B) w : (forall I', keeps e I' m) -> wpt e anyev m w (fun _ _ => True).
Proof. intros H. eapply wpt_conseq; [by apply (H (fun _ => True))| |]; auto. Qed.

Section steps.
  Context (c : config) (base name : string) (Hc : cfg_ok c base name).

  Lemma w_load_state e (J : event -> Prop) w (Q : res rrdp_state -> world -> Prop) :
    (forall w' st, w_fs w' = w_fs w -> starts_from c base name (w_fs w) st -> Q (Ok st) w') ->
    (forall w' x, w_fs w' = w_fs w -> Q (Err x) w') ->
    wpt e J (load_state c) w Q.
  Proof using Hc.
    intros H1 H2. unfold load_state. wp1. wp1.
    destruct (fs_exists (w_fs w) (rrdp_state_path c)) eqn:Hex.
    - unfold recover. wp1. wp1; [|by apply H2]. wp1; [|by apply H2]. apply H1; [done|]. left.
      split; [done|]. by exists b.
    - unfold create. wp1. unfold notif_source_build. wp1. rewrite (ck_parent _ _ _ Hc). wp1; [|done].
      injection H as <-. rewrite (ck_uri _ _ _ Hc), strip_prefix_app. wp1. wp1. unfold mappings_build.
      wp1. rewrite (ck_parent _ _ _ Hc). wp1; [|done]. injection H as <-. wp1. wp1. apply H1; [done|].
      right. split; [done|]. unfold first_state. by rewrite (ck_uri _ _ _ Hc).
  Qed.
End steps.

(** pre-validation changes nothing but the validator of the state *)
Lemma pre_validate_shape e st c w :
  wpt e anyev (pre_validate st c) w (fun r _ => forall st', r = Ok st' -> exists v, st' = set_validator st v).
Proof.
  unfold pre_validate. wp1.
  assert (H1 : wpt e anyev (reconfigure_validator st c) w
    (fun r _ => forall st', r = Ok st' -> exists v, st' = set_validator st v)).
  { unfold reconfigure_validator. wp1.
    assert (H0 : wpt e anyev
      (if is_empty (c_tal_files c) then mret (set_validator st None)
       else v ← create_validator c;
            mret (if new_validator_needed st v then set_validator st (Some v) else st)) w
      (fun r _ => forall st', r = Ok st' -> exists v, st' = set_validator st v)).
    { destruct (is_empty (c_tal_files c)); [wp1; intros st' [= <-]; eauto|].
      wp1. eapply wpt_post; [apply wpt_triv; intros; auto with quiet|].
      intros [v|x|] w' _; [|done|done]. wp1. intros st' [= <-].
      destruct (new_validator_needed st v); [eauto|]. exists (st_validator st). by destruct st. }
    eapply wpt_post; [exact H0|]. intros [st1|x|] w' H; [|done|done].
    destruct (H _ eq_refl) as [v ->]. cbn. destruct v as [v|].
    - wp1. eapply wpt_post; [apply wpt_triv; intros; auto with quiet|].
      intros [v'|x|] w'' _; [|done|done]. wp1. intros st' [= <-]. by exists (Some v').
    - wp1. intros st' [= <-]. eauto. }
  eapply wpt_post; [exact H1|]. intros [st1|x|] w' H; [|done|done].
  destruct (H _ eq_refl) as [v ->]. cbn. destruct v as [v|]; [|wp1; intros st' [= <-]; eauto].
  wp1. eapply wpt_post; [apply wpt_triv; intros; auto with quiet|].
  intros [[v' report]|x|] w'' _; [|done|done]. cbv zeta.
  assert (Hok : exists v0, set_validator (set_validator st (Some v)) (Some v') = set_validator st v0) by (by exists (Some v')).
  destruct (rp_repos report !! c_notif_uri c) as [rr|].
  - destruct (is_empty (rr_issues rr)); [wp1; by intros st' [= <-]|].
    destruct (c_reject c); wp1; [done|]. by intros st' [= <-].
  - destruct (c_reject c); wp1; [done|]. by intros st' [= <-].
Qed.

(** ... and that one stays well formed *)
Lemma pre_validate_check e st c w : clean_path (staging_dir c) ->
  wpt e anyev (pre_validate st c) w (fun r _ => forall st', r = Ok st' -> exists v, st' = set_validator st v /\
    check_step c (st_validator st) v).
Proof.
  intros Hc. destruct (pre_validate_shape e st c w) as (l & H1 & H2 & H3). exists l. split; [done|]. split; [done|].
  intros st' E. destruct (H3 _ E) as [v ->]. exists v. split; [done|].
  destruct (pre_validate st c e w) as [r w'] eqn:Er. cbn in E. subst r. split; intros Hv.
  - by apply (pre_validate_clean st c Hc Hv e w _ w' Er).
  - by apply (pre_validate_usual st c Hv e w _ w' Er).
Qed.

(** ** The in-memory part of applying *)
Definition kept (st : rrdp_state) (sg : staged_changes) : list delta_state :=
  if sg_reset sg then [] else (split_before (sg_cutoff sg) (st_deltas st)).1.
Definition gone (st : rrdp_state) (sg : staged_changes) : list delta_state :=
  if sg_reset sg then st_deltas st else (split_before (sg_cutoff sg) (st_deltas st)).2.
Definition option_list {B} (o : option B) : list B := match o with Some b => [b] | None => [] end.
(** the paths dropped by the update: the old snapshot and deltas *)
Definition dropped (st : rrdp_state) (sg : staged_changes) : list path :=
  option_list (snapshot_path st) ++ ((fun d => mp_path (st_map st) (ds_rel d)) <$> gone st sg).

Record merged (e : env) (st : rrdp_state) (sg : staged_changes) (st' : rrdp_state) : Prop := {
  mg_source : st_source st' = st_source st;
  mg_map : st_map st' = st_map st;
  mg_validator : st_validator st' = st_validator st;
  mg_snap : st_snap st' = Some (sg_snap sg);
  mg_deltas : st_deltas st' = reverse (sort_by_key ds_serial (kept st sg ++ sg_deltas sg));
  mg_deprecated : exists deps, st_deprecated st' = st_deprecated st ++ deps /\
    dp_path <$> deps = dropped st sg /\ Forall (fun d => run_clock e (dp_since d)) deps }.

Section memory.
  Context (e : env) (J : event -> Prop) (HJ : forall t, J (EvClock t)).

  Lemma w_deprecate_now p w (Q : res deprecated -> world -> Prop) :
    (forall w' d, w_fs w' = w_fs w -> dp_path d = p -> run_clock e (dp_since d) -> Q (Ok d) w') ->
    wpt e J (deprecate_now p) w Q.
  Proof using HJ. intros H. unfold deprecate_now. wp1. wp1; [auto|]. wp1. apply H; [done|done|]. by exists (w_n w). Qed.
  Lemma w_deprecate_all l : forall w (Q : res (list deprecated) -> world -> Prop),
    (forall w' deps, w_fs w' = w_fs w -> dp_path <$> deps = l ->
       Forall (fun d => run_clock e (dp_since d)) deps -> Q (Ok deps) w') ->
    wpt e J (deprecate_all l) w Q.
  Proof using HJ.
    induction l as [|p l IH]; intros w Q H; cbn [deprecate_all].
    - wp1. by apply H.
    - wp1. apply w_deprecate_now. intros w1 d E1 Hp Hd. wp1. apply IH. intros w2 deps E2 Hl Hds.
      wp1. apply H; [by rewrite E2| |by constructor]. cbn. by rewrite Hp, Hl.
  Qed.

  Lemma w_apply_memory st sg (k : rrdp_state -> M rrdp_state) w (Q : res rrdp_state -> world -> Prop) :
    (forall w' st', w_fs w' = w_fs w -> merged e st sg st' -> wpt e J (k st') w' Q) ->
    wpt e J
      (st1 ← deprecate_snapshot st;
       let st2 := set_snap st1 (sg_snap sg) in
       st3 ← (if sg_reset sg then deltas_deprecate_all st2 else deltas_deprecate_before st2 (sg_cutoff sg));
       k (merge_deltas st3 (sg_deltas sg))) w Q.
  Proof using HJ.
    intros Hk. wp1.
    assert (H1 : wpt e J (deprecate_snapshot st) w (fun r w' => w_fs w' = w_fs w /\
      exists deps, r = Ok (set_deltas st (st_deltas st) (st_deprecated st ++ deps)) /\
                   dp_path <$> deps = option_list (snapshot_path st) /\
                   Forall (fun d => run_clock e (dp_since d)) deps)).
    { unfold deprecate_snapshot. destruct (snapshot_path st) as [p|].
      - wp1. apply w_deprecate_now. intros w' d E1 Hp Hd. wp1. split; [done|]. exists [d].
        split; [done|]. split; [cbn; by rewrite Hp|]. by constructor.
      - wp1. split; [done|]. exists []. split; [|split; [done|constructor]]. rewrite app_nil_r. by destruct st. }
    eapply wpt_post; [exact H1|]. intros r w1 (E1 & deps1 & -> & Hp1 & Hd1). cbv zeta.
    wp1. unfold kept, gone, dropped in *.
    assert (Hfin : forall w2 deps2 ks gs, w_fs w2 = w_fs w1 ->
      dp_path <$> deps2 = (fun d => mp_path (st_map st) (ds_rel d)) <$> gs ->
      Forall (fun d => run_clock e (dp_since d)) deps2 -> kept st sg = ks -> gone st sg = gs ->
      wpt e J (k (merge_deltas (set_deltas (set_snap (set_deltas st (st_deltas st) (st_deprecated st ++ deps1)) (sg_snap sg))
                                  ks ((st_deprecated st ++ deps1) ++ deps2)) (sg_deltas sg))) w2 Q).
    { intros w2 deps2 ks gs E2 Hp2 Hd2 Hks Hgs. apply Hk; [by rewrite E2|]. split; try done.
      - cbn. by rewrite Hks.
      - cbn. exists (deps1 ++ deps2). rewrite app_assoc. split; [done|]. split; [|by apply Forall_app].
        rewrite fmap_app, Hp1, Hp2. unfold dropped. by rewrite Hgs. }
    destruct (sg_reset sg) eqn:Hr.
    - unfold deltas_deprecate_all. wp1. apply w_deprecate_all. intros w2 deps2 E2 Hp2 Hd2. wp1.
      eapply Hfin; [done|exact Hp2|done| |]; unfold kept, gone; by rewrite Hr.
    - unfold deltas_deprecate_before. cbn [set_snap set_deltas st_deltas st_map].
      destruct (split_before (sg_cutoff sg) (st_deltas st)) as [ks gs] eqn:Es.
      wp1. apply w_deprecate_all. intros w2 deps2 E2 Hp2 Hd2. wp1.
      eapply Hfin; [done|exact Hp2|done| |]; unfold kept, gone; by rewrite Hr, Es.
  Qed.
End memory.

(** ** Cleaning *)
(** the moment before which recorded files have expired *)
Definition clean_time (c : config) (e : env) (cb : Z) : Prop :=
  exists k, cb = wrap64 (e_clock e k - c_cleanup_after c).
Definition cleaned (cb : Z) (st st' : rrdp_state) : Prop :=
  st' = set_deltas st (st_deltas st) (filter (fun d => (cb < dp_since d)%Z) (st_deprecated st)).

Lemma exists_sub (g g' : fs) p : g' ⊆ g -> fs_exists g p = false -> fs_exists g' p = false.
Proof.
  intros Hs. unfold fs_exists.
  assert (Hg : forall q nd, fs_get g' q = Some nd -> fs_get g q = Some nd).
  { intros [|x q] nd; [done|]. cbn. intros H. by apply (lookup_weaken g' g). }
  destruct (fs_stat g p) eqn:E; [done|]. intros _. destruct (fs_stat g' p) eqn:E'; [|done]. exfalso.
  unfold fs_stat in *. destruct (fs_get g' p) as [[b m| |t]|] eqn:E1; try done.
  - by rewrite (Hg _ _ E1) in E.
  - by rewrite (Hg _ _ E1) in E.
  - rewrite (Hg _ _ E1) in E. destruct (fs_get g' (path_join (removelast p) t)) as [[| |]|] eqn:E2; try done.
    + by rewrite (Hg _ _ E2) in E.
    + by rewrite (Hg _ _ E2) in E.
Qed.

Section clean.
  Context (e : env) (c : config) (I : fs -> Prop) (P : path -> Prop).
  Context (Iwf : forall g, I g -> wf g).

  Lemma w_clean st w (Q : res rrdp_state -> world -> Prop) :
    let cb := wrap64 (e_clock e (w_n w) - c_cleanup_after c) in
    I (w_fs w) -> rmd_ok I P ->
    (forall d, d ∈ st_deprecated st -> (dp_since d <= cb)%Z ->
       dp_path d <> [] /\ rmf_ok I (dp_path d) /\ (forall q, q `prefix_of` dp_path d -> q <> [] -> P q)) ->
    (forall x w', I (w_fs w') -> Q (Err x) w') ->
    (forall w' st', cleaned cb st st' -> I (w_fs w') ->
       (forall d, d ∈ st_deprecated st -> (dp_since d <= cb)%Z -> fs_exists (w_fs w') (dp_path d) = false) ->
       Q (Ok st') w') ->
    wpt e (on_fs I) (clean st c) w Q.
  Proof using Iwf.
    intros cb HI Hrmd Hrm HE HQ. unfold clean. wp1. wp1; [done|]. fold cb.
    wp1.
    set (ex := filter (fun d => (dp_since d <= cb)%Z) (st_deprecated st)).
    assert (Hex : forall d, d ∈ ex <-> d ∈ st_deprecated st /\ (dp_since d <= cb)%Z).
    { intros d. unfold ex. rewrite elem_of_list_filter. tauto. }
    apply (wpt_for_each _ _ _ _ _ (fun l w' => I (w_fs w') /\ exists pre, ex = pre ++ l /\
       Forall (fun d => fs_exists (w_fs w') (dp_path d) = false) pre)).
    - split; [done|]. by exists [].
    - intros d l w' (HI' & pre & Epre & Hpre).
      assert (Hd : d ∈ ex) by (rewrite Epre; apply elem_of_app; right; constructor).
      apply Hex in Hd as [Hd1 Hd2].
      destruct (Hrm d Hd1 Hd2) as (Hne & Hf & HP).
      wp1. wp1. apply wpt_when; intros Hx.
      + set (I' := fun g => I g /\ g ⊆ w_fs w').
        eapply wpt_conseq; [eapply (w_remove_path e I' P (dp_path d) w'
          (fun r w'' => I' (w_fs w'') /\ r <> Panic /\ (r = Ok tt -> w_fs w'' !! dp_path d = None)))| |].
        * by split.
        * by apply Iwf.
        * done.
        * intros f nd [H1 H2] H3 H4 H5. split; [by apply (Hf _ nd)|]. etrans; [apply delete_subseteq|done].
        * intros f q [H1 H2] H3 H4 H5 H6. split; [by apply Hrmd|]. etrans; [apply delete_subseteq|done].
        * done.
        * intros x w'' Ew. rewrite Ew. done.
        * intros w'' HI'' _ Hn. done.
        * intros []; cbn; auto. by intros [].
        * intros [[]|x|] w'' ((HI'' & Hs) & Hp & Hn); [|by apply HE|done].
          split; [done|]. exists (pre ++ [d]). rewrite <- app_assoc. split; [done|]. apply Forall_app. split.
          -- eapply Forall_impl; [exact Hpre|]. intros d' Hd'. cbn in Hd'. by eapply exists_sub.
          -- constructor; [|done]. unfold fs_exists, fs_stat. rewrite fs_get_nonroot by done. by rewrite Hn.
      + split; [done|]. exists (pre ++ [d]). rewrite <- app_assoc. split; [done|]. apply Forall_app. split; [done|].
        by constructor.
    - intros w' (HI' & pre & Epre & Hpre). wp1. apply HQ; [done|done|].
      rewrite app_nil_r in Epre. subst pre. rewrite Forall_forall in Hpre. intros d Hd1 Hd2. apply Hpre. by apply Hex.
  Qed.
End clean.
