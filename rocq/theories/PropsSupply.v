(** * Where the source's files come from makes no difference: C65 *)
From Verif Require Import ConfigProofs Blind PropsPanic PropsHoldsFresh.
From Verif Require Import PropsRequests PropsRun DemoRun Refuted FsWf HistoryProofs PropsHistory.

(** ** The specification *)
(** the answers to an unconditional request amount to [ob]: these bytes, or no
    data.  (304 makes no sense here.) *)
Definition answer (r : http_reply) (ob : option string) : Prop :=
  match r with
  | HFail => ob = None
  | HReply status hdr body =>
      status <> 304%N /\ ob = if (status =? 200)%N && bool_decide (hdr <> Some None) then body else None
  end.
(** fetching from [s] gives [ob], during the whole run; a local file lies outside
    of the staging directory and is not a symbolic link, and reading it does not
    fail if it is there *)
Definition gives (c : config) (e : env) (f : fs) (s : fetch_source) (ob : option string) : Prop :=
  match s with
  | SUri u m => forall k, answer (e_http e k u m None) ob
  | SFile p => apart p (staging_dir c) /\ (forall t, f !! p <> Some (Link t)) /\ (forall k, e_fault e k ORead = None) /\ op_read f p = ob
  end.
(** both configurations get the same for [u] *)
Definition same_file (c c' : config) (e : env) (f : fs) (u : https) : Prop :=
  exists s s' ob, located (e_ext e) (config_fetcher c) u = Some s /\ located (e_ext e) (config_fetcher c') u = Some s' /\
    gives c e f s ob /\ gives c' e f s' ob.
(** the same configuration with another source (--source-uri-base, --insecure) *)
Definition with_source (c : config) (insecure : bool) (b : option fetch_source) (m : option fetch_map) : config := {|
  c_verbose := c_verbose c; c_quiet := c_quiet c; c_state_dir := c_state_dir c; c_rrdp_dir := c_rrdp_dir c;
  c_notify_delay := c_notify_delay c; c_max_deltas := c_max_deltas c; c_rsync_dir := c_rsync_dir c;
  c_force_moves := c_force_moves c; c_rsync_disable := c_rsync_disable c; c_include_host := c_include_host c;
  c_cleanup_after := c_cleanup_after c; c_insecure := insecure; c_notif_uri := c_notif_uri c;
  c_source_base := b; c_fetch_map := m; c_tal_files := c_tal_files c; c_scripts := c_scripts c;
  c_reject := c_reject c; c_offline := c_offline c |}.
Definition same_outcome (r r' : res unit) : Prop :=
  match r, r' with Ok _, Ok _ => True | Err _, Err _ => True | Panic, Panic => True | _, _ => False end.

(** ** Two programs side by side *)
Definition like (w w' : world) : Prop :=
  w_fs w = w_fs w' /\ w_n w = w_n w' /\ trees (w_trace w) = trees (w_trace w').
Definition both {A B} (J I : fs -> Prop) (R : A -> B -> Prop) (e : env) (m : M A) (m' : M B) : Prop :=
  forall w w', like w w' -> J (w_fs w) -> like (m e w).2 (m' e w').2 /\ I (w_fs (m e w).2) /\
    match (m e w).1, (m' e w').1 with
    | Ok a, Ok b => R a b
    | Err _, Err _ => True
    | Panic, Panic => True
    | _, _ => False
    end.

Lemma trees_app l l' : trees (l ++ l') = trees l ++ trees l'.
Proof. induction l as [|[] l IH]; cbn; congruence. Qed.
Lemma blind_facts {A} (J I : fs -> Prop) (P : A -> Prop) e (m : M A) : blind m -> (forall w, J (w_fs w) -> I (w_fs (m e w).2)) ->
  (forall w a, J (w_fs w) -> (m e w).1 = Ok a -> P a) -> both J I (fun a b => a = b /\ P a) e m m.
Proof.
  intros Hb Hk HP [f t n] [f' t' n'] (E1 & E2 & E3) HI. cbn in E1, E2, E3. subst f' n'.
  specialize (Hk (mkWorld f t n) HI). specialize (HP (mkWorld f t n)).
  destruct (Hb e f n t t') as (r & f1 & n1 & l & H1 & H2). rewrite H1 in Hk, HP |- *. rewrite H2. cbn in *.
  split; [|split; [done|destruct r; auto]]. split; [done|]. split; [done|]. cbn. by rewrite !trees_app, E3.
Qed.
Lemma both_weaken {A B} J I (R S : A -> B -> Prop) e m m' : (forall a b, R a b -> S a b) -> both J I R e m m' -> both J I S e m m'.
Proof.
  intros H Hm w w' Hl HI. destruct (Hm w w' Hl HI) as (H1 & H2 & H3). split; [done|]. split; [done|].
  destruct (m e w).1, (m' e w').1; auto.
Qed.
Lemma blind_both {A} I e (m : M A) : blind m -> keeps e I m -> both I I eq e m m.
Proof.
  intros Hb Hk. eapply both_weaken; [|apply (blind_facts _ _ (fun _ => True)); [done| |done]]; [by intros a b [-> _]|].
  intros w HI. destruct (Hk w HI) as (l0 & _ & _ & H). done.
Qed.
Lemma both_bind {A B A' B'} (J I K : fs -> Prop) R S e (m : M A) (m' : M A') (k : A -> M B) (k' : A' -> M B') :
  (forall g, I g -> K g) ->
  both J I R e m m' -> (forall a a', R a a' -> both I K S e (k a) (k' a')) -> both J K S e (m ≫= k) (m' ≫= k').
Proof.
  intros HIK Hm Hk w w' Hl HI. destruct (Hm w w' Hl HI) as (H1 & H2 & H3). unfold mbind, M_bind.
  destruct (m e w) as [r w1], (m' e w') as [r' w1']. cbn in *.
  destruct r as [a|x|], r' as [a'|x'|]; try done; [by apply Hk|..]; split; auto.
Qed.
Lemma both_ret {A B} (J I : fs -> Prop) (R : A -> B -> Prop) e a b : (forall g, J g -> I g) -> R a b -> both J I R e (mret a) (mret b).
Proof. intros H HR w w' Hl HI. cbn. auto. Qed.
Lemma both_fail {A B} (J I : fs -> Prop) (R : A -> B -> Prop) e x x' : (forall g, J g -> I g) -> both J I R e (fail x) (fail x').
Proof. intros H w w' Hl HI. cbn. auto. Qed.
Lemma both_panic {A B} (J I : fs -> Prop) (R : A -> B -> Prop) e : (forall g, J g -> I g) -> both J I R e panic panic.
Proof. intros H w w' Hl HI. cbn. auto. Qed.
Lemma both_pre {A B} (J J' I : fs -> Prop) (R : A -> B -> Prop) e m m' : (forall g, J g -> J' g) -> both J' I R e m m' -> both J I R e m m'.
Proof. intros H Hm w w' Hl HI. auto. Qed.
Lemma both_getext {A B} J I R e (k : ext -> M A) (k' : ext -> M B) : both J I R e (k (e_ext e)) (k' (e_ext e)) -> both J I R e (getext ≫= k) (getext ≫= k').
Proof. intros H w w'. apply H. Qed.
Lemma both_option {A B C} (J I : fs -> Prop) (R : B -> C -> Prop) e x (o : option A) k k' : (forall g, J g -> I g) ->
  (forall a, o = Some a -> both J I R e (k a) (k' a)) -> both J I R e (of_option x o ≫= k) (of_option x o ≫= k').
Proof. intros HJ H. destruct o as [a|]; [by apply H|]. by apply both_fail. Qed.

(** the same data, whatever the ETag *)
Definition same_data (r r' : fetch_response) : Prop := exists b t t', r = FData b t /\ r' = FData b t'.
Definition same_notif (r r' : option (notification * option string)) : Prop := exists n t t', r = Some (n, t) /\ r' = Some (n, t').

Section run.
  Context (c : config) (base name : string) (e : env) (f : fs) (Hs : sane c base name e f) (Hwf : wf f).
  Context (ins : bool) (sb : option fetch_source) (fm : option fetch_map).
  Let c' := with_source c ins sb fm.
  Context (Hsame : forall rel, wanted c e f (base +:+ rel) -> same_file c c' e f (base +:+ rel)).
  Let I : fs -> Prop := inside (under (staging_dir c)) f.
  Let Hc : cfg_ok c base name := sn_cfg _ _ _ _ _ Hs.
  Let A_root : ~ under (staging_dir c) [].
  Proof. intros H%prefix_nil_inv. unfold staging_dir in H. rewrite path_join_name in H by done. by destruct (c_state_dir c). Qed.

  Lemma raw_of s ob w : gives c e f s ob -> I (w_fs w) ->
    let r := fetch_raw s None e w in
    w_fs r.2 = w_fs w /\ w_n r.2 = S (w_n w) /\ trees (w_trace r.2) = trees (w_trace w) /\
    match ob with Some b => exists t, r.1 = Ok (FData b t) | None => exists x, r.1 = Err x end.
  Proof.
    intros Hg HI. destruct s as [p|u m]; cbn [gives] in Hg; cbv zeta; cbn [fetch_raw].
    - destruct Hg as (Ha & Hl & Hread & Hr).
      assert (Ep : op_read (w_fs w) p = ob).
      { rewrite <- Hr. assert (Eq : w_fs w !! p = f !! p).
        { destruct (apart_out _ _ Ha) as [K1 K2]. apply (inside_same _ _ _ _ HI); [done|]. intros (q & Hq & Hb). by apply (K2 q). }
        unfold op_read, fs_stat. destruct p as [|a p]; [done|]. cbn [fs_get]. rewrite Eq.
        destruct (f !! (a :: p)) as [[| |t]|] eqn:E; try done. by destruct (Hl t). }
      unfold read_file, mbind, M_bind, f_read. rewrite Ep. destruct ob as [b|].
      + rewrite Hread. cbn. rewrite app_nil_r. eauto 6.
      + cbn. rewrite app_nil_r. eauto 6.
    - specialize (Hg (w_n w)). unfold http_get, mbind, M_bind.
      cbn [push_ev]. destruct (e_http e (w_n w) u m None) as [|st hdr body]; cbn [answer] in Hg.
      + subst ob. cbn. rewrite trees_app. cbn. rewrite app_nil_r. eauto 6.
      + destruct Hg as [H304 ->]. destruct (st =? 200)%N.
        * destruct hdr as [[v|]|]; cbn [andb].
          -- rewrite bool_decide_true by done. destruct body; cbn; rewrite trees_app; cbn; rewrite app_nil_r; eauto 6.
          -- rewrite bool_decide_false by (intros H; by apply H). cbn. rewrite trees_app; cbn; rewrite app_nil_r; eauto 6.
          -- rewrite bool_decide_true by done. destruct body; cbn; rewrite trees_app; cbn; rewrite app_nil_r; eauto 6.
        * cbn [andb]. destruct (st =? 304)%N eqn:E; [by apply N.eqb_eq in E|]. cbn. rewrite trees_app; cbn; rewrite app_nil_r; eauto 6.
  Qed.
  Lemma both_raw (J : fs -> Prop) s s' ob : (forall g, J g -> I g) -> gives c e f s ob -> gives c e f s' ob ->
    both J J (fun r r' => exists b t t', ob = Some b /\ r = FData b t /\ r' = FData b t') e (fetch_raw s None) (fetch_raw s' None).
  Proof.
    intros HJ Hg Hg' w w' (L1 & L2 & L3) HI. assert (HI' : J (w_fs w')) by (by rewrite <- L1).
    destruct (raw_of s ob w Hg (HJ _ HI)) as (A1 & A2 & A3 & A4). destruct (raw_of s' ob w' Hg' (HJ _ HI')) as (B1 & B2 & B3 & B4).
    destruct (fetch_raw s None e w) as [r v], (fetch_raw s' None e w') as [r' v']. cbn in *.
    split; [repeat split; congruence|]. split; [by rewrite A1|].
    destruct ob as [b|]; [|by destruct A4 as [x ->], B4 as [x' ->]].
    destruct A4 as [t ->], B4 as [t' ->]. by exists b, t, t'.
  Qed.
  Lemma both_save s s' ob h p : gives c e f s ob -> gives c e f s' ob -> under (staging_dir c) p ->
    both I I (fun _ _ => True) e (fetch s h None (Some p)) (fetch s' h None (Some p)).
  Proof.
    intros Hg Hg' Hp. unfold fetch. eapply (both_bind _ I); [done|by eapply both_raw|]. intros r r' (b & t & t' & _ & -> & ->).
    apply both_getext. apply (both_bind _ I _ eq); [done| |].
    { destruct h as [hh|]; [destruct (hash_matches _ _ _)|]; try (by apply both_ret). by apply both_fail. }
    intros _ _ _. apply (both_bind _ I _ eq); [done| |intros; by apply both_ret]. apply blind_both; [apply blind_write_buf|].
    apply k_write_buf; auto.
  Qed.
  Lemma both_resolve J u s s' : located (e_ext e) (config_fetcher c) u = Some s -> located (e_ext e) (config_fetcher c') u = Some s' ->
    both J J (fun r r' => r = s /\ r' = s') e (resolve_source (config_fetcher c) u) (resolve_source (config_fetcher c') u).
  Proof.
    assert (H : forall F u s w, located (e_ext e) F u = Some s -> resolve_source F u e w = (Ok s, w)).
    { clear. intros F u s w. unfold located, resolve_source, map_source, source_join. destruct (fe_map F) as [m|]; [|by intros [= <-]].
      destruct (strip_prefix _ _) as [rel|]; [|done]. destruct (fm_fetch m) as [p|b md]; [by intros [= <-]|].
      unfold mbind at 1, M_bind at 1. cbn [getext]. destruct (https_join _ _ _); [|done]. cbn. by intros [= <-]. }
    intros Hl Hl' w w' Hw HI. rewrite (H _ _ _ w Hl), (H _ _ _ w' Hl'). by cbn.
  Qed.
  Lemma both_retrieve rel h p : let u := base +:+ rel in wanted c e f u -> under (staging_dir c) p ->
    both I I eq e (retrieve_file (config_fetcher c) u h p) (retrieve_file (config_fetcher c') u h p).
  Proof.
    intros u Hu Hp. destruct (Hsame rel Hu) as (s & s' & ob & L1 & L2 & G1 & G2).
    assert (Hget : both I I eq e (src ← resolve_source (config_fetcher c) u; _ ← fetch src (Some h) None (Some p); mret tt)
                               (src ← resolve_source (config_fetcher c') u; _ ← fetch src (Some h) None (Some p); mret tt)).
    { eapply (both_bind _ I); [done|by apply both_resolve|]. intros r r' [-> ->]. eapply (both_bind _ I); [done|eapply both_save; [exact G1|exact G2|done]|].
      intros. by apply both_ret. }
    unfold retrieve_file. apply both_getext. apply (both_bind _ I _ eq); [done| |].
    { apply blind_both; [apply blind_catch, blind_read|]. apply keeps_catch. apply keeps_read. }
    intros ex _ <-. destruct ex as [b|]; [destruct (hash_matches _ _ _); [by apply both_ret|]|]; exact Hget.
  Qed.
  Lemma wanted_notif : wanted c e f (base +:+ name).
  Proof. left. by rewrite (ck_uri _ _ _ Hc). Qed.

  Lemma both_relative {B C} (R : B -> C -> Prop) m u k k' : (forall rel, u = mp_base m +:+ rel -> both I I R e (k rel) (k' rel)) ->
    both I I R e (mp_relative m u ≫= k) (mp_relative m u ≫= k').
  Proof. intros H. apply both_option; [done|]. intros rel Hr. by apply H, strip_prefix_spec. Qed.
  Lemma both_now {B C} (R : B -> C -> Prop) k k' : (forall t, both I I R e (k t) (k' t)) -> both I I R e (time_now ≫= k) (time_now ≫= k').
  Proof.
    intros H. apply (both_bind _ I _ eq); [done| |by intros t _ <-]. apply blind_both; [apply blind_clock|apply keeps_clock].
  Qed.

  Lemma both_deltas st reset l : mp_base (st_map st) = base ->
    (forall d, d ∈ l -> wanted c e f (di_uri d)) -> (forall d rel, d ∈ l -> di_uri d = base +:+ rel -> clean_rel rel) ->
    both I I eq e (deltas_stage st reset (config_fetcher c) c l) (deltas_stage st reset (config_fetcher c') c' l).
  Proof.
    intros Hb. induction l as [|d l IH]; intros Hw Hcl; cbn [deltas_stage]; [by apply both_ret|].
    assert (IH' := IH (fun d' Hd => Hw d' (elem_of_list_further _ _ _ Hd)) (fun d' rel Hd => Hcl d' rel (elem_of_list_further _ _ _ Hd))).
    destruct (delta_is_new st reset (di_serial d)); [|exact IH'].
    apply both_relative. intros rel Hr. rewrite Hb in Hr.
    apply (both_bind _ I _ eq); [done| |].
    { rewrite Hr. apply (both_retrieve rel (di_hash d) (staging_path c rel)); [rewrite <- Hr; apply Hw; left|]. apply staging_path_under. eapply Hcl; [left|exact Hr]. }
    intros _ _ _. apply both_relative. intros rel' _. apply both_now. intros t.
    apply (both_bind _ I _ eq); [done|exact IH'|]. intros ds _ <-. by apply both_ret.
  Qed.

  Lemma both_snapshot st n : mp_base (st_map st) = base -> wanted c e f (n_snap_uri n) ->
    (forall rel, n_snap_uri n = base +:+ rel -> clean_rel rel) ->
    both I I eq e (snapshot_stage st n (config_fetcher c) c) (snapshot_stage st n (config_fetcher c') c').
  Proof.
    intros Hb Hw Hcl. unfold snapshot_stage. apply both_relative. intros rel Hr. rewrite Hb in Hr.
    apply (both_bind _ I _ eq); [done| |].
    { rewrite Hr. apply (both_retrieve rel (n_snap_hash n) (staging_path c rel)); [by rewrite <- Hr|]. by apply staging_path_under, Hcl. }
    intros _ _ _. apply both_relative. intros rel' _. apply both_now. intros t. by apply both_ret.
  Qed.
  Let J : fs -> Prop := fun g => g = f.
  Let HJ : forall g, J g -> I g.
  Proof. intros g ->. split; [done|apply mods_refl]. Qed.
  Lemma both_notif src : ns_etag src = None ->
    both J J (fun r r' => exists n t t', r = Some (n, t) /\ r' = Some (n, t') /\ offers c e f n) e
      (notif_source_fetch src (config_fetcher c)) (notif_source_fetch src (config_fetcher c')).
  Proof.
    intros He. unfold notif_source_fetch, read_notification_file. rewrite He.
    destruct (Hsame _ wanted_notif) as (s & s' & ob & L1 & L2 & G1 & G2). rewrite <- (ck_uri _ _ _ Hc) in L1, L2.
    eapply (both_bind _ J _ (fun r r' => exists n t t', r = NData n t /\ r' = NData n t' /\ offers c e f n)); [done| |].
    2: { intros r r' (n & t & t' & -> & -> & Ho). apply both_ret; [done|]. by exists n, t, t'. }
    eapply (both_bind _ J); [done|by apply both_resolve|]. intros r r' [-> ->].
    eapply (both_bind _ J _ (fun r r' => exists b t t', ob = Some b /\ r = FData b t /\ r' = FData b t')); [done| |].
    { unfold fetch. eapply (both_bind _ J); [done|by apply both_raw|]. intros r r' (b & t & t' & E & -> & ->).
      apply both_getext. apply (both_bind _ J _ eq); [done|by apply both_ret|]. intros _ _ _.
      apply both_ret; [done|]. by exists b, t, t'. }
    intros r r' (b & t & t' & E & -> & ->). apply both_getext. apply both_option; [done|]. intros n Hn.
    apply both_ret; [done|]. exists n, t, t'. split; [done|]. split; [done|]. exists s, b. split; [done|]. split; [|done].
    destruct s as [p|u m]; cbn [gives served] in *; [by destruct G1 as (_ & _ & _ & <-)|].
    specialize (G1 0). destruct (e_http e 0 u m None) as [|st hdr body] eqn:Eh; cbn [answer] in G1; [congruence|].
    destruct G1 as [_ G1]. destruct (st =? 200)%N eqn:Es; [|cbn in G1; congruence]. apply N.eqb_eq in Es as ->.
    exists 0, None, hdr. rewrite Eh. destruct (bool_decide _); cbn in G1; congruence.
  Qed.
  Definition same_staged (o o' : option staged_changes) : Prop :=
    match o, o' with
    | None, None => True
    | Some sg, Some sg' => sg' = mkStaged (sg_etag sg') (sg_snap sg) (sg_deltas sg) (sg_cutoff sg) (sg_reset sg)
    | _, _ => False
    end.
  Lemma both_update st : good_state c base name st -> both J I same_staged e (update_staged st c) (update_staged st c').
  Proof.
    intros Hg. unfold update_staged. cbv zeta. eapply (both_bind _ J); [done|apply both_notif; by rewrite (gs_source _ _ _ _ Hg)|].
    intros r r' (n0 & t & t' & -> & -> & Ho). apply both_getext. change (c_max_deltas c') with (c_max_deltas c).
    destruct (sort_and_verify (e_ext e) (c_max_deltas c) n0) as [[n fine]|] eqn:Hsv; [|by apply both_panic].
    destruct fine; cbn [negb]; [|by apply both_fail].
    destruct (compare_version st n) as [reset| |]; [|by apply both_ret|by apply both_fail].
    assert (Hb : mp_base (st_map st) = base) by (by rewrite (gs_map _ _ _ _ Hg)).
    assert (Hw : forall u h, (u, h) ∈ refs n -> wanted c e f u).
    { intros u h Hin. right. exists n0, h. split; [done|]. by eapply sav_refs. }
    assert (Hcl : forall u h rel, (u, h) ∈ refs n -> u = base +:+ rel -> clean_rel rel).
    { intros u h rel Hin ->. eapply (sn_notif _ _ _ _ _ Hs n0 Ho); [by eapply sav_refs|done]. }
    apply (both_bind _ I _ eq); [done| |].
    { apply (both_pre _ I); [done|]. apply (blind_both I e (write_buf (staging_path c (ns_name (st_source st))) _)); [apply blind_write_buf|].
      apply k_write_buf; [done|]. unfold staging_path. rewrite (gs_source _ _ _ _ Hg). cbn [ns_name].
      rewrite path_join_name by apply (ck_name _ _ _ Hc). apply under_app. }
    intros _ _ _. apply (both_bind _ I _ eq); [done| |].
    { apply both_snapshot; [done|eapply Hw; left|]. intros rel. eapply Hcl. left. }
    intros sn _ <-. apply (both_bind _ I _ eq); [done| |].
    { assert (Hin : forall d, d ∈ n_deltas n -> (di_uri d, di_hash d) ∈ refs n).
      { intros d Hd. right. apply elem_of_list_fmap. by exists d. }
      apply both_deltas; [done|..].
      - intros d Hd. by eapply Hw, Hin.
      - intros d rel Hd. by eapply Hcl, Hin. }
    intros ds _ <-. by apply both_ret.
  Qed.
  Theorem both_process : both J (fun _ => True) (fun _ _ => True) e (process c) (process c').
  Proof.
    unfold process. eapply (both_bind _ J _ (fun a b => a = b /\ good_state c base name a)); [done| |].
    { apply (blind_facts J J (good_state c base name) e (load_state c)); [apply blind_load_state| |].
      - intros w Hw. unfold J in *. by rewrite load_same_tree.
      - intros w st Hw E. destruct (load_state c e w) as [r w1] eqn:El. cbn in E. subst r.
        apply (load_inv c base name Hc) in El. rewrite Hw in El. apply (start_good c base name e f Hs). tauto. }
    intros st _ [<- Hg]. eapply (both_bind _ I); [done|by apply both_update|].
    intros [sg|] [sg'|] Hsg; [|by destruct Hsg|by destruct Hsg|by apply both_ret].
    cbn in Hsg. rewrite Hsg. intros w w' Hl HI.
    assert (H := blind_facts (fun _ => True) (fun _ => True) (fun _ => True) e _ (blind_publish_staged st sg c) (fun _ _ => Logic.I) (fun _ _ _ _ => Logic.I) w w' Hl Logic.I).
    destruct H as (H1 & _ & H3). split; [exact H1|]. split; [done|].
    change (publish_staged st (mkStaged (sg_etag sg') (sg_snap sg) (sg_deltas sg) (sg_cutoff sg) (sg_reset sg)) c') with (publish_staged st sg c).
    by destruct (publish_staged st sg c e w).1, (publish_staged st sg c e w').1.
  Qed.
End run.

(** ** C65 *)
(** Two configurations that differ in where the source's files are fetched from
    (--source-uri-base, --insecure) and that get the same for the notification and
    for the files it lists: step by step, the runs show the same trees, and the
    outcome is of the same kind. *)
Theorem C65_same_run c base name e f insecure b m :
  setting c base name e f -> let c' := with_source c insecure b m in
  (forall rel, wanted c e f (base +:+ rel) -> same_file c c' e f (base +:+ rel)) ->
  instants c e f = instants c' e f /\ same_outcome (run c e f).1 (run c' e f).1.
Proof.
  intros Hse c' Hsame. pose proof (setting_sane _ _ _ _ _ Hse) as Hs.
  assert (Hwf : wf f) by apply (sn_tree _ _ _ _ _ Hs).
  destruct (both_process c base name e f Hs Hwf insecure b m Hsame (resume f) (resume f)) as ((H1 & H2 & H3) & _ & H4); [done..|].
  split; [by unfold instants, run; rewrite H3|]. unfold run. fold c' in H4.
  destruct (process c e (resume f)).1, (process c' e (resume f)).1; done.
Qed.

(** the same command line with another --source-uri-base *)
Definition cli_with_source (a : cli) (s : fetch_source) : cli := {|
  cli_verbose := cli_verbose a; cli_quiet := cli_quiet a; cli_state_dir := cli_state_dir a; cli_rrdp_dir := cli_rrdp_dir a;
  cli_rsync_dir := cli_rsync_dir a; cli_notify_delay := cli_notify_delay a; cli_max_deltas := cli_max_deltas a;
  cli_force_moves := cli_force_moves a; cli_rsync_disable := cli_rsync_disable a; cli_include_host := cli_include_host a;
  cli_cleanup_after := cli_cleanup_after a; cli_insecure := cli_insecure a; cli_notif_uri := cli_notif_uri a;
  cli_source_base := Some s; cli_tal_files := cli_tal_files a; cli_scripts := cli_scripts a;
  cli_reject := cli_reject a; cli_offline := cli_offline a |}.

(** In particular: reading the files from a local directory that holds what the
    source has, instead of fetching them from the source. *)
Theorem C65_local_copy f0 a dir c c' base name e f :
  cli_source_base a = None -> post_configure f0 a = Ok c -> post_configure f0 (cli_with_source a (SFile dir)) = Ok c' ->
  setting c base name e f ->
  (* the local copy *)
  apart dir (staging_dir c) -> (forall k, e_fault e k ORead = None) ->
  (forall rel, wanted c e f (base +:+ rel) ->
    (forall t, f !! path_join dir rel <> Some (Link t)) /\
    forall k, answer (e_http e k (base +:+ rel) (if cli_insecure a then Insecure else Strict) None) (op_read f (path_join dir rel))) ->
  instants c e f = instants c' e f /\ same_outcome (run c e f).1 (run c' e f).1.
Proof.
  intros Ha Hp Hp' Hse Hdir Hread Hcopy.
  destruct (configured_map _ _ _ Hp) as (Em & Eu & Ei). rewrite Ha in Em.
  assert (Hc := se_cfg _ _ _ _ _ Hse).
  assert (Ec : c' = with_source c (c_insecure c) (c_source_base c') (Some (mkFM base (SFile dir)))).
  { unfold post_configure, post_configure_source in Hp, Hp'. cbn [cli_with_source cli_notif_uri cli_insecure cli_source_base cli_state_dir cli_rrdp_dir cli_rsync_dir] in Hp'.
    destruct (https_parent (cli_notif_uri a)) as [p|] eqn:Epar; [|done]. rewrite <- Eu, (ck_parent _ _ _ Hc) in Epar. injection Epar as <-.
    rewrite Ha in Hp. cbn [fmap option_fmap option_map] in Hp, Hp'. destruct (post_configure_dirs _ _ _) as [r1 r2].
    assert (Ed : apply_insecure (cli_insecure a) (SFile dir) = SFile dir) by (by destruct (cli_insecure a)). rewrite Ed in Hp'.
    destruct (source_is_dir f0 (SFile dir)); [|done]. injection Hp as <-. injection Hp' as <-. done. }
  rewrite Ec. apply (C65_same_run c base name); [done|]. intros rel Hw.
  destruct (Hcopy rel Hw) as [Hl Hans].
  assert (Hrel : clean_rel rel).
  { destruct Hw as [E|(n & h & Ho & Hin)].
    - rewrite (ck_uri _ _ _ Hc) in E. apply sapp_inv_head in E as ->. apply file_name_clean, (ck_name _ _ _ Hc).
    - apply (sn_notif _ _ _ _ _ (setting_sane _ _ _ _ _ Hse) n Ho _ _ rel Hin eq_refl). }
  exists (SUri (base +:+ rel) (if c_insecure c then Insecure else Strict)), (SFile (path_join dir rel)), (op_read f (path_join dir rel)).
  unfold located, config_fetcher. rewrite Em. cbn [fe_map fe_mode with_source c_fetch_map fm_base fm_fetch]. rewrite strip_prefix_app.
  split; [done|]. split; [done|]. split; [cbn; by rewrite Ei|]. cbn. split; [|done].
  rewrite path_join_clean by done. eapply apart_sub_l; [exact Hdir|apply under_app].
Qed.
Print Assumptions C65_same_run.
Print Assumptions C65_local_copy.

(** ** An example: the demo source, and a copy of it in /srv/copy *)
Definition plant (g : fs) (p : path) (b : string) : fs :=
  <[p := File b None]> (foldr (fun k g' => <[take k p := Dir]> g') g (seq 1 (length p - 1))).
Definition copy_dir : path := ["srv"; "copy"].
Definition copy_tree : fs :=
  foldr (fun d g => plant g (path_join copy_dir (default "" (strip_prefix base d.1))) d.2) start_tree (docs3 0).
Definition cli65 : cli := mkCli 0 false "/var/ks" "/srv/rrdp" "/srv/rsync" 0 (Some 100) false false false 7200 false notif_uri
  None [] [] false false.
Definition copy_config : config := with_source demo_config false (Some (SFile copy_dir)) (Some (mkFM base (SFile copy_dir))).
Definition copy_check (u : https) : bool :=
  match strip_prefix base u with
  | Some rel => match copy_tree !! path_join copy_dir rel with
                | Some (File b _) => bool_decide (Demo.assoc (docs3 0) u = Some b)
                | _ => false
                end
  | None => true
  end.
Lemma copy_no_root : copy_tree !! [] = None.
Proof. by vm_compute. Qed.
Lemma copy_check_ok rel : copy_check (base +:+ rel) = true ->
  (forall t, copy_tree !! path_join copy_dir rel <> Some (Link t)) /\
  forall k, answer (e_http (env3 0) k (base +:+ rel) Strict None) (op_read copy_tree (path_join copy_dir rel)).
Proof.
  unfold copy_check. rewrite strip_prefix_app. destruct (copy_tree !! path_join copy_dir rel) as [[b t| |]|] eqn:E; [|done..].
  intros H%bool_decide_eq_true. split; [done|]. intros k. unfold env3, run_env. cbn [e_http]. unfold serve. rewrite H. cbn [answer].
  split; [done|]. unfold op_read, fs_stat. destruct (path_join copy_dir rel) as [|s p] eqn:Ep; [by rewrite copy_no_root in E|].
  cbn [fs_get]. by rewrite E.
Qed.
Lemma copy_checks : forallb copy_check (notif_uri :: (fst <$> refs (src3 0))) && wf_check copy_tree &&
  bool_decide (copy_tree !! rrdp_state_path demo_config = None) = true.
Proof. vme. Qed.
Lemma copy_setting : setting demo_config base name (env3 0) copy_tree.
Proof.
  split; [apply demo_cfg_ok| |apply env3_good; lia].
  pose proof copy_checks as [[_ H2]%andb_prop H3]%andb_prop.
  apply mi_start; [exact (wf_check_ok _ H2)|exact (bool_decide_eq_true_1 _ H3)].
Qed.
Lemma copy_apart : apart copy_dir (staging_dir demo_config).
Proof. split; intros [k Hk]; vm_compute in Hk; done. Qed.
Lemma copy_source rel : wanted demo_config (env3 0) copy_tree (base +:+ rel) ->
  (forall t, copy_tree !! path_join copy_dir rel <> Some (Link t)) /\
  forall k, answer (e_http (env3 0) k (base +:+ rel) Strict None) (op_read copy_tree (path_join copy_dir rel)).
Proof.
  intros Hw. apply copy_check_ok. pose proof copy_checks as [[H1 _]%andb_prop _]%andb_prop. rewrite forallb_forall in H1.
  apply H1, elem_of_list_In. destruct Hw as [E|(n & h & Ho & Hin)]; [rewrite E; left|]. right.
  apply (env3_offers 0) in Ho; [|exact (Nat.le_0_l 2)]. subst n. apply elem_of_list_fmap. exists (base +:+ rel, h). split; [reflexivity|exact Hin].
Qed.
Lemma copy_ran : ok_b (run copy_config (env3 0) copy_tree) && served_b (after (run copy_config (env3 0) copy_tree)) (Some (3, [3; 2])%N) &&
  bool_decide (requests (w_trace (run copy_config (env3 0) copy_tree).2) = []) = true.
Proof. vme. Qed.
(** The run on the local copy sends no requests, and publishes what the source
    has, in the same steps as a run that fetches it. *)
Example C65_applies :
  (exists f0, post_configure f0 cli65 = Ok demo_config /\ post_configure f0 (cli_with_source cli65 (SFile copy_dir)) = Ok copy_config) /\
  setting demo_config base name (env3 0) copy_tree /\
  apart copy_dir (staging_dir demo_config) /\ (forall k, e_fault (env3 0) k ORead = None) /\
  (forall rel, wanted demo_config (env3 0) copy_tree (base +:+ rel) ->
    (forall t, copy_tree !! path_join copy_dir rel <> Some (Link t)) /\
    forall k, answer (e_http (env3 0) k (base +:+ rel) Strict None) (op_read copy_tree (path_join copy_dir rel))) /\
  ok_b (run copy_config (env3 0) copy_tree) = true /\
  served_b (after (run copy_config (env3 0) copy_tree)) (Some (3, [3; 2])%N) = true /\
  requests (w_trace (run copy_config (env3 0) copy_tree).2) = [].
Proof.
  split. { exists copy_tree. split; by vm_compute. }
  split; [exact copy_setting|]. split; [exact copy_apart|]. split; [by intros k|]. split; [exact copy_source|].
  pose proof copy_ran as [[H1 H2]%andb_prop H3]%andb_prop. split; [exact H1|]. split; [exact H2|]. exact (bool_decide_eq_true_1 _ H3).
Qed.
