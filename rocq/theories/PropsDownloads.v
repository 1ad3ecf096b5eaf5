(** * What a run downloads: C77 *)
From Coq Require Import ZifyN ZifyNat ZifyBool.
From Verif Require Import PropsHoldsRequests PropsBlocked PropsRequests PropsStaging RunDone ReadBack DemoRun Refuted StageProofs FetchProofs.
From Verif Require Import FsWf HistoryProofs PropsHistory.

(** ** Specification *)
(** the requests, in the order in which they were sent *)
Definition asked (l : list event) : list (https * fetch_mode * option string) :=
  omap (fun ev => match ev with EvHttp u m t => Some (u, m, t) | _ => None end) l.
(** the request for the source's [u]: where the command line says (see C41), and not
    conditional; none when the source is a local directory *)
Definition request (c : config) (e : env) (u : https) : list (https * fetch_mode * option string) :=
  match located (e_ext e) (config_fetcher c) u with Some (SUri u' m) => [(u', m, None)] | _ => [] end.
(** a delta of a session that is not the recorded one, or newer than all recorded
    deltas *)
Definition unseen (st : rrdp_state) (n : notification) (d : delta_info) : bool :=
  match st_snap st with Some s => negb (bool_decide (ss_session s = n_session n)) | None => false end ||
  forallb (fun d' => (ds_serial d' <? di_serial d)%N) (st_deltas st).
(** what is new in [n]: the snapshot, and the deltas that were not seen yet *)
Definition news (st : rrdp_state) (n : notification) : list (https * hash) :=
  (n_snap_uri n, n_snap_hash n) :: ((fun d => (di_uri d, di_hash d)) <$> filter (fun d => unseen st n d = true) (n_deltas n)).
(** a run before has staged the file already *)
Definition have (c : config) (base : string) (e : env) (g : fs) (en : https * hash) : bool :=
  match strip_prefix base en.1 with
  | Some rel => match op_read g (staged_file c rel) with Some b => String.eqb (x_hash (e_ext e) b) en.2 | None => false end
  | None => false
  end.
Definition missing (c : config) (base : string) (e : env) (g : fs) (l : list (https * hash)) : list https :=
  (filter (fun en => have c base e g en = false) l).*1.

(** ** Proofs *)
Lemma asked_app l l' : asked (l ++ l') = asked l ++ asked l'.
Proof. unfold asked. apply omap_app. Qed.
Definition reqs (w : world) := asked (w_trace w).
Lemma asked_none l : Forall (http_ok (fun _ _ _ => False)) l -> asked l = [].
Proof. induction 1 as [|ev l H _ IH]; [done|]. unfold asked in *. cbn. by destruct ev. Qed.
Lemma asks_quiet {A} e (m : M A) : asks e (fun _ _ _ => False) m -> forall w, reqs (m e w).2 = reqs w.
Proof. intros H w. destruct (H w) as (l & E & HJ & _). unfold reqs. by rewrite E, asked_app, (asked_none l HJ), app_nil_r. Qed.
Lemma quiet_bind {A B} e (m : M A) (k : A -> M B) w r w' : (m ≫= k) e w = (r, w') -> (forall a, asks e (fun _ _ _ => False) (k a)) ->
  reqs w' = reqs (m e w).2.
Proof.
  unfold mbind, M_bind. intros E H. destruct (m e w) as [[a|x|] w1]; cbn; [|by injection E as _ <-|by injection E as _ <-].
  rewrite <- (asks_quiet e (k a) (H a) w1), E. done.
Qed.

Lemma bind_ok {A B} (m : M A) (k : A -> M B) e w a w1 : m e w = (Ok a, w1) -> (m ≫= k) e w = k a e w1.
Proof. unfold mbind, M_bind. by intros ->. Qed.

Section downloads.
  Context (c : config) (base name : string) (Hc : cfg_ok c base name) (e : env).
  Notation fe := (config_fetcher c).

  Lemma push_reqs l w : reqs (push_fs l w) = reqs w.
  Proof. unfold reqs. cbn. rewrite asked_app. rewrite (asked_none (EvFs <$> l)); [apply app_nil_r|]. apply Forall_fmap. by apply Forall_true. Qed.
  Lemma resolve_eq u w : resolve_source fe u e w = match located (e_ext e) fe u with
    | Some src => (Ok src, w) | None => ((resolve_source fe u e w).1, w) end /\
    (located (e_ext e) fe u = None -> exists x, (resolve_source fe u e w).1 = Err x).
  Proof.
    unfold resolve_source, located. destruct (fe_map fe) as [m|]; [|done]. unfold map_source.
    destruct (strip_prefix (fm_base m) u) as [rel|]; [|split; [done|by eexists]]. unfold source_join.
    destruct (fm_fetch m) as [p|b md]; [done|]. unfold mbind, M_bind, getext, ask, of_option. cbn.
    destruct (https_join (e_ext e) b rel); cbn; split; try done. by eexists.
  Qed.
  Lemma raw_reqs src w : reqs (fetch_raw src None e w).2 = reqs w ++ match src with SUri u m => [(u, m, None)] | SFile _ => [] end.
  Proof.
    destruct src as [p|u m]; cbn [fetch_raw].
    - rewrite app_nil_r. apply asks_quiet. apply asks_bind; [apply asks_read|]. intros. apply asks_ret.
    - destruct ((reply ← http_get u m None; _) e w) as [r w'] eqn:E.
      apply quiet_bind in E; [cbn [snd]; rewrite E; unfold reqs; cbn; by rewrite asked_app|].
      intros [|s hdr body]; [apply asks_fail|]. destruct (s =? 200)%N; [|destruct (s =? 304)%N; [apply asks_ret|apply asks_fail]].
      apply asks_bind; [destruct hdr as [[|]|]; auto with asks|]. intros. destruct body; auto with asks.
  Qed.
  Lemma get_reqs {A} u h t (k : fetch_response -> M A) w : (forall r, asks e (fun _ _ _ => False) (k r)) ->
    reqs ((src ← resolve_source fe u; r ← fetch src h None t; k r) e w).2 = reqs w ++ request c e u.
  Proof.
    intros Hk. unfold request. destruct (resolve_eq u w) as [E1 E2]. unfold mbind at 1, M_bind at 1. rewrite E1.
    destruct (located (e_ext e) fe u) as [src|]; cbn [fst].
    2: { destruct (E2 eq_refl) as [x ->]. cbn. by rewrite app_nil_r. }
    destruct ((r ← fetch src h None t; k r) e w) as [r w'] eqn:E. apply quiet_bind in E; [|done]. cbn [snd]. rewrite E.
    destruct (fetch src h None t e w) as [r2 w2] eqn:E3. unfold fetch in E3. apply quiet_bind in E3; cbn [snd].
    - rewrite E3, raw_reqs. by destruct src.
    - intros r0. apply asks_bind; [apply asks_getext|]. intros x. apply asks_bind.
      + destruct h; [|apply asks_ret]. destruct r0; auto with asks. destruct (hash_matches _ _ _); auto with asks.
      + intros _. destruct t; [|apply asks_ret]. destruct r0; auto with asks. apply asks_bind; [apply asks_write_buf|]. intros. apply asks_ret.
  Qed.
  Lemma retrieve_reqs u h t w : let w' := (retrieve_file fe u h t e w).2 in
    ((exists b, op_read (w_fs w) t = Some b /\ x_hash (e_ext e) b = h) /\ reqs w' = reqs w) \/
    (((forall k, e_fault e k ORead = None) -> ~ exists b, op_read (w_fs w) t = Some b /\ x_hash (e_ext e) b = h) /\
     reqs w' = reqs w ++ request c e u).
  Proof.
    cbv zeta. unfold retrieve_file.
    assert (Hget : forall w1, reqs w1 = reqs w -> reqs ((src ← resolve_source fe u; _ ← fetch src (Some h) None (Some t); mret tt) e w1).2 =
      reqs w ++ request c e u).
    { intros w1 E1. rewrite <- E1. apply (get_reqs u (Some h) (Some t) (fun _ => mret tt)). intros. apply asks_ret. }
    change ((x ← getext; existing ← catch (read_file t); _) e w) with
      ((existing ← catch (read_file t);
        match existing with
        | inl b => if hash_matches (e_ext e) h b then mret tt
                   else src ← resolve_source fe u; _ ← fetch src (Some h) None (Some t); mret tt
        | inr _ => src ← resolve_source fe u; _ ← fetch src (Some h) None (Some t); mret tt
        end) e w).
    destruct (op_read (w_fs w) t) as [b|] eqn:Er; [destruct (e_fault e (w_n w) ORead) eqn:Ef|].
    - rewrite (bind_ok _ _ _ _ (inr EIo) (push_fs [] w)) by (unfold catch, read_file, f_read; by rewrite Er, Ef).
      right. split; [intros H; by rewrite H in Ef|]. apply Hget, push_reqs.
    - rewrite (bind_ok _ _ _ _ (inl b) (push_fs [] w)) by (unfold catch, read_file, f_read; by rewrite Er, Ef).
      destruct (hash_matches (e_ext e) h b) eqn:Hh.
      + left. apply String.eqb_eq in Hh. split; [by exists b|]. apply push_reqs.
      + right. split; [|apply Hget, push_reqs]. intros _ (b' & [= <-] & Hb). unfold hash_matches in Hh. by apply String.eqb_neq in Hh.
    - rewrite (bind_ok _ _ _ _ (inr EIo) (push_fs [] w)) by (unfold catch, read_file, f_read; by rewrite Er).
      right. split; [by intros _ (b & ? & _)|]. apply Hget, push_reqs.
  Qed.

  (** *** The staged files *)
  Definition seldom : Prop := forall k, e_fault e k ORead = None.
  Definition plain (g : fs) (l : list (https * hash)) : Prop :=
    forall rel h t, (base +:+ rel, h) ∈ l -> g !! staged_file c rel <> Some (Link t).
  Definition clean_list (l : list (https * hash)) : Prop := forall rel h, (base +:+ rel, h) ∈ l -> clean_rel rel.
  Lemma have_spec g rel h : have c base e g (base +:+ rel, h) = true <-> exists b, op_read g (staged_file c rel) = Some b /\ x_hash (e_ext e) b = h.
  Proof.
    unfold have. cbn [fst snd]. rewrite strip_prefix_app. destruct (op_read g (staged_file c rel)) as [b|].
    - split; [intros H%String.eqb_eq; by exists b|]. intros (b' & [= <-] & H). by apply String.eqb_eq.
    - split; [done|]. by intros (b & ? & _).
  Qed.
  Lemma staged_ne rel : staged_file c rel <> [].
  Proof. unfold staged_file. intros E. apply app_eq_nil in E as [_ E]. by apply split_on_nonempty in E. Qed.
  Lemma agree_step g g1 rel rel' h' : mods (eq (staged_file c rel)) (fun q => below q (staged_file c rel)) g g1 ->
    rel' <> rel -> (forall t, g !! staged_file c rel' <> Some (Link t)) ->
    have c base e g1 (base +:+ rel', h') = have c base e g (base +:+ rel', h') /\ (forall t, g1 !! staged_file c rel' <> Some (Link t)).
  Proof.
    intros Hm Hne Hl. pose proof (staged_ne rel') as Hn.
    assert (Hne' : staged_file c rel <> staged_file c rel').
    { unfold staged_file. intros E%app_inv_head. apply Hne. symmetry. by eapply split_on_inj. }
    unfold have. cbn [fst snd]. rewrite strip_prefix_app. unfold op_read, fs_stat. rewrite !fs_get_nonroot by done.
    destruct (Hm (staged_file c rel')) as [E|[E|(_ & H1 & H2)]]; [|done|].
    - rewrite E. split; [|done]. destruct (g !! staged_file c rel') as [[| |t]|] eqn:Eg; try done. by destruct (Hl t).
    - split; [by destruct H1 as [-> | ->], H2 as [-> | ->]|]. intros t. by destruct H2 as [-> | ->].
  Qed.
  Lemma file_reqs {A} st u h (k : string -> M A) w r w' : mp_base (st_map st) = base -> (forall rel, u = base +:+ rel -> clean_rel rel) ->
    (rel ← mp_relative (st_map st) u; retrieve_file fe u h (staging_path c rel) ;; k rel) e w = (r, w') ->
    exists us, us `sublist_of` [u] /\
    (((forall a, r <> Ok a) /\ reqs w' = reqs w ++ flat_map (request c e) us /\ (seldom -> us `prefix_of` missing c base e (w_fs w) [(u, h)])) \/
     exists rel w1, u = base +:+ rel /\ k rel e w1 = (r, w') /\ reqs w1 = reqs w ++ flat_map (request c e) us /\
       (seldom -> us = missing c base e (w_fs w) [(u, h)]) /\
       mods (eq (staged_file c rel)) (fun q => below q (staged_file c rel)) (w_fs w) (w_fs w1)).
  Proof.
    intros Hb Hcl E. unfold mp_relative in E. rewrite Hb in E.
    destruct (strip_prefix base u) as [rel|] eqn:Es.
    2: { injection E as <- <-. exists []. split; [apply sublist_nil_l|]. left. split; [done|]. cbn. rewrite app_nil_r. split; [done|].
         intros _. apply prefix_nil. }
    apply strip_prefix_spec in Es. specialize (Hcl rel Es).
    rewrite (bind_ok _ _ _ _ rel w) in E by done.
    assert (Est : staging_path c rel = staged_file c rel) by (by apply staging_path_clean). rewrite Est in E.
    set (g := w_fs w) in *.
    assert (Hus : exists us, us `sublist_of` [u] /\ reqs (retrieve_file fe u h (staged_file c rel) e w).2 = reqs w ++ flat_map (request c e) us /\
      (seldom -> us = missing c base e g [(u, h)])).
    { destruct (retrieve_reqs u h (staged_file c rel) w) as [[H1 H2]|[H1 H2]].
      - exists []. split; [apply sublist_nil_l|]. cbn. rewrite app_nil_r. split; [exact H2|]. intros _. unfold missing.
        cbn. rewrite decide_False; [done|]. rewrite Es. apply (have_spec g) in H1. by rewrite H1.
      - exists [u]. split; [done|]. cbn [flat_map]. rewrite app_nil_r. split; [exact H2|]. intros Hn. unfold missing.
        cbn. rewrite decide_True; [done|]. rewrite Es. apply not_true_is_false. intros H. apply (H1 Hn). by apply have_spec. }
    destruct Hus as (us & Hsub & Hr & Hex). exists us. split; [done|].
    assert (Hm : wpt e (on_fs (fun _ => True)) (retrieve_file fe u h (staged_file c rel)) w (fun r0 w0 => forall a, r0 = Ok a ->
      mods (eq (staged_file c rel)) (fun q => below q (staged_file c rel)) g (w_fs w0))).
    { apply (w_retrieve_file e c (fun _ => True)); try done. apply under_app. }
    apply wpt_elim in Hm. destruct (retrieve_file fe u h (staged_file c rel) e w) as [[[]|x|] w1] eqn:Er; cbn [fst snd] in Hm, Hr.
    - right. exists rel, w1. split; [done|]. rewrite (bind_ok _ _ _ _ tt w1) in E by done. split; [done|]. split; [done|]. split; [done|]. by apply (Hm tt).
    - left. unfold mbind, M_bind in E. rewrite Er in E. injection E as <- <-. split; [done|]. split; [done|]. intros H. by rewrite Hex.
    - left. unfold mbind, M_bind in E. rewrite Er in E. injection E as <- <-. split; [done|]. split; [done|]. intros H. by rewrite Hex.
  Qed.

  (** what has been asked for of the files [l], from the tree [g] on *)
  Definition asks_of {A} (g : fs) (l : list (https * hash)) (us : list https) (r : res A) : Prop :=
    us `sublist_of` l.*1 /\
    (seldom -> NoDup l.*1 -> plain g l ->
     us `prefix_of` missing c base e g l /\ forall a, r = Ok a -> us = missing c base e g l).
  Lemma missing_cons g en l : missing c base e g (en :: l) = missing c base e g [en] ++ missing c base e g l.
  Proof. unfold missing. cbn. by destruct (decide (have c base e g en = false)). Qed.
  Lemma missing_eq g g' l : (forall en, en ∈ l -> have c base e g' en = have c base e g en) -> missing c base e g' l = missing c base e g l.
  Proof.
    induction l as [|en l IH]; intros H; [done|]. rewrite (missing_cons g'), (missing_cons g), IH by (intros; apply H; by constructor).
    f_equal. unfold missing. cbn. by rewrite (H en) by constructor.
  Qed.
  Lemma have_off g u h : (forall rel, u <> base +:+ rel) -> have c base e g (u, h) = false.
  Proof. intros H. unfold have. cbn [fst]. destruct (strip_prefix base u) as [rel|] eqn:E; [|done]. apply strip_prefix_spec in E. by destruct (H rel). Qed.
  (** the first file is done: the others are as they were *)
  Lemma others_keep g g1 rel h l : mods (eq (staged_file c rel)) (fun q => below q (staged_file c rel)) g g1 ->
    NoDup ((base +:+ rel, h) :: l).*1 -> plain g ((base +:+ rel, h) :: l) -> plain g1 l /\ missing c base e g1 l = missing c base e g l.
  Proof.
    intros Hm Hnd Hp. cbn in Hnd. apply NoDup_cons in Hnd as [Hni Hnd].
    assert (Hne : forall rel' h', (base +:+ rel', h') ∈ l -> rel' <> rel).
    { intros rel' h' Hin ->. apply Hni. apply elem_of_list_fmap. by exists (base +:+ rel, h'). }
    split.
    - intros rel' h' t Hin. destruct (agree_step g g1 rel rel' h' Hm) as [_ H]; [by eapply Hne| |apply H].
      intros t'. apply (Hp rel' h'). by constructor.
    - apply missing_eq. intros [u' h'] Hin. destruct (strip_prefix base u') as [rel'|] eqn:E.
      + apply strip_prefix_spec in E. subst u'. apply (agree_step g g1 rel rel' h' Hm); [by eapply Hne|]. intros t'. apply (Hp rel' h'). by constructor.
      + assert (Ho : forall rel', u' <> base +:+ rel') by (intros rel' ->; by rewrite strip_prefix_app in E). by rewrite !have_off.
  Qed.
  (** first one file, then the others *)
  Lemma asks_more {A B} g g1 rel h l us us' (r : res A) (r' : res B) : mods (eq (staged_file c rel)) (fun q => below q (staged_file c rel)) g g1 ->
    us `sublist_of` [base +:+ rel] -> (seldom -> us = missing c base e g [(base +:+ rel, h)]) ->
    asks_of g1 l us' r' -> (forall a, r = Ok a -> exists a', r' = Ok a') ->
    asks_of g ((base +:+ rel, h) :: l) (us ++ us') r.
  Proof.
    intros Hm Hu He [H1 H2] Hr. split.
    - cbn. change ((base +:+ rel) :: l.*1) with ([base +:+ rel] ++ l.*1). by apply sublist_app.
    - intros Hs Hnd Hp. destruct (others_keep _ _ _ _ _ Hm Hnd Hp) as [Hp1 E1]. rewrite missing_cons, (He Hs), <- E1.
      cbn in Hnd. apply NoDup_cons in Hnd as [_ Hnd]. destruct (H2 Hs Hnd Hp1) as [H3 H4]. split; [by apply prefix_app|].
      intros a Ha. destruct (Hr a Ha) as [a' Ha']. by rewrite (H4 a' Ha').
  Qed.
  Lemma asks_stop {A} g u h l us (r : res A) : us `sublist_of` [u] -> (seldom -> us `prefix_of` missing c base e g [(u, h)]) ->
    (forall a, r <> Ok a) -> asks_of g ((u, h) :: l) us r.
  Proof.
    intros Hu He Hr. split.
    - cbn. change (u :: l.*1) with ([u] ++ l.*1). etransitivity; [exact Hu|]. apply sublist_inserts_r. done.
    - intros Hs _ _. rewrite missing_cons. split; [|intros a Ha; by destruct (Hr a)]. by apply prefix_app_r, He.
  Qed.

  Definition entries (st : rrdp_state) (reset : bool) (l : list delta_info) : list (https * hash) :=
    (fun d => (di_uri d, di_hash d)) <$> filter (fun d => delta_is_new st reset (di_serial d) = true) l.
  Lemma deltas_reqs st reset l : mp_base (st_map st) = base -> forall w r w',
    (forall d rel, d ∈ l -> di_uri d = base +:+ rel -> clean_rel rel) -> deltas_stage st reset fe c l e w = (r, w') ->
    exists us, reqs w' = reqs w ++ flat_map (request c e) us /\ asks_of (w_fs w) (entries st reset l) us r.
  Proof.
    intros Hb. induction l as [|d l IH]; intros w r w' Hcl E; cbn [deltas_stage] in E.
    - injection E as <- <-. exists []. cbn. rewrite app_nil_r. split; [done|]. split; [done|]. intros _ _ _. by split.
    - assert (Hcl' : forall d' rel, d' ∈ l -> di_uri d' = base +:+ rel -> clean_rel rel) by (intros d' rel Hd; apply Hcl; by constructor).
      unfold entries. destruct (delta_is_new st reset (di_serial d)) eqn:Ed.
      2: { rewrite filter_cons_False by (by rewrite Ed). by apply IH. }
      rewrite filter_cons_True by done. cbn [fmap list_fmap].
      destruct (file_reqs st (di_uri d) (di_hash d) _ w r w' Hb (fun rel H => Hcl d rel ltac:(constructor) H) E)
        as (us & Hu & [(Hr & Hq & He)|(rel & w1 & Eu & Ek & Hq & He & Hm)]).
      { exists us. split; [done|]. by apply asks_stop. }
      rewrite Eu in *. cbv beta in Ek.
      unfold mp_relative in Ek. rewrite Hb, strip_prefix_app in Ek. rewrite (bind_ok _ _ _ _ rel w1) in Ek by done.
      unfold mbind at 1, M_bind at 1 in Ek. destruct (time_now e w1) as [[now|x|] w2] eqn:Et; [|by injection Et..].
      assert (Hw2 : w_fs w2 = w_fs w1 /\ reqs w2 = reqs w1).
      { injection Et as _ <-. split; [done|]. unfold reqs. cbn. by rewrite asked_app, app_nil_r. }
      destruct Hw2 as [Hf2 Hq2].
      unfold mbind at 1, M_bind at 1 in Ek. destruct (deltas_stage st reset fe c l e w2) as [r3 w3] eqn:E3.
      destruct (IH w2 r3 w3 Hcl' E3) as (us' & Hq3 & Ha).
      exists (us ++ us'). rewrite flat_map_app. rewrite Hf2 in Ha. split.
      + rewrite app_assoc, <- Hq, <- Hq2, <- Hq3. destruct r3; by injection Ek as _ <-.
      + eapply asks_more; [exact Hm|done|done|exact Ha|]. intros a ->. destruct r3 as [a3| |]; try done. by exists a3.
  Qed.

  Lemma write_staged rel b w w' : clean_rel rel -> write_buf (staging_path c rel) b e w = (Ok tt, w') ->
    mods (eq (staged_file c rel)) (fun q => below q (staged_file c rel)) (w_fs w) (w_fs w') /\ reqs w' = reqs w.
  Proof.
    intros Hcl E. rewrite (staging_path_clean c rel Hcl) in E. fold (staged_file c rel) in E. split.
    - set (I' := fun g => mods (eq (staged_file c rel)) (fun q => below q (staged_file c rel)) (w_fs w) g).
      assert (H : wpt e (on_fs I') (write_buf (staged_file c rel) b) w (fun r w' => I' (w_fs w'))).
      { apply (w_write_buf e I' (fun q => below q (staged_file c rel)) (staged_file c rel) b w); unfold I'.
        - apply mods_refl.
        - intros g q H1 H2 Hq Hn Hpd. apply mods_mkdir; auto.
        - by intros q Hq Hne.
        - intros g b' H1 Hb Hp Hst Hpd. by apply mods_insert.
        - done.
        - done. }
      apply wpt_elim in H. by rewrite E in H.
    - pose proof (asks_quiet e _ (asks_write_buf e (fun _ _ _ => False) (staged_file c rel) b) w) as H. by rewrite E in H.
  Qed.

  Lemma asks_of_tree {A} g g1 l us (r : res A) : (NoDup l.*1 -> plain g l -> plain g1 l /\ missing c base e g1 l = missing c base e g l) ->
    asks_of g1 l us r -> asks_of g l us r.
  Proof.
    intros H [H1 H2]. split; [done|]. intros Hs Hnd Hp. destruct (H Hnd Hp) as [H3 <-]. by apply H2.
  Qed.
  Lemma notif_reqs st w r w' : good_state c base name st -> notif_source_fetch (st_source st) fe e w = (r, w') ->
    reqs w' = reqs w ++ request c e (c_notif_uri c) /\ w_fs w' = w_fs w /\ forall n t, r = Ok (Some (n, t)) -> offers c e (w_fs w) n.
  Proof.
    intros Hg E. rewrite (gs_source _ _ _ _ Hg) in E. split.
    - unfold notif_source_fetch in E. cbn [ns_etag] in E. apply quiet_bind in E; [|intros [|]; apply asks_ret]. rewrite E.
      unfold read_notification_file. apply (get_reqs (fe_notif fe) None None). intros [b t| |]; [|auto with asks..].
      apply asks_bind; [apply asks_getext|]. intros x. apply asks_bind; [apply asks_of_option|]. intros. apply asks_ret.
    - assert (H : wpt e anyev (notif_source_fetch (mkNS (c_notif_uri c) name None) fe) w (fun r w' => w_fs w' = w_fs w /\
        forall n t, r = Ok (Some (n, t)) -> offers c e (w_fs w) n)).
      { unfold notif_source_fetch. wp1. apply w_read_notification.
        - by intros [|] _.
        - intros w1 src b n t E1 Hl Hs Hp. wp1. split; [done|]. intros n' t' [= <- <-]. by exists src, b.
        - intros w1 src E1 _ _. wp1. by split.
        - intros w1 x E1. by split. }
      apply wpt_elim in H. by rewrite E in H.
  Qed.
  Lemma fresh_unseen st n reset d : good_state c base name st -> compare_version st n = VUpdate reset ->
    delta_is_new st reset (di_serial d) = unseen st n d.
  Proof.
    intros Hg Hv. unfold delta_is_new, unseen.
    assert (Er : match st_snap st with Some s => negb (bool_decide (ss_session s = n_session n)) | None => false end = reset).
    { unfold compare_version in Hv. destruct (st_snap st) as [s|]; [|by injection Hv].
      destruct (negb (bool_decide (ss_session s = n_session n))); [by injection Hv|]. destruct (ss_serial s ?= n_serial n)%N; [done|by injection Hv|done]. }
    rewrite Er. f_equal. pose proof (gs_sorted _ _ _ _ Hg) as Hs. destruct (st_deltas st) as [|d0 l]; [done|].
    cbn [forallb]. apply Sorted.StronglySorted_inv in Hs as [_ Hs]. destruct (ds_serial d0 <? di_serial d)%N eqn:E; [|done]. symmetry. apply forallb_forall.
    intros d' Hd%elem_of_list_In. rewrite Forall_forall in Hs. specialize (Hs d' Hd). cbv beta in Hs. lia.
  Qed.
  Lemma news_entries st n reset : good_state c base name st -> compare_version st n = VUpdate reset ->
    news st n = (n_snap_uri n, n_snap_hash n) :: entries st reset (n_deltas n).
  Proof.
    intros Hg Hv. unfold news, entries. f_equal. f_equal. apply list_filter_iff. intros d. by rewrite (fresh_unseen st n reset d Hg Hv).
  Qed.
  Lemma update_reqs st w r w' : good_state c base name st -> (forall n, offers c e (w_fs w) n -> good_notif base name n) ->
    update_staged st c e w = (r, w') ->
    ((forall sg, r <> Ok (Some sg)) /\ reqs w' = reqs w ++ request c e (c_notif_uri c)) \/
    exists n0 n reset us, from_source c e (w_fs w) n0 n /\ compare_version st n = VUpdate reset /\
      reqs w' = reqs w ++ request c e (c_notif_uri c) ++ flat_map (request c e) us /\
      asks_of (w_fs w) (news st n) us r /\ r <> Ok None.
  Proof.
    intros Hg Hgood E. unfold update_staged in E. cbv zeta in E.
    destruct (notif_source_fetch (st_source st) fe e w) as [r1 w1] eqn:E1.
    destruct (notif_reqs st w r1 w1 Hg E1) as (Hq1 & Hf1 & Ho).
    unfold mbind at 1, M_bind at 1 in E. rewrite E1 in E.
    destruct r1 as [[[n0 t]|]|x|]; [|by left; injection E as <- <-..]. specialize (Ho n0 t eq_refl).
    rewrite (bind_ok _ _ _ _ (e_ext e) w1) in E by done.
    destruct (sort_and_verify (e_ext e) (c_max_deltas c) n0) as [[n fine]|] eqn:Hsv; [|by left; injection E as <- <-].
    destruct fine; cbn [negb] in E; [|by left; injection E as <- <-].
    assert (Hs : from_source c e (w_fs w) n0 n) by done.
    destruct (compare_version st n) as [reset| |] eqn:Hv; [|by left; injection E as <- <-..].
    assert (Hnm : file_name name) by apply (ck_name _ _ _ Hc).
    assert (Hgn : good_notif base name n).
    { intros u h rel Hin. apply (Hgood n0 Ho u h rel). by eapply sav_refs. }
    assert (Hcn : clean_rel name) by (by apply file_name_clean).
    rewrite (gs_source _ _ _ _ Hg) in E. cbn [ns_name] in E.
    right. exists n0, n, reset. unfold mbind at 1, M_bind at 1 in E.
    destruct (write_buf (staging_path c name) (x_write_notif (e_ext e) n) e w1) as [r2 w2] eqn:E2.
    assert (Hq2 : reqs w2 = reqs w1).
    { pose proof (asks_quiet e _ (asks_write_buf e (fun _ _ _ => False) (staging_path c name) (x_write_notif (e_ext e) n)) w1) as H. by rewrite E2 in H. }
    assert (Hstop : forall x, r = x -> (forall a, x <> Ok a) -> w' = w2 -> exists us, from_source c e (w_fs w) n0 n /\ compare_version st n = VUpdate reset /\
      reqs w' = reqs w ++ request c e (c_notif_uri c) ++ flat_map (request c e) us /\ asks_of (w_fs w) (news st n) us r /\ r <> Ok None).
    { intros x -> Hx ->. exists []. split; [done|]. split; [done|]. split; [by rewrite Hq2, Hq1, app_nil_r|]. split; [|done].
      split; [apply sublist_nil_l|]. intros _ _ _. split; [apply prefix_nil|]. intros a Ha. by destruct (Hx a). }
    destruct r2 as [[]|x|]; [|injection E as <- <-; by eapply Hstop..]. clear Hstop.
    destruct (write_staged name _ _ _ Hcn E2) as [Hm _].
    assert (Hgoal : exists us, reqs w' = reqs w2 ++ flat_map (request c e) us /\ asks_of (w_fs w2) (news st n) us r /\ r <> Ok None).
    { rewrite (news_entries st n reset Hg Hv).
      assert (Hb : mp_base (st_map st) = base) by (by rewrite (gs_map _ _ _ _ Hg)).
      unfold snapshot_stage in E. unfold mbind at 1, M_bind at 1 in E.
      destruct ((rel ← mp_relative (st_map st) (n_snap_uri n); retrieve_file fe (n_snap_uri n) (n_snap_hash n) (staging_path c rel) ;; _) e w2) as [r3 w3] eqn:E3.
      assert (Hsc : forall rel, n_snap_uri n = base +:+ rel -> clean_rel rel).
      { intros rel H. apply (Hgn (n_snap_uri n) (n_snap_hash n) rel); [by left|done]. }
      destruct (file_reqs st _ _ _ w2 r3 w3 Hb Hsc E3) as (us & Hu & [(Hr & Hq & He)|(rel & w4 & Eu & Ek & Hq & He & Hm3)]).
      { exists us. destruct r3 as [a|x|]; [by destruct (Hr a)| |]; injection E as <- <-; (split; [done|]); (split; [|done]); by apply asks_stop. }
      rewrite Eu in *. cbv beta in Ek. unfold mp_relative in Ek. rewrite Hb, strip_prefix_app in Ek. rewrite (bind_ok _ _ _ _ rel w4) in Ek by done.
      unfold mbind at 1, M_bind at 1 in Ek. destruct (time_now e w4) as [[now|x|] w5] eqn:Et; [|by injection Et..].
      assert (Hw5 : w_fs w5 = w_fs w4 /\ reqs w5 = reqs w4).
      { injection Et as _ <-. split; [done|]. unfold reqs. cbn. by rewrite asked_app, app_nil_r. }
      destruct Hw5 as [Hf5 Hq5]. injection Ek as <- <-.
      unfold mbind at 1, M_bind at 1 in E. destruct (deltas_stage st reset fe c (n_deltas n) e w5) as [r6 w6] eqn:E6.
      destruct (deltas_reqs st reset (n_deltas n) Hb w5 r6 w6) as (us' & Hq6 & Ha); [|done|].
      { intros d rel' Hd Hu'. apply (Hgn (di_uri d) (di_hash d) rel'); [|done]. right. apply elem_of_list_fmap. by exists d. }
      rewrite Hf5 in Ha. exists (us ++ us'). rewrite flat_map_app. split; [|split].
      - rewrite app_assoc, <- Hq, <- Hq5, <- Hq6. destruct r6; by injection E as _ <-.
      - eapply asks_more; [exact Hm3|done|done|exact Ha|]. intros a ->. destruct r6 as [a6| |]; try done. by exists a6.
      - destruct r6; by injection E as <- _. }
    destruct Hgoal as (us & Hq & Ha & Hr). exists us. split; [done|]. split; [done|]. split; [by rewrite Hq, Hq2, Hq1, app_assoc|]. split; [|done].
    eapply asks_of_tree; [|exact Ha]. intros Hnd Hp. rewrite Hf1 in Hm.
    assert (Hni : forall rel h, (base +:+ rel, h) ∈ news st n -> rel <> name).
    { intros rel h Hin ->. assert (Hin' : (base +:+ name, h) ∈ refs n).
      { unfold news in Hin. apply elem_of_cons in Hin as [->|Hin]; [by left|]. right. apply elem_of_list_fmap in Hin as (d & -> & Hd).
        apply elem_of_list_filter in Hd as [_ Hd]. apply elem_of_list_fmap. by exists d. }
      destruct (Hgn _ _ name Hin' eq_refl) as (_ & H & _). apply H. destruct Hnm as (_ & _ & _ & ->). done. }
    split.
    - intros rel h t0 Hin. destruct (agree_step _ _ name rel h Hm) as [_ H]; [by eapply Hni| |apply H]. intros t'. by apply (Hp rel h).
    - apply missing_eq. intros [u h] Hin. destruct (strip_prefix base u) as [rel|] eqn:Es.
      + apply strip_prefix_spec in Es. subst u. apply (agree_step _ _ name rel h Hm); [by eapply Hni|]. intros t'. by apply (Hp rel h).
      + assert (Hoff : forall rel, u <> base +:+ rel) by (intros rel ->; by rewrite strip_prefix_app in Es). by rewrite !have_off.
  Qed.
End downloads.

Definition newer (st : rrdp_state) (n : notification) : Prop :=
  forall s, st_snap st = Some s -> ss_session s <> n_session n \/ (ss_serial s < n_serial n)%N.
(** what was asked for of the source, and then the requests of the validator *)
Lemma run_reqs c base name e f r w : setting c base name e f -> order_ok (e_ext e) -> run c e f = (r, w) ->
  exists l1 l2, w_trace w = l1 ++ l2 /\ (forall u m t, EvHttp u m t ∈ l2 -> c_tal_files c <> [] /\ m = Insecure) /\
  ((asked l1 = [] /\ r <> Ok tt) \/
   (asked l1 = request c e (c_notif_uri c) /\ (r = Ok tt -> w_fs w = f)) \/
   exists st n0 n us (r1 : res (option staged_changes)), starts_from c base name f st /\ takes c e f n0 n /\ newer st n /\
     asked l1 = request c e (c_notif_uri c) ++ flat_map (request c e) us /\ asks_of c base e f (news st n) us r1 /\
     (r = Ok tt -> exists a, r1 = Ok a)).
Proof.
  intros Hset Hx Hrun. pose proof (setting_sane _ _ _ _ _ Hset) as Hs. pose proof (se_cfg _ _ _ _ _ Hset) as Hc.
  unfold run, process in Hrun. destruct (load_state c e (resume f)) as [r0 w0] eqn:E0.
  assert (HL : wpt e anyev (load_state c) (resume f) (fun r w => w_fs w = f /\ forall st, r = Ok st -> starts_from c base name f st)).
  { apply (w_load_state c base name Hc).
    - intros w' st' E Hst. split; [done|]. by intros ? [= <-].
    - intros w' x E. by split. }
  apply wpt_elim in HL. rewrite E0 in HL. cbn [fst snd] in HL. destruct HL as [Hf0 Hst].
  assert (Hq0 : reqs w0 = []).
  { pose proof (asks_quiet e _ (asks_load e (fun _ _ _ => False) c) (resume f)) as H. by rewrite E0 in H. }
  destruct r0 as [st|x|].
  2-3: unfold mbind at 1, M_bind at 1 in Hrun; rewrite E0 in Hrun; injection Hrun as <- <-; exists (w_trace w0), [];
    (split; [by rewrite app_nil_r|]); (split; [intros u m t H; by apply elem_of_nil in H|]); by left.
  specialize (Hst st eq_refl). rewrite (bind_ok _ _ _ _ st w0) in Hrun by done.
  pose proof (start_good c base name e f Hs st Hst) as Hg.
  destruct (update_staged st c e w0) as [r1 w1] eqn:E1.
  assert (Hgood : forall n, offers c e (w_fs w0) n -> good_notif base name n) by (rewrite Hf0; apply (sn_notif _ _ _ _ _ Hs)).
  destruct (update_reqs c base name Hc e st w0 r1 w1 Hg Hgood E1) as [[Hn Hq]|(n0 & n & reset & us & Hsrc & Hv & Hq & Ha & Hn)].
  - rewrite Hq0 in Hq. cbn in Hq. exists (w_trace w1), [].
    assert (Hend : w = w1 /\ (r = Ok tt -> r1 = Ok None)).
    { unfold mbind at 1, M_bind at 1 in Hrun. rewrite E1 in Hrun. destruct r1 as [[sg|]|x|]; [by destruct (Hn sg)|by injection Hrun as <- <-..]. }
    destruct Hend as [-> Hr]. split; [by rewrite app_nil_r|]. split; [intros u m t H; by apply elem_of_nil in H|].
    right. left. split; [exact Hq|]. intros Ho. specialize (Hr Ho). subst r1.
    assert (HU : wpt e (on_fs (fun _ => True)) (update_staged st c) w0 (fun r w => r = Ok None -> w_fs w = w_fs w0)).
    { apply (w_update_staged e c (fun _ => True) ltac:(done) ltac:(done) base name st); try done.
      - by rewrite (gs_map _ _ _ _ Hg).
      - by rewrite (gs_source _ _ _ _ Hg).
      - apply (ck_name _ _ _ Hc).
      - intros n0 u h rel Ho' Hin Eu. by apply (Hgood n0 Ho' u h rel).
      - intros n0 n Hsv u h. by eapply sav_refs. }
    apply wpt_elim in HU. rewrite E1 in HU. cbn [fst snd] in HU. rewrite HU by done. done.
  - rewrite Hq0 in Hq. cbn [app] in Hq. rewrite Hf0 in Ha, Hsrc.
    assert (Hnew : newer st n).
    { intros s Es. unfold compare_version in Hv. rewrite Es in Hv. destruct (bool_decide_reflect (ss_session s = n_session n)); [|by left].
      right. cbn in Hv. destruct (N.compare_spec (ss_serial s) (n_serial n)); done. }
    destruct (match r1 with Ok (Some sg) => publish_staged st sg c | Ok None => mret tt | Err x => fail x | Panic => panic end e w1) as [r2 w2] eqn:E2.
    assert (Hend : (r, w) = (r2, w2)).
    { unfold mbind at 1, M_bind at 1 in Hrun. rewrite E1 in Hrun. destruct r1 as [[sg|]|x|]; [|done|..]; unfold fail, panic in E2; congruence. }
    injection Hend as -> ->.
    assert (Htail : wpt e (http_ok (fun _ m _ => c_tal_files c <> [] /\ m = Insecure))
      (match r1 with Ok (Some sg) => publish_staged st sg c | Ok None => mret tt | Err x => fail x | Panic => panic end) w1 (fun _ _ => True)).
    { destruct r1 as [[sg|]|x|]; [|by apply asks_ret|by apply asks_fail|by apply asks_panic]. revert w1 E1 Hq E2. intros w1 _ _ _. revert w1.
      change (asks e (fun _ m _ => c_tal_files c <> [] /\ m = Insecure) (publish_staged st sg c)). unfold publish_staged.
      apply asks_bind; [apply asks_pre_validate; [done|by eapply setting_usual|done]|].
      intros st1. apply asks_bind; [apply asks_scripts|]. intros _. apply asks_bind; [apply asks_apply|]. intros st2.
      apply asks_bind; [apply asks_when, asks_rsync|]. intros _. apply asks_bind; [apply asks_notification|]. intros _.
      apply asks_write_buf. }
    destruct Htail as (l2 & El & HJ & _). rewrite E2 in El. cbn [snd] in El. exists (w_trace w1), l2. split; [done|].
    split. { intros u m t Hin. rewrite Forall_forall in HJ. by apply (HJ _ Hin). }
    right. right. exists st, n0, n, us, r1. split; [done|]. split; [by apply source_takes|]. split; [done|]. split; [exact Hq|]. split; [done|].
    intros ->. destruct r1 as [a|x|]; [by exists a|by injection E2..].
Qed.

Lemma nodup_sub {A} (l k : list A) : l ⊆+ k -> NoDup k -> NoDup l.
Proof. intros (k' & ->)%submseteq_Permutation. by intros [H _]%NoDup_app. Qed.
Lemma filter_sub {A} (P : A -> Prop) `{forall x, Decision (P x)} (l : list A) : filter P l `sublist_of` l.
Proof.
  induction l as [|a l IH]; [constructor|]. destruct (decide (P a)).
  - rewrite filter_cons_True by done. by constructor.
  - rewrite filter_cons_False by done. by constructor.
Qed.
Lemma newest_sub limit n0 l : newest limit n0 l -> l ⊆+ n_deltas n0.
Proof. intros (older & <- & _). by apply submseteq_inserts_l. Qed.
Lemma nodup_news (P : delta_info -> Prop) `{forall x, Decision (P x)} (u : https) (h : hash) l l0 :
  NoDup (u :: ((fun d => (di_uri d, di_hash d)) <$> l0).*1) -> l ⊆+ l0 ->
  NoDup (u :: ((fun d => (di_uri d, di_hash d)) <$> filter P l).*1).
Proof.
  intros Hn Hl. eapply nodup_sub; [|exact Hn]. apply submseteq_skip. rewrite <- !list_fmap_compose.
  apply fmap_submseteq. etrans; [apply sublist_submseteq, filter_sub|done].
Qed.
(** ** C77 *)
(** Whatever happens: a run asks for the notification, and then, when the version is
    new, for its snapshot and those of its deltas that are new, each once at most and
    in this order; nothing else, but what the validator asks for. *)
Theorem C77_requests c base name e f r w :
  setting c base name e f -> order_ok (e_ext e) -> run c e f = (r, w) ->
  exists l1 l2, w_trace w = l1 ++ l2 /\ (forall u m t, EvHttp u m t ∈ l2 -> c_tal_files c <> [] /\ m = Insecure) /\
  (asked l1 = [] \/ asked l1 = request c e (c_notif_uri c) \/
   exists st n0 n us, starts_from c base name f st /\ takes c e f n0 n /\ newer st n /\
     asked l1 = request c e (c_notif_uri c) ++ flat_map (request c e) us /\ us `sublist_of` (news st n).*1).
Proof.
  intros Hs Hx Hr. destruct (run_reqs c base name e f r w Hs Hx Hr) as (l1 & l2 & E & H2 & H1). exists l1, l2. split; [done|]. split; [done|].
  destruct H1 as [[H1 _]|[[H1 _]|(st & n0 & n & us & r1 & A1 & A2 & A3 & A4 & [A5 _] & _)]]; [by left|by right; left|].
  right. right. by exists st, n0, n, us.
Qed.
(** When reading works and no file is listed twice, a run asks for exactly those of
    the new files that are not there from an earlier attempt; if it fails, for the
    first of them. *)
Theorem C77_exactly c base name e f r w :
  setting c base name e f -> order_ok (e_ext e) -> run c e f = (r, w) ->
  (forall k, e_fault e k ORead = None) -> no_links (staging_dir c) f -> (forall n, offers c e f n -> NoDup (refs n).*1) ->
  exists l1 l2, w_trace w = l1 ++ l2 /\ (forall u m t, EvHttp u m t ∈ l2 -> c_tal_files c <> [] /\ m = Insecure) /\
  ((asked l1 = [] /\ r <> Ok tt) \/
   (asked l1 = request c e (c_notif_uri c) /\ (r = Ok tt -> w_fs w = f)) \/
   exists st n0 n us, starts_from c base name f st /\ takes c e f n0 n /\ newer st n /\
     asked l1 = request c e (c_notif_uri c) ++ flat_map (request c e) us /\
     us `prefix_of` missing c base e f (news st n) /\ (r = Ok tt -> us = missing c base e f (news st n))).
Proof.
  intros Hs Hx Hr Hrd Hnl Hnd. destruct (run_reqs c base name e f r w Hs Hx Hr) as (l1 & l2 & E & H2 & H1). exists l1, l2. split; [done|]. split; [done|].
  destruct H1 as [H1|[H1|(st & n0 & n & us & r1 & A1 & A2 & A3 & A4 & [_ A5] & A6)]]; [by left|by right; left|].
  right. right. exists st, n0, n, us. do 4 (split; [done|]).
  destruct A5 as [H3 H4]; [done| | |].
  - destruct A2 as (Ho & _ & _ & Eu & Eh & Hl). specialize (Hnd n0 Ho). unfold refs in Hnd. unfold news. cbn in Hnd |- *.
    rewrite <- Eu in Hnd. by eapply nodup_news, (newest_sub _ _ _ (proj1 Hl)).
  - intros rel h t _ H. by apply (Hnl (staged_file c rel) t (under_app _ _)).
  - split; [done|]. intros Ho. destruct (A6 Ho) as [a Ha]. by apply (H4 a).
Qed.

(** ** Runs for which these hold *)
(** The version with serial 5 after that with serial 3; and once more where an
    earlier attempt has staged the snapshot. *)
Definition asked_b (r : res unit * world) (l : list https) : bool :=
  match r.1 with Ok _ => bool_decide ((asked (w_trace r.2)).*1.*1 = l) | _ => false end.
Lemma asked_ok r l : asked_b r l = true -> exists w, r = (Ok tt, w) /\ (asked (w_trace w)).*1.*1 = l.
Proof. destruct r as [[[]| |] w]; [|done..]. cbn. intros H%bool_decide_eq_true_1. by exists w. Qed.
Definition snap5_uri : https := n_snap_uri (src3 1).
Definition delta_uris : list https := [base +:+ delta_rel uuid_A 4; base +:+ delta_rel uuid_A 5].
Definition downloads_check : bool :=
  asked_b (run demo_config (env3 1) (tree3 1)) (notif_uri :: snap5_uri :: delta_uris) &&
  asked_b (run demo_config (env3 1) failed5) (notif_uri :: delta_uris) &&
  no_links_b (staging_dir demo_config) failed5.
Lemma downloads_checked : downloads_check = true.
Proof. vme. Qed.
Opaque run failed5 tree3.
Lemma downloads_facts :
  (exists w, run demo_config (env3 1) (tree3 1) = (Ok tt, w) /\ (asked (w_trace w)).*1.*1 = notif_uri :: snap5_uri :: delta_uris) /\
  (exists w, run demo_config (env3 1) failed5 = (Ok tt, w) /\ (asked (w_trace w)).*1.*1 = notif_uri :: delta_uris) /\
  no_links (staging_dir demo_config) failed5.
Proof.
  pose proof downloads_checked as H. unfold downloads_check in H.
  destruct (proj1 (andb_true_iff _ _) H) as [H1 H2]. destruct (proj1 (andb_true_iff _ _) H1) as [H3 H4].
  split; [exact (asked_ok _ _ H3)|]. split; [exact (asked_ok _ _ H4)|exact (no_links_ok _ _ H2)].
Qed.
Lemma src3_once : NoDup (refs (src3 1)).*1.
Proof. apply (bool_decide_unpack _). vm_compute. exact I. Qed.
Example C77_applies :
  setting demo_config base name (env3 1) failed5 /\ order_ok (e_ext (env3 1)) /\
  (forall k, e_fault (env3 1) k ORead = None) /\ no_links (staging_dir demo_config) failed5 /\
  (forall n, offers demo_config (env3 1) failed5 n -> NoDup (refs n).*1) /\
  (exists w, run demo_config (env3 1) failed5 = (Ok tt, w) /\ (asked (w_trace w)).*1.*1 = notif_uri :: delta_uris) /\
  (exists w, run demo_config (env3 1) (tree3 1) = (Ok tt, w) /\ (asked (w_trace w)).*1.*1 = notif_uri :: snap5_uri :: delta_uris).
Proof.
  destruct downloads_facts as (H1 & H2 & H3).
  split; [split; [apply demo_cfg_ok|apply failed_mirror|exact (env3_good 1 failed5 (le_S _ _ (le_n 1)))]|].
  split; [exact (fun l => Permutation_refl l)|]. split; [exact (fun k => eq_refl)|]. split; [exact H3|].
  split; [|exact (conj H2 H1)]. intros n Hn. rewrite (env3_offers 1 failed5 n (le_S _ _ (le_n 1)) Hn). exact src3_once.
Qed.
Transparent run failed5 tree3.
Print Assumptions C77_requests.
Print Assumptions C77_exactly.
