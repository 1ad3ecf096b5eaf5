(** * C52 with trust anchors: what can stop a run that nothing stands in the way of *)
From Coq Require Import ZifyN ZifyNat ZifyBool.
From Verif Require Import PropsSource PropsRsync LiveRest PropsLive PropsValidator PropsDecide RunMaster RunView ReadBack HistoryProofs TreeWalk DemoTree DemoRun Refuted PropsHoldsRequests PropsHoldsFresh.
From Verif Require Import Live FsWf.

(** ** Specification *)
(** the first https URI of a TAL *)
Definition tal_url (uris : list tal_uri) (u : https) : Prop :=
  exists l l', uris = l ++ TalHttps u :: l' /\ forall u', TalHttps u' ∉ l.
(** a TAL file that is there and readable, for a trust anchor whose certificate
    every request brings, and which is valid, with the key of the TAL, whenever
    the run looks *)
Definition anchor_ready (c : config) (e : env) (f : fs) (p : path) : Prop :=
  p <> [] /\ ~ under (staging_dir c) p /\ exists b m uris key u,
    f !! p = Some (File b m) /\ x_tal (e_ext e) b = Some (uris, key) /\ tal_url uris u /\
    forall k, exists hdr cb ct, e_http e k u Insecure None = HReply 200 hdr (Some cb) /\ hdr <> Some None /\
      x_cert (e_ext e) cb = Some ct /\
      forall k', exists rc info, x_ta_valid (e_ext e) (path_str p) ct (e_clock e k') = Some rc /\
        ct_key (rc_cert rc) = key /\ details rc info.

Lemma tal_url_first uris u : tal_url uris u -> first_https uris = Some u.
Proof.
  intros (l & l' & -> & H). induction l as [|[u'|r] l IH]; cbn; [done|destruct (H u'); by left|].
  apply IH. intros u' Hu. apply (H u'). by right.
Qed.

(** a TAL as parsed, with a trust anchor that can be had at any time *)
Definition tal_ready (e : env) (t : tal) : Prop :=
  exists u, tl_source t = SUri u Insecure /\
    forall k, exists hdr cb ct, e_http e k u Insecure None = HReply 200 hdr (Some cb) /\ hdr <> Some None /\
      x_cert (e_ext e) cb = Some ct /\
      forall k', exists rc info, x_ta_valid (e_ext e) (tl_name t) ct (e_clock e k') = Some rc /\
        ct_key (rc_cert rc) = tl_key t /\ details rc info.

Section anchors.
  Context (c : config) (base name : string) (Hc : cfg_ok c base name) (e : env) (He : no_faults e).

  Lemma tot_read_tals f l w : w_fs w = f -> Forall (fun p => p <> [] /\ exists b m uris key u,
      f !! p = Some (File b m) /\ x_tal (e_ext e) b = Some (uris, key) /\ tal_url uris u /\
      tal_ready e (mkTal (path_str p) (SUri u Insecure) key)) l ->
    tot e (read_tals l) w (fun tals w' => w_fs w' = f /\ Forall (tal_ready e) tals /\ tl_name <$> tals = path_str <$> l).
  Proof using He.
    intros Ew H. revert w Ew. induction H as [|p l (Hp & b & m & uris & key & u & Hf & Ht & Hu & Hr) Hl IH]; intros w Ew; cbn [read_tals].
    { by apply tot_ret. }
    apply tot_bind. apply (tot_read e He p b); [rewrite Ew; unfold op_read, fs_stat; by rewrite fs_get_nonroot, Hf|].
    intros w1 E1. apply tot_bind. unfold tal_parse. apply tot_bind, tot_getext, tot_bind, (tot_of_option _ _ _ (uris, key)); [done|].
    cbv beta iota. apply tot_bind, (tot_of_option _ _ _ u); [by apply tal_url_first|]. apply tot_ret. apply tot_bind.
    eapply tot_conseq; [apply IH; congruence|]. intros tals w2 (E2 & H2 & N2). apply tot_ret. split; [done|]. split; [by constructor|]. cbn. by rewrite N2.
  Qed.

  (** looking up the synced repository, from the staging directory *)
  Context (n : notification) (Hrt : x_parse_notif (e_ext e) (x_write_notif (e_ext e) n) = Some n).
  Context (Hsnap : forall b, x_hash (e_ext e) b = n_snap_hash n ->
    exists els, x_snapshot (e_ext e) b = (els, true) /\ forall u o, (u, o) ∈ els -> is_Some o).
  Definition staged_there (g : fs) : Prop :=
    g !! (staging_dir c ++ [name]) = Some (File (x_write_notif (e_ext e) n) None) /\
    exists rel b m, clean_rel rel /\ n_snap_uri n = base +:+ rel /\
      g !! staging_path c rel = Some (File b m) /\ x_hash (e_ext e) b = n_snap_hash n.
  Notation F := (staged_fetcher c base).

  Lemma tot_staged_read etag w : staged_there (w_fs w) ->
    tot e (read_notification_file F etag) w (fun r w' => w_fs w' = w_fs w /\ r = NData n None).
  Proof using Hc He Hrt.
    intros [Hf _]. unfold read_notification_file. apply tot_bind.
    exists (SFile (staging_path c name)), w. split.
    { apply (resolve_ok (e_ext e)); [done|]. cbn [staged_fetcher fe_notif]. by apply (staged_located c base name Hc). }
    apply tot_bind. unfold fetch, fetch_raw. apply tot_bind, tot_bind.
    assert (Hnp : staging_path c name = staging_dir c ++ [name]) by (apply path_join_name, (ck_name _ _ _ Hc)).
    rewrite Hnp. apply (tot_read e He _ (x_write_notif (e_ext e) n)).
    { unfold op_read, fs_stat. rewrite fs_get_nonroot, Hf; [done|]. by destruct (staging_dir c). }
    intros w1 E1. apply tot_ret. apply tot_bind, tot_getext, tot_bind, tot_ret, tot_ret.
    apply tot_bind, tot_getext, tot_bind, (tot_of_option _ _ _ n); [done|]. by apply tot_ret.
  Qed.
  Lemma all_some_ok {A} (l : list (A * option string)) : (forall u o, (u, o) ∈ l -> is_Some o) -> is_Some (all_some l).
  Proof using.
    induction l as [|[u o] l IH]; intros H; cbn; [done|]. destruct (H u o) as [b ->]; [by left|].
    destruct IH as [r ->]; [|by cbn]. intros u' o' Hin. apply (H u' o'). by right.
  Qed.
  Lemma tot_staged_snapshot etag when w : staged_there (w_fs w) ->
    tot e (data_from_snapshot n etag F when) w (fun _ w' => w_fs w' = w_fs w).
  Proof using Hc He Hsnap.
    intros [_ (rel & b & m & Hcl & Hu & Hf & Hh)]. unfold data_from_snapshot, read_snapshot_file, read_bytes.
    do 3 apply tot_bind. exists (SFile (staging_path c rel)), w. split.
    { apply (resolve_ok (e_ext e)); [done|]. unfold located. cbn. by rewrite Hu, strip_prefix_app. }
    apply tot_bind. unfold fetch, fetch_raw. apply tot_bind, tot_bind. apply (tot_read e He _ b).
    { unfold op_read, fs_stat. rewrite fs_get_nonroot, Hf; [done|]. rewrite staging_path_clean by done.
      pose proof (split_on_nonempty slash rel). intros Ex. by apply app_eq_nil in Ex as [_ ?]. }
    intros w1 E1. apply tot_ret. apply tot_bind, tot_getext, tot_bind.
    assert (hash_matches (e_ext e) (n_snap_hash n) b = true) as -> by (by apply String.eqb_eq).
    apply tot_ret, tot_ret. apply tot_ret. apply tot_bind, tot_getext.
    destruct (Hsnap b Hh) as (els & Hs & Hels). destruct (all_some_ok els Hels) as [l Hl].
    apply (tot_of_option _ _ _ l); [by unfold snapshot_parse; rewrite Hs|]. by apply tot_ret.
  Qed.
  Lemma tot_staged_lookup v when w : get_fetcher v (c_notif_uri c) = F -> staged_there (w_fs w) ->
    tot e (get_latest v (c_notif_uri c) false when) w (fun r w' => w_fs w' = w_fs w /\ exists v' d, r = (v', inl d)).
  Proof using Hc He Hrt Hsnap.
    intros HF Hst. unfold get_latest. rewrite HF. cbv zeta.
    destruct (vi_data v !! c_notif_uri c) as [d|] eqn:Ed.
    - destruct (rd_fetched d) eqn:Ef; [apply tot_ret; eauto|].
      apply tot_bind, tot_clock. intros now w1 E1.
      assert (Hm : forall d', vi_data (set_data v (<[c_notif_uri c := d']> (vi_data v))) !! c_notif_uri c = Some d')
        by (intros; cbn; apply lookup_insert).
      destruct (_ <? _)%Z; [apply tot_ret; rewrite Hm; eauto|].
      apply tot_bind, tot_catch_ok. eapply tot_conseq; [apply tot_staged_read; by rewrite E1|].
      intros r w2 [E2 ->]. cbv beta iota. destruct (_ && _); [apply tot_ret; rewrite Hm; split; [congruence|eauto]|].
      apply tot_bind, tot_catch. eapply wpt_post; [apply (w_deltas_requests e anyev); by intros di [] _ _|].
      intros [d'|x|] w3 (E3 & Hp & _); [| |done].
      + apply tot_ret. rewrite Hm. split; [congruence|eauto].
      + apply tot_bind, tot_catch_ok. eapply tot_conseq; [apply tot_staged_snapshot; by rewrite E3, E2, E1|].
        intros d' w4 E4. cbv beta iota. apply tot_ret. rewrite Hm. split; [congruence|eauto].
    - apply tot_bind, tot_catch_ok. unfold retrieve_new_repository. apply tot_bind.
      eapply tot_conseq; [by apply tot_staged_read|]. intros r w1 [E1 ->]. cbn [notif_content]. apply tot_bind, tot_ret.
      eapply tot_conseq; [apply tot_staged_snapshot; by rewrite E1|]. intros d w2 E2. cbv beta iota. apply tot_ret.
      cbn. rewrite lookup_insert. split; [congruence|eauto].
  Qed.

  (** setting up the validator *)
  Lemma tot_reconfigure st w : usual_check c (st_validator st) -> staged_there (w_fs w) ->
    Forall (anchor_ready c e (w_fs w)) (c_tal_files c) ->
    tot e (reconfigure_validator st c) w (fun st1 w' => w_fs w' = w_fs w /\
      exists ov, st1 = set_validator st ov /\ forall v, ov = Some v -> Forall (tal_ready e) (vd_tals v) /\ tl_name <$> vd_tals v = path_str <$> c_tal_files c).
  Proof using Hc He Hrt Hsnap.
    intros Hus Hst Han. unfold reconfigure_validator. destruct (c_tal_files c) as [|p l] eqn:Et.
    { cbn [is_empty]. apply tot_bind, tot_ret. cbn. apply tot_ret. split; [done|]. exists None. done. }
    cbn [is_empty]. rewrite <- Et in *. apply tot_bind, tot_bind. unfold create_validator. apply tot_bind.
    eapply tot_conseq; [apply (tot_read_tals (w_fs w)); [done|]|].
    { eapply Forall_impl; [exact Han|]. intros q (H1 & _ & b & m & uris & key & u & H2 & H3 & H4 & H5).
      split; [done|]. exists b, m, uris, key, u. split_and!; [done..|]. by exists u. }
    intros tals w1 (E1 & Htals & Hnames). apply tot_bind, (tot_of_option _ _ _ base); [apply (ck_parent _ _ _ Hc)|]. apply tot_ret. apply tot_ret.
    change [mkFetcher _ _ _] with [F].
    set (nv := validator_new tals [F]).
    assert (Hnv : vi_fetchers (vd_repos nv) = {[c_notif_uri c := F]}) by (cbn; by rewrite insert_empty).
    assert (Hx : exists v0, st_validator (if new_validator_needed st nv then set_validator st (Some nv) else st) = Some v0 /\
      get_fetcher (vd_repos v0) (c_notif_uri c) = F /\ vd_tals v0 = tals).
    { unfold new_validator_needed. destruct (st_validator st) as [old|] eqn:Eo.
      - destruct (equivalent old nv) eqn:Ee; cbn [negb].
        + exists old. split; [done|]. apply equivalent_fits in Ee as [Ht _]. split; [|done].
          cbn in Hus. destruct Hus as [_ (b' & Eb' & Hfe)]. rewrite (ck_parent _ _ _ Hc) in Eb'. injection Eb' as <-.
          unfold get_fetcher. by rewrite Hfe, lookup_singleton.
        + exists nv. split; [done|]. split; [unfold get_fetcher; by rewrite Hnv, lookup_singleton|done].
      - exists nv. split; [done|]. split; [unfold get_fetcher; by rewrite Hnv, lookup_singleton|done]. }
    destruct Hx as (v0 & Ev & Hg & Ht). rewrite Ev. apply tot_bind. unfold initialise_staging_data. apply tot_bind, tot_clock.
    intros now w2 E2. apply tot_bind. eapply tot_conseq; [apply tot_staged_lookup; [done|by rewrite E2, E1]|].
    intros r w3 (E3 & v' & d & ->). cbv beta iota. apply tot_ret, tot_ret. split; [congruence|].
    exists (Some (mkValidator (vd_tals v0) v')). split; [by destruct (new_validator_needed st nv)|]. intros v [= <-]. cbn. by rewrite Ht.
  Qed.

  Lemma tot_anchor t k0 w : tal_ready e t ->
    tot e (tal_validate_at t (e_clock e k0)) w (fun rc _ => exists info, details rc info).
  Proof using.
    intros (u & Hs & H). unfold tal_validate_at. apply tot_bind. rewrite Hs. unfold fetch, fetch_raw, http_get. apply tot_bind, tot_bind.
    eexists _, _. split; [reflexivity|]. cbv beta. destruct (H (w_n w)) as (hdr & cb & ct & -> & Hh & Hct & Hv).
    change (200 =? 200)%N with true. cbv iota. apply tot_bind.
    destruct (Hv k0) as (rc & info & V1 & V2 & V3).
    assert (Hrest : forall et w', tot e (x ← getext; (mret tt;; mret (FData cb et))) w' (fun fetched w'' =>
      tot e (b ← try_into_data fetched; x ← getext; c0 ← of_option ETaCert (x_cert x b);
             rc ← of_option ETaCert (x_ta_valid x (tl_name t) c0 (e_clock e k0));
             if String.eqb (ct_key (rc_cert rc)) (tl_key t) then mret rc else fail ETaCert) w'' (fun rc _ => exists info, details rc info))).
    { intros et w'. apply tot_bind, tot_getext, tot_bind, tot_ret, tot_ret. apply tot_bind. cbn [try_into_data]. apply tot_ret.
      apply tot_bind, tot_getext, tot_bind, (tot_of_option _ _ _ ct); [done|].
      apply tot_bind, (tot_of_option _ _ _ rc); [done|]. rewrite V2, String.eqb_refl. apply tot_ret. by exists info. }
    destruct hdr as [[v|]|]; [|done|]; apply tot_ret, tot_ret; apply Hrest.
  Qed.
  Lemma validate_no_err vd off k0 w r w' : order_ok (e_ext e) -> Forall (tal_ready e) (vd_tals vd) ->
    validate_at vd off (e_clock e k0) e w = (r, w') -> forall x, r <> Err x.
  Proof using.
    intros Hx Ht. unfold validate_at.
    enough (H : forall l b w, Forall (tal_ready e) l -> forall x,
      (fold_m (fun '(v, rep) t => '(v', rep') ← validate_ta_at v t off (e_clock e k0); mret (v', add_other rep rep')) b l e w).1 <> Err x).
    { specialize (H (vd_tals vd) (vd_repos vd, report_default) w Ht). unfold mbind, M_bind in *.
      destruct (fold_m _ _ _ e w) as [[[v rep]|x|] w1]; cbn in H; intros [= <- <-] x'; [done|by destruct (H x)|done]. }
    clear -Hx. intros l. induction l as [|t l IH]; intros [v rep] w Hl x; cbn [fold_m]; [done|]. apply Forall_cons in Hl as [Ht Hl].
    unfold mbind at 1, M_bind at 1. unfold mbind at 1, M_bind at 1. unfold validate_ta_at.
    destruct (tot_anchor t k0 w Ht) as (rc & w1 & E1 & info & Hi). unfold mbind at 1, M_bind at 1. rewrite E1.
    apply details_eq in Hi. rewrite Hi. cbn [of_option]. unfold mbind at 1, M_bind at 1. unfold mret at 1, M_ret at 1.
    unfold mbind at 1, M_bind at 1. unfold ask.
    assert (H2 : wpt e anyev (validate_tree_at (e_stack e) v rc info off (e_clock e k0)) w1 (fun r _ => forall x, r <> Err x)).
    { apply (w_validate_tree e anyev Hx off (e_clock e k0) (vi_fetchers v)); try done.
      - intros _. split; [done|]. intros u u' [] t'; done.
      - by apply details_eq. }
    apply wpt_elim in H2. destruct (validate_tree_at _ _ _ _ _ _ e w1) as [[[v2 rep2]|x2|] w2]; [|by destruct (H2 x2)|done].
    unfold mret, M_ret. by apply IH.
  Qed.
End anchors.

Global Instance trouble_dec rep u : Decision (trouble rep u).
Proof.
  destruct (decide (Forall (fun ca => ci_rrdp (ca_info_ ca) <> Some u) (rp_certs rep))) as [H1|H1].
  { left. left. rewrite Forall_forall in H1. exact H1. }
  destruct (decide (Exists (fun ca => ci_rrdp (ca_info_ ca) = Some u /\ Is_true (negb (is_empty (ca_issues ca)))) (rp_certs rep))) as [H2|H2].
  { left. right. apply Exists_exists in H2 as (ca & Hin & Hu & Hi). exists ca. split; [done|]. split; [done|]. by destruct (ca_issues ca). }
  right. intros [H|(ca & Hin & Hu & Hi)].
  - apply H1, Forall_forall. intros ca. apply H.
  - apply H2, Exists_exists. exists ca. split; [done|]. split; [done|]. by destruct (ca_issues ca).
Qed.

(** Nothing stands in the way, the TAL files and trust anchors are in order, and
    the snapshot of the new version can be read: then the run succeeds and the
    notification file served is that of the new version, unless
    - rejecting is configured and the validation of the staged version finds
      trouble with it, or
    - there is a chain of certificates, each a valid child of the one before,
      longer than the stack. *)
Theorem C52_with_anchors c base name e f st doc n0 n rs els :
  setting c base name e f -> no_faults e -> scripts_fine c e ->
  starts_from c base name f st ->
  source_says c e f doc -> x_parse_notif (e_ext e) doc = Some n0 ->
  usable_notif (e_ext e) (c_max_deltas c) n0 n -> newer st n ->
  (forall u h, (u, h) ∈ refs n -> available c base e f u h) -> NoDup (refs n).*1 ->
  (forall d, d ∈ st_deltas st -> x_https_ok (e_ext e) (base +:+ ds_rel d) = true) ->
  clear_way (run_files c base name st n els) (run_dirs c rs (revision_of n)) f ->
  (rsync_enabled c = true -> rsync_ready c base e f st n rs els) ->
  order_ok (e_ext e) -> Forall (anchor_ready c e f) (c_tal_files c) ->
  x_parse_notif (e_ext e) (x_write_notif (e_ext e) n) = Some n ->
  (forall b, x_hash (e_ext e) b = n_snap_hash n ->
     exists els', x_snapshot (e_ext e) b = (els', true) /\ forall u o, (u, o) ∈ els' -> is_Some o) ->
  exists w,
    (run c e f = (Ok tt, w) /\
     exists ds, w_fs w !! notif_path c name = Some (File (x_write_notif (e_ext e)
      (mkNotif (n_session n) (n_serial n) (n_snap_uri n) (n_snap_hash n) ds)) None)) \/
    (c_reject c = true /\ (run c e f = (Err EInvalid, w) \/ run c e f = (Err ENotSeen, w)) /\
     exists vd vd' rep k w1, w_fs w1 !! (staging_dir c ++ [name]) = Some (File (x_write_notif (e_ext e) n) None) /\
       tl_name <$> vd_tals vd = path_str <$> c_tal_files c /\
       validate_at vd (c_offline c) (e_clock e k) e w1 = (Ok (vd', rep), w) /\ trouble rep (c_notif_uri c)) \/
    (run c e f = (Panic, w) /\
     exists k v p t ta rc, p ∈ c_tal_files c /\ tl_name t = path_str p /\ ta_of e (w_fs w) (e_clock e k) t ta /\
       nsteps (kid (e_ext e) (e_clock e k) v) (e_stack e) ta rc).
Proof.
  intros Hset He Hscr Hst Hsay Hpn Hsv%usable_sav Hnew Hall Hnd Hbk Hcw Hrs Hx Han Hrt Hsnap.
  assert (Hc : cfg_ok c base name) by apply Hset.
  destruct (live_staged c base name e f Hset He st doc n0 n rs els) as (sg & w1 & Hf1 & Hrun); [done..|].
  assert (Hthere : staged_there c base name e n (w_fs w1)).
  { split; [apply Hf1|]. pose proof (sf_files _ _ _ _ _ _ _ _ _ _ _ Hf1) as S1. apply Forall_cons in S1 as [(b & m & Eb & Hb) _]. cbn in Eb, Hb.
    exists (ss_rel (sg_snap sg)), b, m. split; [|split; [apply Hf1|split; [done|]]].
    - destruct (Hall (n_snap_uri n) (n_snap_hash n)) as (rel & b' & Hu & Hcl & _); [by left|].
      rewrite (sf_uri _ _ _ _ _ _ _ _ _ _ _ Hf1) in Hu. by apply sapp_inv_head in Hu as ->.
    - by rewrite Hb, (sf_hash _ _ _ _ _ _ _ _ _ _ _ Hf1). }
  assert (Han1 : Forall (anchor_ready c e (w_fs w1)) (c_tal_files c)).
  { eapply Forall_impl; [exact Han|]. intros p (H1 & H2 & b & m & uris & key & u & H3 & H4). split; [done|]. split; [done|].
    exists b, m, uris, key, u. split; [|done]. eapply frame_file; [exact (sf_frame _ _ _ _ _ _ _ _ _ _ _ Hf1)|done|done]. }
  assert (Hus : usual_check c (st_validator st)) by (by apply (setting_usual c base name e f)).
  destruct (tot_reconfigure c base name Hc e He n Hrt Hsnap st w1 Hus Hthere Han1) as (st1 & w2 & Er & E2 & ov & -> & Hov).
  destruct (pre_validate st c e w1) as [r w3] eqn:Ep.
  assert (Hokk : (exists ov', r = Ok (set_validator st ov')) -> w_fs w3 = w_fs w1 -> exists w, run c e f = (Ok tt, w) /\
     exists ds, w_fs w !! notif_path c name = Some (File (x_write_notif (e_ext e)
      (mkNotif (n_session n) (n_serial n) (n_snap_uri n) (n_snap_hash n) ds)) None)).
  { intros (ov' & ->) E3.
    destruct (live_rest c base name e f Hset He st doc n0 n rs els) with (sg := sg) (w1 := w1) as (w & E & Hds); [done..| |by exists w; auto].
    exists (set_validator st ov'), w3. split; [done|]. eauto. }
  assert (Hbad : forall A (m : res A), (forall a, r <> Ok a) -> run c e f = (match r with Ok _ => Panic | Err x => Err x | Panic => Panic end, w3)).
  { intros _ _ Hr. apply Hrun. unfold publish_staged, mbind at 1, M_bind at 1. rewrite Ep. by destruct r as [a|x|]; [destruct (Hr a)|..]. }
  destruct (C28_decision st c e w1 r w3 Hx Ep) as (D1 & _ & D3).
  destruct (decide (c_tal_files c = [])) as [Et|Et].
  { destruct (D1 Et) as [-> ->]. destruct Hokk as (w & H); eauto. }
  destruct (D3 Et _ _ Er) as (v & Ev & _ & D4). assert (ov = Some v) as -> by (by injection Ev).
  destruct (Hov v eq_refl) as [Hready Hnames].
  destruct (validate v (c_offline c) e w2) as [rv w4] eqn:Eva.
  pose proof Eva as Eat. unfold validate, mbind, M_bind, clock in Eat.
  set (w2' := push_ev (EvClock (e_clock e (w_n w2))) w2) in Eat.
  assert (Hfs : w_fs w4 = w_fs w2 /\ (rv = Panic -> exists v' t ta rc, t ∈ vd_tals v /\ ta_of e (w_fs w2) (e_clock e (w_n w2)) t ta /\
    nsteps (kid (e_ext e) (e_clock e (w_n w2)) v') (e_stack e) ta rc)).
  { assert (H : wpt e anyev (validate_at v (c_offline c) (e_clock e (w_n w2))) w2' (fun r w' => w_fs w' = w_fs w2 /\
      (r = Panic -> exists v' t ta rc, t ∈ vd_tals v /\ ta_of e (w_fs w2) (e_clock e (w_n w2)) t ta /\
        nsteps (kid (e_ext e) (e_clock e (w_n w2)) v') (e_stack e) ta rc))).
    { apply w_validate_at; try done.
      - intros _. split; [done|]. intros u u' [] t'; done.
      - intros t _. by destruct (tl_source t).
      - intros w' v' t ta rc Hw _ Ht Hta Hn. split; [done|]. intros _. by exists v', t, ta, rc. }
    destruct (wpt_run _ _ _ _ _ _ _ H Eat) as (_ & _ & _ & H'). exact H'. }
  destruct Hfs as [E4 Hpanic].
  destruct rv as [[v' rep]|x|].
  - destruct (D4 _ _ _ eq_refl) as (-> & D5 & D6).
    destruct (decide (c_reject c = true /\ trouble rep (c_notif_uri c))) as [[Hrej Htr]|Hno].
    + destruct (D5 Hrej Htr) as (x & -> & Hxx). exists w4. right. left. split; [done|].
      assert (Hr := Hbad unit Panic). split; [destruct Hxx as [->| ->]; [left|right]; by apply Hr|].
      exists v, v', rep, (w_n w2), w2'. split; [cbn; rewrite E2; apply Hf1|]. done.
    + destruct Hokk as (w & H); [eauto|congruence|]. exists w. by left.
  - exfalso. by eapply (validate_no_err e v (c_offline c) (w_n w2) w2' _ w4).
  - assert (r = Panic /\ w3 = w4) as [-> ->].
    { clear -Ep Er Eva. unfold pre_validate, mbind at 1, M_bind at 1 in Ep. rewrite Er in Ep. cbn in Ep.
      unfold mbind at 1, M_bind at 1 in Ep. rewrite Eva in Ep. by injection Ep. }
    exists w4. right. right. split; [by apply (Hbad unit Panic)|].
    destruct (Hpanic eq_refl) as (v' & t & ta & rc & Ht & Hta & Hn).
    assert (Hp : tl_name t ∈ path_str <$> c_tal_files c) by (rewrite <- Hnames; apply elem_of_list_fmap; by exists t).
    apply elem_of_list_fmap in Hp as (p & Ep' & Hp). rewrite E4. exists (w_n w2), v', p, t, ta, rc. done.
Qed.

(** *** A case: the second run of a mirror with a trust anchor, with a hash
    without collisions *)
Definition anch_snap : string := snap_text (ca_files "ta/" [] [] []).
Definition anch_n : notification := mkNotif uuid_A 2 (base +:+ "s2") ("h:" +:+ anch_snap) [].
Definition anch_doc : string := json_text (j_notif anch_n).
Definition anch_docs : list (string * string) :=
  [(notif_uri, anch_doc); (base +:+ "s2", anch_snap); (ta_uri, text j_cert ta_cert)].
Definition anch_env : env := mkEnv live_ext (serve anch_docs) (fun _ => 4600%Z) (fun _ _ => None) (fun _ _ => SOk) 50.
Section check.
  Context (c : config) (st : rrdp_state) (f : fs).
  Let files : list path :=
    staging_path c "s2" :: public_path c "s2" ::
    [staging_dir c ++ [DemoRun.name]; notif_path c DemoRun.name; notif_tmp c DemoRun.name; rrdp_state_path c] ++
    (dp_path <$> st_deprecated st) ++ ((fun x => public_path c x.1) <$> state_files st).
  Let dirlist : list path := t ← files; filter (fun q => q <> t) (ups t).
  Definition anch_check : bool :=
    match st_snap st with Some s => bool_decide (ss_session s <> n_session anch_n \/ (ss_serial s < n_serial anch_n)%N) | None => true end &&
    forallb (fun d => x_https_ok demo_ext (base +:+ ds_rel d)) (st_deltas st) &&
    forallb (fun t => negb (bool_decide (t ∈ dirlist)) && match f !! t with None | Some (File _ _) => true | _ => false end) files &&
    forallb (fun d => bool_decide (d = []) || match f !! d with None | Some Dir => true | _ => false end) dirlist.
  Lemma anch_files_in t : rsync_enabled c = false -> run_files c base DemoRun.name st anch_n [] t -> t ∈ files.
  Proof using.
    intros Hr. unfold files. rewrite !elem_of_cons, !elem_of_app.
    intros [(u & h & rel & Hin & -> & Ht)|[Ht|[[(d & Hd & ->)|(rel & h & Hin & ->)]|[Hr' _]]]].
    - apply elem_of_list_singleton in Hin. apply (f_equal fst) in Hin. change (base +:+ rel = base +:+ "s2") in Hin. apply sapp_inv_head in Hin as ->.
      destruct Ht as [->| ->]; [by left|right; by left].
    - do 2 right. by left.
    - do 3 right. left. by apply elem_of_list_fmap_1.
    - do 4 right. apply elem_of_list_fmap. by exists (rel, h).
    - congruence.
  Qed.
  Lemma anch_check_ok rs : rsync_enabled c = false -> anch_check = true ->
    newer st anch_n /\ (forall d, d ∈ st_deltas st -> x_https_ok live_ext (base +:+ ds_rel d) = true) /\
    clear_way (run_files c base DemoRun.name st anch_n []) (run_dirs c rs (revision_of anch_n)) f.
  Proof using.
    intros Hr H. unfold anch_check in H. rewrite !andb_true_iff in H. destruct H as (((H1 & H2) & H3) & H4).
    rewrite forallb_forall in H2, H3, H4. split; [|split].
    - unfold newer. destruct (st_snap st); [|done]. by apply bool_decide_eq_true in H1.
    - intros d Hd. apply H2. by apply elem_of_list_In.
    - assert (Hd : forall d, dirs (run_files c base DemoRun.name st anch_n []) (run_dirs c rs (revision_of anch_n)) d -> d ∈ dirlist).
      { intros d [(t & Ht & [Hb1 Hb2])|(Hr' & _)]; [|congruence]. unfold dirlist. apply elem_of_list_bind. exists t.
        split; [|by apply anch_files_in]. apply elem_of_list_filter. split; [done|by apply ups_ok]. }
      split.
      + intros t Ht Hdt. apply anch_files_in, elem_of_list_In, H3 in Ht; [|done]. apply andb_true_iff in Ht as [Ht _].
        apply negb_true_iff, bool_decide_eq_false in Ht. by apply Ht, Hd.
      + intros t Ht. apply anch_files_in, elem_of_list_In, H3 in Ht; [|done]. apply andb_true_iff in Ht as [_ Ht].
        unfold file_or_none. destruct (f !! t) as [[]|]; eauto; done.
      + intros d Hdd Hne. apply Hd, elem_of_list_In, H4 in Hdd. apply orb_true_iff in Hdd as [Hdd%bool_decide_eq_true|Hdd]; [done|].
        unfold dir_or_none. destruct (f !! d) as [[]|]; eauto; done.
  Qed.
End check.
Definition anch_facts (f : fs) : bool :=
  match DemoRun.state_of tal_config f with Some st => anch_check tal_config st f | None => false end &&
  match f !! ["ta.tal"] with Some (File b _) => String.eqb b tal_doc | _ => false end.
Lemma anch_facts_ok f : anch_facts f = true -> exists st m, DemoRun.state_of tal_config f = Some st /\
  anch_check tal_config st f = true /\ f !! ["ta.tal"] = Some (File tal_doc m).
Proof.
  unfold anch_facts. intros [H Ht]%andb_true_iff. destruct (DemoRun.state_of tal_config f) as [st|]; [|done].
  destruct (f !! ["ta.tal"]) as [[b m| |]|]; try done. apply String.eqb_eq in Ht as ->. by exists st, m.
Qed.
Lemma anch_parsed : x_parse_notif live_ext anch_doc = Some anch_n /\ Demo.assoc anch_docs notif_uri = Some anch_doc /\
  Demo.assoc anch_docs (base +:+ "s2") = Some anch_snap /\ Demo.assoc anch_docs ta_uri = Some (text j_cert ta_cert) /\
  x_cert live_ext (text j_cert ta_cert) = Some ta_cert /\ is_Some (info_of_cert (mkRCert ta_cert (ct_res ta_cert))) /\
  x_parse_notif live_ext (x_write_notif live_ext anch_n) = Some anch_n /\
  sort_and_verify live_ext (c_max_deltas tal_config) anch_n = Some (anch_n, true) /\
  good_check anch_n = true /\ (safe_snapshot anch_snap).2 = true /\
  forallb (fun el => bool_decide (is_Some el.2)) (safe_snapshot anch_snap).1 = true /\
  x_tal live_ext tal_doc = Some ([TalRsync "rsync://x/y/z.cer"; TalHttps ta_uri], ct_key ta_cert).
Proof. vm_compute. repeat split; eauto. Qed.
Lemma anch_usable : usable_notif live_ext (c_max_deltas tal_config) anch_n anch_n.
Proof. apply sav_usable; [vm_cast_no_check (eq_refl true)|apply anch_parsed]. Qed.
Opaque anch_doc anch_docs anch_snap.
Lemma anch_offers f n : offers tal_config anch_env f n -> n = anch_n.
Proof.
  intros (src & b & Hl & Hs & Hp). unfold located, config_fetcher in Hl. cbn in Hl. injection Hl as <-.
  cbn in Hs. destruct Hs as (k & etag & hdr & Hs). cbn in Hs. unfold serve in Hs.
  destruct anch_parsed as (E1 & E2 & _). rewrite E2 in Hs. injection Hs as _ <-. change (e_ext anch_env) with live_ext in Hp.
  rewrite E1 in Hp. by injection Hp as <-.
Qed.
Lemma anch_setting : setting tal_config base DemoRun.name anch_env tal_run1.
Proof.
  split; [apply tal_setting|apply fresh_setting|]. split; [|apply safe_clean].
  intros n ->%anch_offers. apply good_check_ok, anch_parsed.
Qed.
Example C52_anchors_apply : exists st n0 n, let c := tal_config in let e := anch_env in let f := tal_run1 in
  setting c base DemoRun.name e f /\ no_faults e /\ scripts_fine c e /\ starts_from c base DemoRun.name f st /\
  source_says c e f anch_doc /\ x_parse_notif (e_ext e) anch_doc = Some n0 /\
  usable_notif (e_ext e) (c_max_deltas c) n0 n /\ newer st n /\
  (forall u h, (u, h) ∈ refs n -> available c base e f u h) /\ NoDup (refs n).*1 /\
  (forall d, d ∈ st_deltas st -> x_https_ok (e_ext e) (base +:+ ds_rel d) = true) /\
  clear_way (run_files c base DemoRun.name st n []) (run_dirs c (mkRs None []) (revision_of n)) f /\
  rsync_enabled c = false /\ order_ok (e_ext e) /\ c_tal_files c <> [] /\ Forall (anchor_ready c e f) (c_tal_files c) /\
  x_parse_notif (e_ext e) (x_write_notif (e_ext e) n) = Some n /\
  (forall b, x_hash (e_ext e) b = n_snap_hash n ->
     exists els', x_snapshot (e_ext e) b = (els', true) /\ forall u o, (u, o) ∈ els' -> is_Some o).
Proof.
  assert (H : anch_facts tal_run1 = true) by vme. apply anch_facts_ok in H as (st & m & Est & H & Ef).
  destruct (anch_check_ok tal_config st tal_run1 (mkRs None []) eq_refl H) as (H1 & H2 & H3).
  destruct anch_parsed as (E1 & E2 & E3 & E4 & E5 & E6 & E7 & E8 & E9 & E10 & E11 & E12).
  exists st, anch_n, anch_n. cbv zeta.
  split; [apply anch_setting|]. split; [intros k op; reflexivity|]. split; [intros k p Hp; apply elem_of_nil in Hp; contradiction|].
  split; [apply state_of_starts, Est|].
  split; [intros k etag; cbn; unfold serve; rewrite E2; exists None; split; [reflexivity|discriminate]|]. split; [exact E1|]. split; [exact anch_usable|]. split; [exact H1|]. split.
  { intros u h Hin. apply elem_of_list_singleton in Hin. injection Hin as -> ->. exists "s2", anch_snap.
    split; [reflexivity|]. split; [apply (bool_decide_unpack _); vm_compute; exact I|]. split; [reflexivity|]. split; [|reflexivity].
    change (forall k etag, exists hdr, serve anch_docs k (base +:+ "s2") Strict etag = HReply 200 hdr (Some anch_snap) /\ hdr <> Some None).
    intros k etag. unfold serve. rewrite E3. exists None; split; [reflexivity|discriminate]. }
  split; [apply (bool_decide_unpack _); vm_compute; exact I|]. split; [exact H2|]. split; [exact H3|]. split; [reflexivity|].
  split; [exact (demo_order_ok [] 0)|]. split; [vm_compute; discriminate|]. split.
  { change (c_tal_files tal_config) with [["ta.tal"]]. constructor; [|constructor]. split; [discriminate|]. split.
    { intros [k Hk]. vm_compute in Hk. discriminate. }
    exists tal_doc, m, [TalRsync "rsync://x/y/z.cer"; TalHttps ta_uri], (ct_key ta_cert), ta_uri.
    split; [exact Ef|]. split; [exact E12|]. split.
    { exists [TalRsync "rsync://x/y/z.cer"], []. split; [reflexivity|]. intros u' Hu%elem_of_list_singleton. discriminate. }
    intros k. exists None, (text j_cert ta_cert), ta_cert. split; [cbn; unfold serve; rewrite E4; reflexivity|]. split; [discriminate|].
    split; [exact E5|]. intros k'. destruct E6 as [info E6]. exists (mkRCert ta_cert (ct_res ta_cert)), info.
    split; [reflexivity|]. split; [reflexivity|]. apply details_eq; exact E6. }
  split; [exact E7|]. intros b Hb. change (n_snap_hash anch_n) with ("h:" +:+ anch_snap) in Hb. cbn [e_ext anch_env x_hash live_ext] in Hb.
  apply sapp_inv_head in Hb as ->. change (x_snapshot (e_ext anch_env) anch_snap) with (safe_snapshot anch_snap).
  destruct (safe_snapshot anch_snap) as [els ok]. cbn in E10, E11. subst ok. exists els. split; [reflexivity|].
  rewrite forallb_forall in E11. intros u o Hin%elem_of_list_In%E11. apply bool_decide_eq_true in Hin; exact Hin.
Qed.
Print Assumptions C52_with_anchors.
