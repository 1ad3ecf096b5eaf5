(** * The validator's copies of repositories: when they are used without asking
    (C55), where they come from and what is asked with them (C56) *)
From Verif Require Import PropsValidator PropsDecide Requests Demo DemoTree PropsHoldsFresh.
From Verif Require Import FsWf.

(** ** C55 *)
(** A copy that was looked up in this run, or less than an hour ago, is used as it
    is, and nothing is requested. *)
Theorem C55_recent e v u off when w r w' d :
  get_latest v u off when e w = (r, w') -> vi_data v !! u = Some d ->
  rd_fetched d = true \/ (forall k, (e_clock e k - 3600 < rd_last_fetch d)%Z) ->
  (exists v' d', r = Ok (v', inl d') /\ vi_data v' !! u = Some d' /\ same_content d d') /\
  exists l, w_trace w' = w_trace w ++ l /\ forall u' m t, EvHttp u' m t ∉ l.
Proof.
  intros E Hd Hr.
  assert (H : wpt e (fun ev => match ev with EvHttp _ _ _ => False | _ => True end) (get_latest v u off when) w
    (fun r _ => exists v' d', r = Ok (v', inl d') /\ vi_data v' !! u = Some d' /\ same_content d d')).
  { unfold get_latest. rewrite Hd.
    assert (Hn : forall d', vi_data (set_data v (<[u:=d']> (vi_data v))) !! u = Some d') by (intros; cbn; apply lookup_insert).
    destruct (rd_fetched d) eqn:Ef; [wp1; rewrite ?Hd; by exists v, d|]. destruct Hr as [?|Hr]; [done|].
    destruct off; [wp1; rewrite Hn; eexists _, _; repeat split; by rewrite Hn|].
    wp1. wp1; [done|]. specialize (Hr (w_n w)). apply Z.ltb_lt in Hr. rewrite Hr. wp1. rewrite Hn.
    eexists _, _; repeat split; by rewrite Hn. }
  destruct (wpt_run _ _ _ _ _ _ _ H E) as (l & Hl & HJ & HQ). split; [done|]. exists l. split; [done|].
  intros u' m t Hin. rewrite Forall_forall in HJ. by apply (HJ _ Hin).
Qed.

(** ** C56 *)
(** [b] was sent by the source with the ETag [t] (files have none). *)
Definition sent_with (e : env) (g : fs) (src : fetch_source) (b : string) (t : option string) : Prop :=
  match src with
  | SUri u m => exists k q, e_http e k u m q = HReply 200 (Some <$> t) (Some b)
  | SFile p => op_read g p = Some b /\ t = None
  end.
Section sent.
  Context (e : env) (J : event -> Prop).
  Lemma w_fetch_sent src etag w (Q : res fetch_response -> world -> Prop) :
    req_ok J src etag ->
    (forall w' b t, w_fs w' = w_fs w -> sent_with e (w_fs w) src b t -> Q (Ok (FData b t)) w') ->
    (forall w', w_fs w' = w_fs w -> says_304 e src etag -> Q (Ok FUnModified) w') ->
    (forall w' x, w_fs w' = w_fs w -> Q (Err x) w') ->
    wpt e J (fetch src None etag None) w Q.
  Proof.
    intros HJ H1 H2 H3. unfold fetch. wp1. unfold fetch_raw. destruct src as [p|u m].
    - wp1. wp1; [|by apply H3]. wp1. wp1. wp1. wp1. wp1. wp1. by apply H1.
    - wp1. wp1; [done|]. destruct (e_http e (w_n w) u m etag) as [|st hdr body] eqn:E; [wp1; by apply H3|].
      destruct (N.eqb_spec st 200) as [->|Hst].
      + wp1. destruct hdr as [[v|]|].
        * wp1. destruct body as [b|]; wp1; [|by apply H3]. wp1. wp1. wp1. wp1. wp1. apply H1; [done|]. cbn. eauto.
        * wp1. by apply H3.
        * wp1. destruct body as [b|]; wp1; [|by apply H3]. wp1. wp1. wp1. wp1. wp1. apply H1; [done|]. cbn. eauto.
      + destruct (N.eqb_spec st 304) as [->|Hst']; wp1; [|by apply H3]. wp1. wp1. wp1. wp1. wp1.
        apply H2; [done|]. unfold says_304. eauto 10.
  Qed.
  Lemma w_notification_sent f etag w (Q : res notif_response -> world -> Prop) :
    (forall src, located (e_ext e) f (fe_notif f) = Some src -> req_ok J src etag) ->
    (forall w' src b n t, w_fs w' = w_fs w -> located (e_ext e) f (fe_notif f) = Some src ->
       sent_with e (w_fs w) src b t -> x_parse_notif (e_ext e) b = Some n -> Q (Ok (NData n t)) w') ->
    (forall w' src, w_fs w' = w_fs w -> located (e_ext e) f (fe_notif f) = Some src ->
       says_304 e src etag -> Q (Ok NUnmodified) w') ->
    (forall w' x, w_fs w' = w_fs w -> Q (Err x) w') ->
    wpt e J (read_notification_file f etag) w Q.
  Proof.
    intros HJ H1 H2 H3. unfold read_notification_file. wp1. apply w_resolve_source; [|auto].
    intros src Hs. wp1. apply w_fetch_sent; auto.
    - intros w' b t Hw Hb. wp1. wp1. wp1. wp1; [wp1; eauto | auto].
    - intros w' Hw H304. wp1. eauto.
  Qed.
End sent.

(** A lookup keeps the content of the copy, with its time and its ETag, or drops
    the copy, or makes a new one.  A new copy is recorded with the time of the
    lookup and with the ETag of the notification it was made from. *)
Definition made_from (e : env) (g : fs) (f : fetcher) (when : Z) (old : option repo_data) (d' : repo_data) : Prop :=
  exists src b n, located (e_ext e) f (fe_notif f) = Some src /\ sent_with e g src b (rd_etag d') /\
    x_parse_notif (e_ext e) b = Some n /\ rd_last_fetch d' = when /\ up_to_date e g f n old d'.
Theorem C56_origin e v u off when w v' r w' d' :
  get_latest v u off when e w = (Ok (v', r), w') -> vi_data v' !! u = Some d' ->
  (exists d, vi_data v !! u = Some d /\ same_content d d') \/
  (off = false /\ made_from e (w_fs w) (get_fetcher v u) when (vi_data v !! u) d').
Proof.
  intros E Hd'.
  assert (H : wpt e anyev (get_latest v u off when) w (fun r _ => forall v' rr d', r = Ok (v', rr) ->
    vi_data v' !! u = Some d' -> (exists d, vi_data v !! u = Some d /\ same_content d d') \/
    (off = false /\ made_from e (w_fs w) (get_fetcher v u) when (vi_data v !! u) d'))).
  2: { destruct (wpt_run _ _ _ _ _ _ _ H E) as (_ & _ & _ & H'). by eapply H'. }
  clear E v' r w' d' Hd'. set (f := get_fetcher v u).
  assert (HF : fetcher_ok e anyev f) by (intros u' [] t; done).
  assert (Hn : forall d', vi_data (set_data v (<[u:=d']> (vi_data v))) !! u = Some d') by (intros; cbn; apply lookup_insert).
  unfold get_latest. fold f. destruct (vi_data v !! u) as [d|] eqn:Ed.
  - assert (Hk : forall (r : repo_data + err) v' rr d',
      Ok (set_data v (<[u:=mark_fetched d]> (vi_data v)), r) = Ok (v', rr) -> vi_data v' !! u = Some d' ->
      (exists d0, Some d = Some d0 /\ same_content d0 d') \/ (off = false /\ made_from e (w_fs w) f when (Some d) d')).
    { intros r v' rr d' [= <- <-]. rewrite Hn. intros [= <-]. left. by exists d. }
    destruct (rd_fetched d); [wp1; intros v' rr d' [= <- <-]; rewrite Ed; intros [= <-]; left; by exists d|].
    destruct off; [wp1; apply Hk|]. wp1. wp1; [done|]. destruct (Z.ltb _ _); [wp1; apply Hk|].
    wp1. wp1. apply w_notification_sent; [by eauto|..].
    + intros w1 src b n t Hw1 Hloc Hsrv Hp. cbn [push_ev w_fs] in Hw1, Hsrv.
      destruct (bool_decide _ && _) eqn:Esame; [wp1; apply Hk|].
      wp1. wp1. apply w_data_from_deltas; [done|..].
      * intros w2 s' o' Hw2 Hses Hnd Hc Hmax Hex. wp1. intros v' rr d' [= <- <-]. rewrite Hn. intros [= <-].
        right. split; [done|]. exists src, b, n. rewrite Hw1 in Hc. repeat split; try done. by constructor.
      * intros w2 _ Hw2. wp1. wp1. apply w_data_from_snapshot; [done|..].
        -- intros w3 o Hw3 Hsn. wp1. rewrite Hw2, Hw1 in Hsn. intros v' rr d' [= <- <-]. rewrite Hn. intros [= <-].
           right. split; [done|]. exists src, b, n. repeat split; try done. by apply up_snapshot.
        -- intros w3 _ Hw3. wp1. intros v' rr d' [= <- <-]. cbn. rewrite lookup_delete. done.
    + intros w1 src Hw1 Hloc H304. wp1. apply Hk.
    + intros w1 x Hw1. wp1. apply Hk.
  - destruct off; [wp1; intros v' rr d' [= <- <-]; by rewrite Ed|].
    wp1. wp1. unfold retrieve_new_repository. wp1. apply w_notification_sent; [by eauto|..].
    + intros w1 src b n t Hw1 Hloc Hsrv Hp. unfold notif_content. wp1. wp1.
      apply w_data_from_snapshot; [done|..].
      * intros w2 o Hw2 Hsn. wp1. rewrite Hw1 in Hsn. intros v' rr d' [= <- <-]. rewrite Hn. intros [= <-].
        right. split; [done|]. exists src, b, n. repeat split; try done. by apply up_snapshot.
      * intros w2 x Hw2. wp1. intros v' rr d' [= <- <-]. by rewrite Ed.
    + intros w1 src Hw1 Hloc H304. unfold notif_content. wp1. wp1. wp1. intros v' rr d' [= <- <-]. by rewrite Ed.
    + intros w1 x Hw1. wp1. intros v' rr d' [= <- <-]. by rewrite Ed.
Qed.

(** The conditional requests of a validation: only for the notification of a
    repository of which there is a copy, fetched an hour or longer ago, and with
    the ETag of that copy. *)
Definition conditional_ok (e : env) (v : visited) (u : https) (m : fetch_mode) (tag : string) : Prop :=
  exists repo d, vi_data v !! repo = Some d /\ rd_etag d = Some tag /\ rd_fetched d = false /\
    (exists k, (rd_last_fetch d <= e_clock e k - 3600)%Z) /\
    located (e_ext e) (get_fetcher v repo) (fe_notif (get_fetcher v repo)) = Some (SUri u m).
Section conditional.
  Context (e : env) (v0 : visited).
  Definition cond_ev (ev : event) : Prop :=
    match ev with EvHttp u m (Some tag) => conditional_ok e v0 u m tag | _ => True end.
  (** copies not looked up yet are the ones of the start *)
  Definition fresh_part (v : visited) : Prop :=
    vi_fetchers v = vi_fetchers v0 /\
    forall u d, vi_data v !! u = Some d -> rd_fetched d = true \/ vi_data v0 !! u = Some d.
  Lemma plain_req f u : forall src, located (e_ext e) f u = Some src -> req_ok cond_ev src None.
  Proof using. by intros []. Qed.
  Lemma fresh_insert v u d : fresh_part v -> rd_fetched d = true -> fresh_part (set_data v (<[u:=d]> (vi_data v))).
  Proof using.
    intros [H1 H2] Hd. split; [done|]. intros u' d'. cbn. destruct (decide (u' = u)) as [->|Hne].
    - rewrite lookup_insert. intros [= <-]. by left.
    - rewrite lookup_insert_ne by done. apply H2.
  Qed.
  Lemma fresh_delete v u : fresh_part v -> fresh_part (set_data v (delete u (vi_data v))).
  Proof using.
    intros [H1 H2]. split; [done|]. intros u' d'. cbn. rewrite lookup_delete_Some. intros [_ ?]. by apply H2.
  Qed.
  Lemma w_read_bytes_plain f u h w : wpt e cond_ev (read_bytes f u h) w (fun r _ => r <> Panic).
  Proof using. by apply w_read_bytes; [apply plain_req|..]. Qed.
  Lemma w_snapshot_plain n t f when w :
    wpt e cond_ev (data_from_snapshot n t f when) w (fun r _ => r <> Panic /\ forall d, r = Ok d -> rd_fetched d = true).
  Proof using.
    unfold data_from_snapshot, read_snapshot_file. wp1. wp1. eapply wpt_post; [apply w_read_bytes_plain|].
    intros [b|x|] w' Hr; cbn; [|done|done]. wp1. wp1. wp1; [|done]. wp1. split; [done|]. by intros d [= <-].
  Qed.
  Lemma w_apply_plain f l : forall s o w, wpt e cond_ev (apply_deltas f l s o) w (fun r _ => r <> Panic).
  Proof using.
    induction l as [|di l IH]; intros s o w; cbn [apply_deltas]; [by wp1|].
    destruct (negb _); [apply IH|]. wp1. unfold read_delta_file. wp1. eapply wpt_post; [apply w_read_bytes_plain|].
    intros [b|x|] w' Hr; cbn; [|done|done]. wp1. wp1. wp1; [|done]. wp1. wp1. wp1. wp1; [|done]. apply IH.
  Qed.
  Lemma w_deltas_plain n t d f when w :
    wpt e cond_ev (data_from_deltas n t d f when) w (fun r _ => r <> Panic /\ forall d, r = Ok d -> rd_fetched d = true).
  Proof using.
    unfold data_from_deltas. destruct (negb _); [by wp1|]. wp1. wp1.
    destruct (sort_and_verify (e_ext e) None n) as [[n' fine]|] eqn:E; [|by apply sort_and_verify_nolimit in E].
    destruct (negb fine); [by wp1|]. destruct (n_deltas n'); [by wp1|]. destruct (_ <? _)%N; [by wp1|].
    wp1. eapply wpt_post; [apply w_apply_plain|]. intros [[s o]|x|] w' Hr; cbn; [|done|done].
    wp1. split; [done|]. by intros ? [= <-].
  Qed.
  Lemma w_lookup_cond v u off when w : fresh_part v ->
    wpt e cond_ev (get_latest v u off when) w (fun r _ => forall v' rr, r = Ok (v', rr) -> fresh_part v').
  Proof using.
    intros Hv. unfold get_latest. set (f := get_fetcher v u).
    destruct (vi_data v !! u) as [d|] eqn:Ed.
    - destruct (rd_fetched d) eqn:Ef; [wp1; by intros ? ? [= <- <-]|].
      assert (Hk : fresh_part (set_data v (<[u:=mark_fetched d]> (vi_data v)))) by (by apply fresh_insert).
      destruct off; [wp1; by intros ? ? [= <- <-]|]. wp1. wp1; [done|].
      destruct (Z.ltb_spec (e_clock e (w_n w) - 3600) (rd_last_fetch d)); [wp1; by intros ? ? [= <- <-]|].
      wp1. wp1. apply w_read_notification.
      { intros [p|u' m] Hl; [done|]. cbn. destruct (rd_etag d) as [tag|] eqn:Et; [|done].
        exists u, d. destruct (proj2 Hv u d Ed) as [?|H0]; [congruence|]. repeat split; try done; [by exists (w_n w)|].
        rewrite <- Hl. unfold f, get_fetcher. by rewrite (proj1 Hv). }
      + intros w1 src b n t Hw1 _ _ _. destruct (_ && _); [wp1; by intros ? ? [= <- <-]|].
        wp1. wp1. eapply wpt_post; [apply w_deltas_plain|]. intros [d'|x|] w2 [Hp Hr]; [| |done].
        * wp1. intros ? ? [= <- <-]. by apply fresh_insert, Hr.
        * wp1. wp1. eapply wpt_post; [apply w_snapshot_plain|]. intros [d'|x'|] w3 [Hp' Hr']; [| |done].
          -- wp1. intros ? ? [= <- <-]. by apply fresh_insert, Hr'.
          -- wp1. intros ? ? [= <- <-]. by apply fresh_delete.
      + intros w1 src _ _ _. wp1. by intros ? ? [= <- <-].
      + intros w1 x _. wp1. by intros ? ? [= <- <-].
    - destruct off; [wp1; by intros ? ? [= <- <-]|]. wp1. wp1. unfold retrieve_new_repository. wp1.
      apply w_read_notification; [apply plain_req|..].
      + intros w1 src b n t Hw1 _ _ _. unfold notif_content. wp1. wp1. eapply wpt_post; [apply w_snapshot_plain|].
        intros [d'|x'|] w3 [Hp' Hr']; [| |done].
        * wp1. intros ? ? [= <- <-]. by apply fresh_insert, Hr'.
        * wp1. by intros ? ? [= <- <-].
      + intros w1 src _ _ _. unfold notif_content. wp1. wp1. wp1. by intros ? ? [= <- <-].
      + intros w1 x _. wp1. by intros ? ? [= <- <-].
  Qed.
  Lemma w_tree_cond off when k : forall v rc info w, fresh_part v ->
    wpt e cond_ev (validate_tree_at k v rc info off when) w (fun r _ => forall v' rr, r = Ok (v', rr) -> fresh_part v').
  Proof using.
    induction k as [|k IH]; intros v rc info w Hv; cbn [validate_tree_at]; [by wp1|].
    destruct (ci_rrdp info) as [u|]; [|wp1; by intros ? ? [= <- <-]].
    wp1. eapply wpt_post; [by apply w_lookup_cond|]. intros [[v1 r]|x|] w1 H1; [|done|done].
    specialize (H1 _ _ eq_refl). destruct r as [d|x]; [|wp1; by intros ? ? [= <- <-]]. wp1. wp1.
    destruct (check_ca _ _ _ _ _) as [ca kids].
    eapply (wpt_fold_m _ _ _ (fun b _ _ => fresh_part b.1)).
    - done.
    - intros [v' rep] [crc ci] rest w' Hv'. wp1. eapply wpt_post; [by apply IH|].
      intros [[v2 rep2]|x|] w2 H2; [|done|done]. wp1. by eapply H2.
    - intros [v' rep] w' Hv'. by intros ? ? [= <- <-].
  Qed.
End conditional.
Theorem C56_requests vd off when e w r w' :
  validate_at vd off when e w = (r, w') ->
  exists l, w_trace w' = w_trace w ++ l /\
    forall u m tag, EvHttp u m (Some tag) ∈ l -> conditional_ok e (vd_repos vd) u m tag.
Proof.
  intros E.
  assert (H : wpt e (cond_ev e (vd_repos vd)) (validate_at vd off when) w (fun _ _ => True)).
  2: { destruct (wpt_run _ _ _ _ _ _ _ H E) as (l & Hl & HJ & _). exists l. split; [done|]. intros u m tag Hin.
       rewrite Forall_forall in HJ. by apply (HJ _ Hin). }
  clear E. unfold validate_at. wp1.
  eapply (wpt_fold_m _ _ _ (fun b _ _ => fresh_part (vd_repos vd) b.1)).
  - split; [done|]. by right.
  - intros [v rep] t rest w1 Hv. wp1. unfold validate_ta_at. wp1.
    apply w_tal_validate; [|done|by destruct (tl_source t)]. intros w2 rc Hw2 _. wp1. wp1; [|done]. wp1. wp1.
    eapply wpt_post; [by apply w_tree_cond|]. intros [[v2 rep2]|x|] w3 H2; [|done|done]. wp1. by eapply H2.
  - intros [v rep] w1 Hv. cbn. by wp1.
Qed.
Print Assumptions C55_recent.
Print Assumptions C56_origin.
Print Assumptions C56_requests.
(** a server that sends the ETag "v2", and knows the version "v1" *)
Definition tag_env (t : Z) : env :=
  with_http (demo_env PropsValidator.docs3 t) (fun k u m q =>
    if bool_decide (q = Some "v1") then HReply 304 None None
    else match Demo.assoc (tree_docs ++ PropsValidator.docs3) u with
         | Some b => HReply 200 (Some (Some "v2")) (Some b)
         | None => HReply 404 None (Some "")
         end).
Definition old_copy (tag : option string) (o : gmap string string) : repo_data := mkRD tag 100 false uuid_A 1 o.
Definition has_request (l : list event) (u : https) (t : option string) : bool :=
  existsb (fun ev => match ev with EvHttp u' Insecure t' => String.eqb u u' && bool_decide (t = t') | _ => false end) l.
(** half an hour later nothing is asked; two hours later the notification is asked
    for and a new copy made *)
Example C55_applies :
  let d := old_copy (Some "v0") (rd_objects old_data) in
  let v := mkVisited ∅ {[notif_uri := d]} in
  (forall k, (e_clock (tag_env 1900) k - 3600 < rd_last_fetch d)%Z) /\
  w_trace (get_latest v notif_uri false 1900 (tag_env 1900) start).2 = [EvClock 1900] /\
  let '(r, w) := get_latest v notif_uri false 7300 (tag_env 7300) start in
  match r with Ok (v', inl d') => rd_etag d' = Some "v2" /\ rd_last_fetch d' = 7300%Z /\ rd_serial d' = 3%N | _ => False end /\
  has_request (w_trace w) notif_uri (Some "v0") = true.
Proof. vm_compute. repeat split. Qed.
(** a validation that sends a conditional request and others *)
Example C56_applies :
  let vd := mkValidator [tree_tal] (mkVisited ∅ {[notif_uri := old_copy (Some "v1") tree_objs]}) in
  let l := w_trace (validate_at vd false 9000 (tag_env 9000) start).2 in
  has_request l notif_uri (Some "v1") = true /\ has_request l ta_uri None = true /\ has_request l other_uri None = true.
Proof. vm_compute. repeat split. Qed.
