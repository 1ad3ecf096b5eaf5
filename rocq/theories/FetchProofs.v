(** * What fetching does *)
From Verif Require Export WpTac StringProofs.

(** Where a fetcher looks for a URI. *)
Definition located (x : ext) (f : fetcher) (u : https) : option fetch_source :=
  match fe_map f with
  | None => Some (SUri u (fe_mode f))
  | Some m =>
      match strip_prefix (fm_base m) u with
      | None => None
      | Some rel =>
          match fm_fetch m with
          | SFile b => Some (SFile (path_join b rel))
          | SUri b md => (fun u' => SUri u' md) <$> https_join x b rel
          end
      end
  end.

(** [b] is what the source has at this place: the body of a 200 reply to some
    request, or the content of the file in the tree [g]. *)
Definition served (e : env) (g : fs) (src : fetch_source) (b : string) : Prop :=
  match src with
  | SUri u m => exists k t hdr, e_http e k u m t = HReply 200 hdr (Some b)
  | SFile p => op_read g p = Some b
  end.
(** the source says 304 to a request with this [If-None-Match] *)
Definition says_304 (e : env) (src : fetch_source) (etag : option string) : Prop :=
  exists u m k hdr b, src = SUri u m /\ e_http e k u m etag = HReply 304 hdr b.

Section fetch.
  Context (e : env) (J : event -> Prop).

  Lemma w_resolve_source f u w (Q : res fetch_source -> world -> Prop) :
    (forall src, located (e_ext e) f u = Some src -> Q (Ok src) w) ->
    (forall x, located (e_ext e) f u = None -> Q (Err x) w) ->
    wpt e J (resolve_source f u) w Q.
  Proof.
    intros H1 H2. unfold resolve_source, located in *. destruct (fe_map f) as [m|]; [|apply wpt_ret; auto].
    unfold map_source. destruct (strip_prefix (fm_base m) u) as [rel|]; [|apply wpt_fail; auto].
    unfold source_join. destruct (fm_fetch m) as [b|b md]; [apply wpt_ret; auto|].
    wp1. wp1. wp1. wp1.
    - wp1. rewrite H in H1. by apply H1.
    - apply H2. by rewrite H.
  Qed.

  (** [P] constrains the request; for files there is none. *)
  Definition req_ok (src : fetch_source) (etag : option string) : Prop :=
    match src with SUri u m => J (EvHttp u m etag) | SFile _ => True end.

  Lemma w_fetch_raw src etag w (Q : res fetch_response -> world -> Prop) :
    req_ok src etag ->
    (forall w' b t, w_fs w' = w_fs w -> served e (w_fs w) src b -> Q (Ok (FData b t)) w') ->
    (forall w', w_fs w' = w_fs w -> says_304 e src etag -> Q (Ok FUnModified) w') ->
    (forall w' x, w_fs w' = w_fs w -> Q (Err x) w') ->
    wpt e J (fetch_raw src etag) w Q.
  Proof.
    intros HJ H1 H2 H3. unfold fetch_raw. destruct src as [p|u m].
    - wp1. wp1; [|by apply H3]. wp1. by apply H1.
    - wp1. wp1; [done|]. destruct (e_http e (w_n w) u m etag) as [|st hdr body] eqn:E; [wp1; by apply H3|].
      destruct (N.eqb_spec st 200) as [->|Hst].
      + wp1. destruct hdr as [[v|]|].
        * wp1. destruct body as [b|]; wp1; [|by apply H3]. apply H1; [done|]. cbn. eauto.
        * wp1. by apply H3.
        * wp1. destruct body as [b|]; wp1; [|by apply H3]. apply H1; [done|]. cbn. eauto.
      + destruct (N.eqb_spec st 304) as [->|Hst']; wp1; [|by apply H3].
        apply H2; [done|]. unfold says_304. eauto 10.
  Qed.

  Lemma w_fetch_mem src h etag w (Q : res fetch_response -> world -> Prop) :
    req_ok src etag ->
    (forall w' b t, w_fs w' = w_fs w -> served e (w_fs w) src b ->
       (forall hh, h = Some hh -> x_hash (e_ext e) b = hh) -> Q (Ok (FData b t)) w') ->
    (forall w', w_fs w' = w_fs w -> says_304 e src etag -> Q (Ok FUnModified) w') ->
    (forall w' x, w_fs w' = w_fs w -> Q (Err x) w') ->
    wpt e J (fetch src h etag None) w Q.
  Proof.
    intros HJ H1 H2 H3. unfold fetch. wp1. apply w_fetch_raw; [done|..].
    - intros w' b t Hw Hb. wp1. wp1. wp1. destruct h as [hh|].
      + destruct (hash_matches (e_ext e) hh b) eqn:E; wp1; [|by apply H3].
        wp1. apply H1; auto. intros ? [= <-]. by apply String.eqb_eq in E.
      + wp1. wp1. by apply H1.
    - intros w' Hw Hs. wp1. wp1. wp1. destruct h; wp1; wp1; by apply H2.
    - auto.
  Qed.

  Lemma w_read_notification f etag w (Q : res notif_response -> world -> Prop) :
    (forall src, located (e_ext e) f (fe_notif f) = Some src -> req_ok src etag) ->
    (forall w' src b n t, w_fs w' = w_fs w -> located (e_ext e) f (fe_notif f) = Some src ->
       served e (w_fs w) src b -> x_parse_notif (e_ext e) b = Some n -> Q (Ok (NData n t)) w') ->
    (forall w' src, w_fs w' = w_fs w -> located (e_ext e) f (fe_notif f) = Some src ->
       says_304 e src etag -> Q (Ok NUnmodified) w') ->
    (forall w' x, w_fs w' = w_fs w -> Q (Err x) w') ->
    wpt e J (read_notification_file f etag) w Q.
  Proof.
    intros HJ H1 H2 H3. unfold read_notification_file. wp1. apply w_resolve_source; [|auto].
    intros src Hs. wp1. apply w_fetch_mem; auto.
    - intros w' b t Hw Hb _. wp1. wp1. wp1. wp1; [wp1; eauto | auto].
    - intros w' Hw H304. wp1. eauto.
  Qed.

  Lemma w_read_bytes f u h w (Q : res string -> world -> Prop) :
    (forall src, located (e_ext e) f u = Some src -> req_ok src None) ->
    (forall w' src b, w_fs w' = w_fs w -> located (e_ext e) f u = Some src ->
       served e (w_fs w) src b -> x_hash (e_ext e) b = h -> Q (Ok b) w') ->
    (forall w' x, w_fs w' = w_fs w -> Q (Err x) w') ->
    wpt e J (read_bytes f u h) w Q.
  Proof.
    intros HJ H1 H2. unfold read_bytes. wp1. apply w_resolve_source; [|auto].
    intros src Hs. wp1. apply w_fetch_mem; auto.
    - intros w' b t Hw Hb Hh. unfold try_into_data. wp1. eauto.
    - intros w' Hw H304. unfold try_into_data. wp1. auto.
  Qed.
End fetch.
