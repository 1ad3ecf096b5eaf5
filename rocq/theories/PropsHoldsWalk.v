(** * All requests of a validation: what they are for (C57), and that what was
    obtained is not asked for again (C37) *)
From Verif Require Import TreeWalk PropsValidator PropsHoldsCache Demo DemoTree.
From Verif Require Import FsWf.

(** The notification of the repository that [f] fetches from, or a file listed in
    a notification that is offered there. *)
Definition repo_file (e : env) (g : fs) (f : fetcher) (uri : https) : Prop :=
  uri = fe_notif f \/
  exists n, offered_notif e g f n /\
    (uri = n_snap_uri n \/ exists di, di ∈ n_deltas n /\ uri = di_uri di).
(** A part of a validation: a trust anchor certificate is fetched, or a repository
    looked up, and that succeeds or not. *)
Inductive part := PTa (src : fetch_source) | PRepo (u : https) (ok : bool).
Definition asked_for (e : env) (g : fs) (off : bool) (when : Z) (tals : list tal) (v0 : visited) (p : part) (l : list event) : Prop :=
  match p with
  | PTa src => (exists t, t ∈ tals /\ tl_source t = src) /\
      forall u m q, EvHttp u m q ∈ l -> src = SUri u m /\ q = None
  | PRepo repo ok =>
      (* named in a certificate that was found valid, below a trust anchor *)
      (exists v', stable v0 v' /\ named e when g tals v' repo) /\
      forall u m q, EvHttp u m q ∈ l -> off = false /\
        exists uri, repo_file e g (get_fetcher v0 repo) uri /\
          located (e_ext e) (get_fetcher v0 repo) uri = Some (SUri u m)
  end.
(** once a lookup of a repository has succeeded, later ones succeed at once *)
Definition not_repeated (parts : list (part * list event)) : Prop :=
  forall i j repo ok l l', (i < j)%nat -> parts !! i = Some (PRepo repo true, l) -> parts !! j = Some (PRepo repo ok, l') ->
    ok = true /\ l' = [].

Section validation.
  Context (e : env) (off : bool) (when : Z) (tals : list tal) (v0 : visited) (w0 : world).
  Let g := w_fs w0.
  Definition sofar (v : visited) (w : world) : Prop :=
    w_fs w = g /\ stable v0 v /\ exists parts,
      w_trace w = w_trace w0 ++ concat parts.*2 /\
      (forall p l, (p, l) ∈ parts -> asked_for e g off when tals v0 p l) /\
      (forall i u l, parts !! i = Some (PRepo u true, l) -> exists d, vi_data v !! u = Some d /\ rd_fetched d = true) /\
      not_repeated parts.
  Lemma concat_snoc (parts : list (part * list event)) p l : concat (parts ++ [(p, l)]).*2 = concat parts.*2 ++ l.
  Proof using. rewrite fmap_app, concat_app. cbn. by rewrite (app_nil_r l). Qed.

  Lemma sofar_tal v t w : sofar v w -> t ∈ tals -> wpt e (fun _ => True) (tal_validate_at t when) w (fun _ w' => sofar v w').
  Proof using.
    intros (Hw & Hs & parts & Et & Hp & Hd & Hn) Ht.
    eapply wpt_conseq; [apply wpt_seen, (w_tal_validate e (fun ev => match ev with EvHttp u m q => tl_source t = SUri u m /\ q = None | _ => True end)
      when t w (fun _ w' => w_fs w' = w_fs w))|done|].
    - done.
    - done.
    - by destruct (tl_source t).
    - intros r w' [(l & El & HJ) Hw']. split; [congruence|]. split; [done|]. exists (parts ++ [(PTa (tl_source t), l)]).
      split; [|split; [|split]].
      + by rewrite concat_snoc, El, Et, app_assoc.
      + intros p l' [Hin|Hin]%elem_of_app; [by apply Hp|]. apply elem_of_list_singleton in Hin as [= -> ->].
        split; [by exists t|]. intros u m q Hq. rewrite Forall_forall in HJ. apply (HJ _ Hq).
      + intros i u l' [Hi|[_ Hi]]%lookup_app_Some; [by eapply Hd|]. apply list_lookup_singleton_Some in Hi as [_ Hi]. done.
      + intros i j repo ok l1 l2 Hij [Hi|[Hi1 Hi]]%lookup_app_Some; [|apply list_lookup_singleton_Some in Hi as [_ Hi]; done].
        intros [Hj|[_ Hj]]%lookup_app_Some; [by eapply Hn|]. apply list_lookup_singleton_Some in Hj as [_ Hj]. done.
  Qed.
  Lemma sofar_lookup v u w : sofar v w -> named e when g tals v u ->
    wpt e (fun _ => True) (get_latest v u off when) w (fun r w' => forall v' rr, r = Ok (v', rr) -> stable v v' ->
      (forall d, rr = inl d -> vi_data v' !! u = Some d /\ rd_fetched d = true) -> sofar v' w').
  Proof using.
    intros (Hw & Hs & parts & Et & Hp & Hd & Hn) Hnm.
    assert (Hf : get_fetcher v u = get_fetcher v0 u) by (unfold get_fetcher; by rewrite (proj1 Hs)).
    set (RJ := fun ev => match ev with
      | EvHttp u' m q => off = false /\ exists uri, repo_file e g (get_fetcher v0 u) uri /\
          located (e_ext e) (get_fetcher v0 u) uri = Some (SUri u' m)
      | _ => True end).
    assert (Hwp : wpt e RJ (get_latest v u off when) w (fun r w' => w_fs w' = w_fs w /\ exists v' rr, r = Ok (v', rr))).
    { apply w_lookup_requests; [done| |]; rewrite Hf.
      - intros Ho [p|u' m] t Hl _; [done|]. split; [done|]. exists (fe_notif (get_fetcher v0 u)). split; [by left|done].
      - intros Ho n ur h [p|u' m] Hof Hur Hl; [done|]. split; [done|]. exists ur. rewrite Hw in Hof. split; [|done]. right. exists n.
        split; [done|]. destruct Hur as [[-> _]|(di & ? & -> & _)]; [by left|right; by exists di]. }
    assert (Hold : forall d, vi_data v !! u = Some d -> rd_fetched d = true -> get_latest v u off when e w = (Ok (v, inl d), w)).
    { intros d Ed Ef. unfold get_latest. by rewrite Ed, Ef. }
    destruct Hwp as (l & El & HJ & Hw' & _). exists l. split; [done|]. split; [by apply Forall_forall|].
    intros v' rr Er Hs' Hr. split; [congruence|]. split; [by transitivity v|].
    exists (parts ++ [(PRepo u (match rr with inl _ => true | inr _ => false end), l)]).
    split; [|split; [|split]].
    - by rewrite concat_snoc, El, Et, app_assoc.
    - intros p l' [Hin|Hin]%elem_of_app; [by apply Hp|]. apply elem_of_list_singleton in Hin as [= -> ->].
      split; [by exists v|]. intros u' m q Hq. rewrite Forall_forall in HJ. apply (HJ _ Hq).
    - intros i u' l' [Hi|[_ Hi]]%lookup_app_Some.
      + destruct (Hd _ _ _ Hi) as (d & H1 & H2). exists d. split; [|done]. by apply Hs'.
      + apply list_lookup_singleton_Some in Hi as [_ Hi]. injection Hi as -> Hrr _. destruct rr as [d|]; [|done]. exists d. by apply Hr.
    - intros i j repo ok l1 l2 Hij [Hi|[Hi1 Hi]]%lookup_app_Some.
      + intros [Hj|[_ Hj]]%lookup_app_Some; [by eapply Hn|]. apply list_lookup_singleton_Some in Hj as [_ Hj].
        injection Hj as -> <- <-. destruct (Hd _ _ _ Hi) as (d & H1 & H2). rewrite (Hold _ H1 H2) in Er, El.
        injection Er as <- <-. split; [done|]. cbn in El. rewrite <- (app_nil_r (w_trace w)) in El at 1. by apply app_inv_head in El.
      + intros [Hj|[Hj1 Hj]]%lookup_app_Some; [apply lookup_lt_Some in Hj; lia|].
        apply list_lookup_singleton_Some in Hi as [Hi _]. apply list_lookup_singleton_Some in Hj as [Hj _]. lia.
  Qed.
End validation.

(** A validation consists of such parts. *)
Theorem C37_run vd off when e w r w' : order_ok (e_ext e) ->
  validate_at vd off when e w = (r, w') ->
  exists parts, w_trace w' = w_trace w ++ concat parts.*2 /\
    (forall p l, (p, l) ∈ parts -> asked_for e (w_fs w) off when (vd_tals vd) (vd_repos vd) p l) /\
    not_repeated parts.
Proof.
  intros Hx E. destruct vd as [tals v0]. cbn [vd_tals vd_repos].
  pose proof (walk_all e (fun _ => True) off when (w_fs w) tals (sofar e off when tals v0 w) Hx) as H.
  assert (Hall : wpt e (fun _ => True) (validate_at (mkValidator tals v0) off when) w (fun r w' => exists v', sofar e off when tals v0 w v' w')).
  { eapply wpt_post; [apply H|].
    - by intros v1 w1 (? & _).
    - intros v1 u w1. apply sofar_lookup.
    - intros v1 t w1. apply sofar_tal.
    - split; [done|]. split; [done|]. exists []. split; [by rewrite app_nil_r|]. split; [by intros p l ?%elem_of_nil|].
      split; [by intros i u l|]. by intros i j.
    - intros [[vd' rep]|x|] w1; [intros [? _]; eauto|intros (v1 & ? & _); eauto|intros (v1 & ? & _); eauto]. }
  destruct (wpt_run _ _ _ _ _ _ _ Hall E) as (_ & _ & _ & v' & _ & _ & parts & H1 & H2 & _ & H3). by exists parts.
Qed.
(** Every request of a validation is for a trust anchor certificate, or for the
    notification, or a file listed in an offered notification, of a repository
    named in a certificate below a trust anchor. *)
Theorem C57_requests vd off when e w r w' : order_ok (e_ext e) ->
  validate_at vd off when e w = (r, w') ->
  exists l, w_trace w' = w_trace w ++ l /\ forall u m q, EvHttp u m q ∈ l ->
    (exists t, t ∈ vd_tals vd /\ tl_source t = SUri u m /\ q = None) \/
    (off = false /\ exists v' repo uri, stable (vd_repos vd) v' /\
       named e when (w_fs w) (vd_tals vd) v' repo /\
       repo_file e (w_fs w) (get_fetcher (vd_repos vd) repo) uri /\
       located (e_ext e) (get_fetcher (vd_repos vd) repo) uri = Some (SUri u m)).
Proof.
  intros Hx E. destruct (C37_run _ _ _ _ _ _ _ Hx E) as (parts & Et & Hp & _). exists (concat parts.*2).
  split; [done|]. intros u m q Hin. apply elem_of_list_In, in_concat in Hin as (l & Hl & Hin).
  apply elem_of_list_In in Hl, Hin. apply elem_of_list_fmap in Hl as ([p l'] & -> & Hl). cbn in Hin.
  specialize (Hp _ _ Hl). destruct p as [src|repo ok].
  - destruct Hp as [(t & Ht & <-) H]. destruct (H _ _ _ Hin) as [H1 H2]. left. by exists t.
  - destruct Hp as [(v' & Hs & Hn) H]. destruct (H _ _ _ Hin) as (Ho & uri & H1 & H2). right. split; [done|].
    by exists v', repo, uri.
Qed.
Print Assumptions C37_run.
Print Assumptions C57_requests.
(** The example tree has requests of both kinds. *)
Example C57_applies : order_ok (e_ext tree_env) /\
  has_request (w_trace tree_result.2) ta_uri None = true /\ has_request (w_trace tree_result.2) other_uri None = true.
Proof. split; [apply demo_order_ok|]. vm_compute. done. Qed.
