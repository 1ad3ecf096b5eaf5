(** * Invariants of a whole validation, by lookups and trust anchors *)
From Verif Require Export TreeProofs.

Lemma wpt_seen {A} e J (m : M A) w Q : wpt e J m w Q ->
  wpt e J m w (fun r w' => (exists l, w_trace w' = w_trace w ++ l /\ Forall J l) /\ Q r w').
Proof. intros (l & H1 & H2 & H3). exists l. repeat split; eauto. Qed.
Lemma wpt_any {A} e J (m : M A) w Q : wpt e J m w Q -> wpt e (fun _ => True) m w Q.
Proof. intros H. by eapply wpt_conseq. Qed.

Section parts.
  Context (e : env) (J : event -> Prop).
  Lemma w_snapshot_requests n t f when w :
    (forall src, located (e_ext e) f (n_snap_uri n) = Some src -> req_ok J src None) ->
    wpt e J (data_from_snapshot n t f when) w (fun r w' => w_fs w' = w_fs w /\ r <> Panic /\ forall d, r = Ok d -> rd_fetched d = true).
  Proof using.
    intros HJ. unfold data_from_snapshot, read_snapshot_file. wp1. wp1. apply w_read_bytes; [done| |done].
    intros w' src b Hw _ _ _. wp1. wp1. wp1; [|done]. wp1. split; [done|]. split; [done|]. by intros d [= <-].
  Qed.
  Lemma w_apply_requests f l g :
    (forall di src, di ∈ l -> located (e_ext e) f (di_uri di) = Some src -> req_ok J src None) ->
    forall s o w, w_fs w = g -> wpt e J (apply_deltas f l s o) w (fun r w' => w_fs w' = g /\ r <> Panic).
  Proof using.
    induction l as [|di l IH]; intros HJ s o w Hw; cbn [apply_deltas]; [by wp1|].
    assert (IH' := IH (fun di' src Hd => HJ di' src (elem_of_list_further _ _ _ Hd))). clear IH.
    destruct (negb _); [by apply IH'|]. wp1. unfold read_delta_file. wp1. apply w_read_bytes.
    - intros src. apply HJ. by left.
    - intros w' src b Hw' _ _ _. wp1. wp1. wp1; [|split; [congruence|done]]. wp1. wp1. wp1. wp1; [|split; [congruence|done]].
      apply IH'. congruence.
    - intros w' x Hw'. split; [congruence|done].
  Qed.
  Lemma w_deltas_requests n t d f when w :
    (forall di src, di ∈ n_deltas n -> located (e_ext e) f (di_uri di) = Some src -> req_ok J src None) ->
    wpt e J (data_from_deltas n t d f when) w (fun r w' => w_fs w' = w_fs w /\ r <> Panic /\ forall d, r = Ok d -> rd_fetched d = true).
  Proof using.
    intros HJ. unfold data_from_deltas. destruct (negb _); [by wp1|]. wp1. wp1.
    destruct (sort_and_verify (e_ext e) None n) as [[n' fine]|] eqn:E; [|by apply sort_and_verify_nolimit in E].
    destruct fine; cbn [negb]; [|by wp1]. apply sort_and_verify_perm in E as [Hp _].
    destruct (n_deltas n') as [|first rest] eqn:En; [by wp1|]. destruct (_ <? _)%N; [by wp1|].
    wp1. eapply wpt_post.
    - eapply (w_apply_requests f (first :: rest) (w_fs w)); [|done]. intros di src Hdi. apply HJ. by rewrite <- Hp.
    - intros [[s o]|x|] w' [Hw Hr]; cbn; [|done|done]. wp1. split; [done|]. split; [done|]. by intros ? [= <-].
  Qed.

  (** the requests of a lookup: for the notification, with the ETag of the copy if
      there is one that is due, and for what an offered notification lists *)
  Lemma w_lookup_requests v u off when w :
    (forall t, J (EvClock t)) ->
    (off = false -> forall src t, located (e_ext e) (get_fetcher v u) (fe_notif (get_fetcher v u)) = Some src ->
       match vi_data v !! u with
       | None => t = None
       | Some d => rd_fetched d = false /\ t = rd_etag d /\ exists k, (rd_last_fetch d <= e_clock e k - 3600)%Z
       end -> req_ok J src t) ->
    (off = false -> forall n ur h src, offered_notif e (w_fs w) (get_fetcher v u) n ->
       (ur = n_snap_uri n /\ h = n_snap_hash n \/ exists di, di ∈ n_deltas n /\ ur = di_uri di /\ h = di_hash di) ->
       located (e_ext e) (get_fetcher v u) ur = Some src -> req_ok J src None) ->
    wpt e J (get_latest v u off when) w (fun r w' => w_fs w' = w_fs w /\ exists v' rr, r = Ok (v', rr)).
  Proof using.
    intros HC H1 H2. unfold get_latest. set (f := get_fetcher v u) in *.
    destruct (vi_data v !! u) as [d|] eqn:Ed.
    - destruct (rd_fetched d) eqn:Ef; [wp1; eauto|].
      destruct off; [wp1; eauto|]. specialize (H1 eq_refl). specialize (H2 eq_refl). wp1. wp1; [done|].
      destruct (Z.ltb_spec (e_clock e (w_n w) - 3600) (rd_last_fetch d)); [wp1; eauto|].
      wp1. wp1. apply w_read_notification.
      { intros src Hl. apply H1; eauto. }
      + intros w1 src b n t Hw1 Hl Hs Hp. cbn [push_ev w_fs] in Hw1, Hs.
        assert (Hoff : offered_notif e (w_fs w) f n) by by exists src, b.
        destruct (_ && _); [wp1; eauto|].
        wp1. wp1. eapply wpt_post.
        { apply w_deltas_requests. intros di src' Hdi. eapply (H2 n _ (di_hash di)); [done|]. right. eauto. }
        intros [d'|x|] w2 (Hw2 & Hp' & Hr); [| |done].
        * wp1. split; [congruence|eauto].
        * wp1. wp1. eapply wpt_post; [apply w_snapshot_requests; intros src'; eapply (H2 n _ (n_snap_hash n)); [done|by left]|].
          intros [d'|x'|] w3 (Hw3 & Hp3 & Hr'); [| |done]; wp1; (split; [congruence|eauto]).
      + intros w1 src Hw1 _ _. wp1. eauto.
      + intros w1 x Hw1. wp1. eauto.
    - destruct off; [wp1; eauto|]. specialize (H1 eq_refl). specialize (H2 eq_refl).
      wp1. wp1. unfold retrieve_new_repository. wp1. apply w_read_notification; [eauto|..].
      + intros w1 src b n t Hw1 Hl Hs Hp. unfold notif_content. wp1. wp1.
        assert (Hoff : offered_notif e (w_fs w) f n) by by exists src, b.
        eapply wpt_post; [apply w_snapshot_requests; intros src'; eapply (H2 n _ (n_snap_hash n)); [done|by left]|].
        intros [d'|x'|] w3 (Hw3 & Hp' & Hr'); [| |done]; wp1; (split; [congruence|eauto]).
      + intros w1 src Hw1 _ _. unfold notif_content. wp1. wp1. wp1. eauto.
      + intros w1 x Hw1. wp1. eauto.
  Qed.
End parts.

Section walk.
  Context (e : env) (J : event -> Prop) (off : bool) (when : Z) (g : fs) (tals : list tal).
  Context (I : visited -> world -> Prop).
  (** [u] is the repository of a certificate that is reached from a trust anchor *)
  Definition reached (v : visited) (rc : rcert) : Prop :=
    exists t ta, t ∈ tals /\ ta_of e g when t ta /\ rtc (kid (e_ext e) when v) ta rc.
  Definition named (v : visited) (u : https) : Prop :=
    exists rc info, reached v rc /\ details rc info /\ ci_rrdp info = Some u.
  Context (Hx : order_ok (e_ext e)) (Hg : forall v w, I v w -> w_fs w = g).
  Context (Hlook : forall v u w, I v w -> named v u ->
    wpt e J (get_latest v u off when) w (fun r w' => forall v' rr, r = Ok (v', rr) -> stable v v' ->
      (forall d, rr = inl d -> vi_data v' !! u = Some d /\ rd_fetched d = true) -> I v' w')).
  Context (Htal : forall v t w, I v w -> t ∈ tals ->
    wpt e J (tal_validate_at t when) w (fun r w' => I v w')).

  Lemma walk_lookup v u w : I v w -> named v u ->
    wpt e J (get_latest v u off when) w (fun r w' => exists v' rr, r = Ok (v', rr) /\ I v' w' /\ stable v v' /\
      (forall d, rr = inl d -> vi_data v' !! u = Some d /\ rd_fetched d = true)).
  Proof using Hlook.
    intros HI Hn. eapply wpt_conseq; [apply wpt_and; [by apply Hlook|]|by intros ev [H _]|].
    - eapply (w_get_latest e (fun _ => True) v u off when w (fun r w' => exists v' rr, r = Ok (v', rr) /\ stable v v' /\
        (forall d, rr = inl d -> vi_data v' !! u = Some d /\ rd_fetched d = true))).
      + intros _ _. split; [done|]. intros ? []; done.
      + intros w' v' r _ Hs _ _ Hr _. eauto 10.
    - intros r w' [H1 (v' & rr & -> & Hs & Hr)]. exists v', rr. split; [done|]. split; [by eapply H1|done].
  Qed.
  Lemma reached_stable v v' rc : stable v v' -> reached v rc -> reached v' rc.
  Proof using. intros Hs (t & ta & ? & ? & ?). exists t, ta. split_and!; [done..|]. by eapply kids_stable. Qed.

  Lemma walk_tree k : forall v rc info w, I v w -> reached v rc -> details rc info ->
    wpt e J (validate_tree_at k v rc info off when) w (fun r w' =>
      match r with Ok (v', _) => I v' w' /\ stable v v' | _ => exists v', I v' w' /\ stable v v' end).
  Proof using Hx Hg Hlook Htal.
    induction k as [|k IH]; intros v rc info w HI Hrc Hi; cbn [validate_tree_at]; [wp1; by exists v|].
    destruct (ci_rrdp info) as [u|] eqn:Eu; [|by wp1].
    wp1. eapply wpt_post; [apply walk_lookup; [done|by exists rc, info]|].
    intros r w1 (v1 & rr & -> & HI1 & Hs1 & Hr). destruct rr as [d|x]; [|by wp1].
    destruct (Hr d eq_refl) as [Hd Hdf]. wp1. wp1.
    pose proof (check_ca_kid (e_ext e) rc info (rd_objects d) when) as Hkids.
    destruct (check_ca (e_ext e) rc info (rd_objects d) when) as [ca kids]. cbn [snd] in *.
    eapply (wpt_fold_m _ _ _ (fun b rest w' => I b.1 w' /\ stable v1 b.1 /\ exists dn, kids = dn ++ rest)).
    - split; [done|]. split; [done|]. by exists [].
    - intros [v' rep] [crc ci] rest w' (HI' & Hs' & dn & ->). cbn [fst] in *.
      destruct (Hkids crc ci Hx) as (m & cr & cu & uri & Ha & Hk); [apply elem_of_app; right; by left|].
      assert (Hkid : kid (e_ext e) when v' rc crc).
      { exists info, u, d, m, cr, cu, uri, ci. destruct Hs' as [_ Hs']. auto 10. }
      assert (Hci : details crc ci) by (by destruct Hk as (b & c & _ & _ & _ & _ & _ & ?)).
      assert (Hrc' : reached v' crc).
      { destruct (reached_stable _ _ _ Hs' (reached_stable _ _ _ Hs1 Hrc)) as (t & ta & H1 & H2 & H3).
        exists t, ta. split_and!; [done..|]. eapply rtc_r; eauto. }
      wp1. eapply wpt_post; [by apply IH|]. intros [[v2 rep2]|x|] w2.
      + intros [HI2 Hs2]. wp1. split; [done|]. split; [by transitivity v'|]. exists (dn ++ [(crc, ci)]). by rewrite <- app_assoc.
      + intros (v2 & HI2 & Hs2). exists v2. split; [done|]. transitivity v'; [by transitivity v1|done].
      + intros (v2 & HI2 & Hs2). exists v2. split; [done|]. transitivity v'; [by transitivity v1|done].
    - intros [v' rep] w' (HI' & Hs' & _). split; [done|]. by transitivity v1.
  Qed.

  Lemma walk_all v w : I v w -> wpt e J (validate_at (mkValidator tals v) off when) w (fun r w' =>
      match r with Ok (vd', _) => I (vd_repos vd') w' /\ stable v (vd_repos vd') | _ => exists v', I v' w' /\ stable v v' end).
  Proof using Hx Hg Hlook Htal.
    intros HI. unfold validate_at. wp1. cbn [vd_repos vd_tals].
    eapply (wpt_fold_m _ _ _ (fun b rest w' => I b.1 w' /\ stable v b.1 /\ exists dn, tals = dn ++ rest)).
    - split; [done|]. split; [done|]. by exists [].
    - intros [v' rep] t rest w1 (HI1 & Hs1 & dn & Etals). cbn [fst] in *. wp1. unfold validate_ta_at. wp1.
      assert (Ht : t ∈ tals) by (rewrite Etals; apply elem_of_app; right; by left).
      eapply wpt_conseq; [apply wpt_and; [by apply (Htal v' t)|]|by intros ev [H _]|].
      { apply (w_tal_validate e (fun _ => True) when t w1 (fun r w' => forall rc, r = Ok rc -> w_fs w' = w_fs w1 /\ ta_of e (w_fs w1) when t rc)).
        - by intros w' rc Hw Hta rc' [= <-].
        - done.
        - by destruct (tl_source t). }
      intros [rc|x|] w2 [HI2 Hta]; [|by exists v'..]. destruct (Hta rc eq_refl) as [Hw2 Hta']. rewrite (Hg _ _ HI1) in Hta'.
      wp1. wp1; [|by exists v']. wp1. wp1.
      eapply wpt_post.
      + apply walk_tree; [exact HI2| |by apply details_eq]. exists t, rc. done.
      + intros [[v2 rep2]|x|] w3; cbn.
        * intros [HI3 Hs3]. wp1. split; [done|]. split; [by transitivity v'|]. exists (dn ++ [t]). by rewrite <- app_assoc.
        * intros (v2 & HI3 & Hs3). exists v2. split; [done|]. by transitivity v'.
        * intros (v2 & HI3 & Hs3). exists v2. split; [done|]. by transitivity v'.
    - intros [v' rep] w1 (HI1 & Hs1 & _). cbn. wp1. done.
  Qed.
End walk.
