(** * Proofs about validation of the whole tree *)
From Verif Require Export ValidatorProofs.

Lemma wpt_fold_m {A B} e J (f : B -> A -> M B) (I : B -> list A -> world -> Prop) b l w
    (Q : res B -> world -> Prop) :
  I b l w ->
  (forall b' a l' w', I b' (a :: l') w' ->
     wpt e J (f b' a) w' (fun r w'' =>
       match r with Ok b'' => I b'' l' w'' | Err x => Q (Err x) w'' | Panic => Q Panic w'' end)) ->
  (forall b' w', I b' [] w' -> Q (Ok b') w') ->
  wpt e J (fold_m f b l) w Q.
Proof.
  intros HI Hs Hq. revert b w HI. induction l as [|a l IH]; intros b w HI; cbn.
  - apply wpt_ret. auto.
  - apply wpt_bind. eapply wpt_post; [by apply Hs|]. intros [b'|x|] w'; auto.
Qed.

Lemma kid_stable x when v v' rc crc : stable v v' -> kid x when v rc crc -> kid x when v' rc crc.
Proof.
  intros [_ H] (info & u & d & m & cr & cu & uri & i & H1 & H2 & H3 & H4 & H5).
  exists info, u, d, m, cr, cu, uri, i. destruct H5. auto 10.
Qed.
Lemma kids_stable x when v v' rc crc : stable v v' -> rtc (kid x when v) rc crc -> rtc (kid x when v') rc crc.
Proof. intros H. apply rtc_subrel. intros ? ?. by apply kid_stable. Qed.
Lemma explained_stable x when v v' rc ca : stable v v' -> explained x when v rc ca -> explained x when v' rc ca.
Proof.
  intros [_ H] (info & H1 & H2). exists info. split; [done|]. destruct (ci_rrdp info); [|done].
  destruct H2 as [->|(d & H2 & H3 & H4)]; [by left|]. right. exists d. auto.
Qed.

(** What a validated subtree looks like. *)
Record tree_ok (x : ext) (when : Z) (v : visited) (rc : rcert) (rep : report) : Prop := mkTree {
  tree_totals : totals_eq rep;
  tree_root : exists ca, ca ∈ rp_certs rep /\ explained x when v rc ca;
  tree_chain : forall ca, ca ∈ rp_certs rep -> exists rc', rtc (kid x when v) rc rc' /\ explained x when v rc' ca;
  tree_children : children_covered (rp_certs rep) }.
Lemma tree_stable x when v v' rc rep : stable v v' -> tree_ok x when v rc rep -> tree_ok x when v' rc rep.
Proof.
  intros H [H1 (ca & H2 & H2') H3 H4]. split; auto.
  - exists ca. split; [done|]. by eapply explained_stable.
  - intros ca' Hca. destruct (H3 ca' Hca) as (rc' & ? & ?). exists rc'.
    split; [by eapply kids_stable|by eapply explained_stable].
Qed.

Section tree.
  Context (e : env) (J : event -> Prop) (Hx : order_ok (e_ext e)).
  Context (offline : bool) (when : Z) (fe : gmap string fetcher).
  Context (HJ : offline = false -> (forall t, J (EvClock t)) /\
     forall u, fetcher_ok e J (default (mkFetcher u None Insecure) (fe !! u))).

  Lemma w_lookup v u w (Q : res (visited * (repo_data + err)) -> world -> Prop) :
    vi_fetchers v = fe ->
    (forall w' v' r, w_fs w' = w_fs w -> stable v v' ->
       (forall d, r = inl d -> vi_data v' !! u = Some d /\ rd_fetched d = true) ->
       Q (Ok (v', r)) w') ->
    wpt e J (get_latest v u offline when) w Q.
  Proof.
    intros Hf HQ. apply w_get_latest.
    - intros Ho _. destruct (HJ Ho) as [H1 H2]. split; [done|]. unfold get_fetcher. rewrite Hf. apply H2.
    - intros w' v' r Hw Hs _ _ Hr _. by apply HQ.
  Qed.

  Lemma w_validate_tree k v rc info w (Q : res (visited * report) -> world -> Prop) :
    vi_fetchers v = fe -> details rc info ->
    (forall w' v' rep, w_fs w' = w_fs w -> stable v v' -> tree_ok (e_ext e) when v' rc rep ->
       Q (Ok (v', rep)) w') ->
    (forall w' v' rc', w_fs w' = w_fs w -> stable v v' -> nsteps (kid (e_ext e) when v') k rc rc' -> Q Panic w') ->
    wpt e J (validate_tree_at k v rc info offline when) w Q.
  Proof.
    revert v rc info w Q. induction k as [|k IH]; intros v rc info w Q Hf Hi HQ HP; cbn [validate_tree_at].
    { apply wpt_panic. eapply HP; [done|done|constructor]. }
    assert (Hleaf : forall v' p, details rc info ->
       explained (e_ext e) when v' rc (add_issue (ca_empty info) (ci_ca info) p) ->
       tree_ok (e_ext e) when v' rc (add_cert report_default (add_issue (ca_empty info) (ci_ca info) p))).
    { intros v' p _ He. split.
      - apply totals_add_cert, totals_default.
      - eexists. split; [|done]. cbn. by apply elem_of_list_singleton.
      - intros ca Hca. cbn in Hca. apply elem_of_list_singleton in Hca as ->. by exists rc.
      - intros ca c Hca Hc. cbn in Hca. apply elem_of_list_singleton in Hca as ->. cbn in Hc.
        by apply not_elem_of_nil in Hc. }
    destruct (ci_rrdp info) as [u|] eqn:Eu.
    2: { apply wpt_ret, HQ; [done|done|]. apply Hleaf; [done|]. exists info. split; [done|]. by rewrite Eu. }
    apply wpt_bind, w_lookup; [done|]. intros w1 v1 [d|x] Hw1 Hs1 Hr; lazy beta match.
    2: { apply wpt_ret, HQ; [done|done|]. apply Hleaf; [done|]. exists info. split; [done|]. rewrite Eu. by left. }
    destruct (Hr d eq_refl) as [Hd Hdf]. apply wpt_bind, wpt_getext. lazy beta match.
    pose proof (check_ca_right (e_ext e) rc info (rd_objects d) when Hx) as Hright.
    pose proof (check_ca_kid (e_ext e) rc info (rd_objects d) when) as Hkids.
    pose proof (check_ca_children (e_ext e) rc info (rd_objects d) when) as Hch.
    destruct (check_ca (e_ext e) rc info (rd_objects d) when) as [ca kids]. cbn [fst snd] in *.
    eapply (wpt_fold_m _ _ _ (fun '(v', rep) rest w' =>
      w_fs w' = w_fs w /\ stable v1 v' /\ totals_eq rep /\
      (forall ca, ca ∈ rp_certs rep -> exists rc', rtc (kid (e_ext e) when v') rc rc' /\ explained (e_ext e) when v' rc' ca) /\
      exists done_ l, kids = done_ ++ rest /\ rp_certs rep = ca :: l /\
        (forall crc ci, (crc, ci) ∈ done_ -> exists ca', ca' ∈ l /\ ca_info_ ca' = ci) /\
        forall ca' c, ca' ∈ l -> c ∈ ca_children ca' -> exists ca'', ca'' ∈ rp_certs rep /\ ca_info_ ca'' = c.2)).
    - assert (He : explained (e_ext e) when v1 rc ca).
      { exists info. split; [done|]. rewrite Eu. right. eauto. }
      repeat split.
      + done.
      + intros u' d' H' _. done.
      + apply totals_add_cert, totals_default.
      + intros ca' Hca'. cbn in Hca'. apply elem_of_list_singleton in Hca' as ->. by exists rc.
      + exists [], []. repeat split; [intros ? ? []%not_elem_of_nil|intros ? ? []%not_elem_of_nil].
    - intros [v' rep] [crc ci] rest w' (Hw' & Hs' & Ht & Hc & dn & l & -> & Hl & Hdn & Hcov).
      assert (Hki : exists m cr cu uri, acceptable (e_ext e) rc info (rd_objects d) when m cr cu /\
                child_of (e_ext e) rc info (rd_objects d) when m cr cu uri crc ci).
      { apply Hkids; [done|]. apply elem_of_app. right. by left. }
      assert (Hkid : forall v2, stable v1 v2 -> kid (e_ext e) when v2 rc crc).
      { intros v2 [_ Hs2]. destruct Hki as (m & cr & cu & uri & Ha & Hk).
        exists info, u, d, m, cr, cu, uri, ci. auto 10. }
      assert (Hci : details crc ci).
      { destruct Hki as (m & cr & cu & uri & Ha & Hk). by destruct Hk as (b & c & _ & _ & _ & _ & _ & ?). }
      apply wpt_bind, IH.
      + destruct Hs1 as [Hs1 _], Hs' as [Hs' _]. congruence.
      + done.
      + intros w2 v2 rep2 Hw2 Hs2 Htree. lazy beta match. apply wpt_ret.
        assert (Hs12 : stable v1 v2) by by transitivity v'.
        repeat split.
        * congruence.
        * by destruct Hs12.
        * by destruct Hs12.
        * apply totals_add_other; [done|apply Htree].
        * intros ca' [Hca'|Hca']%elem_of_app.
          -- destruct (Hc ca' Hca') as (rc' & ? & ?). exists rc'. split; [by apply (kids_stable _ _ v')|by apply (explained_stable _ _ v')].
          -- destruct (tree_chain _ _ _ _ _ Htree ca' Hca') as (rc' & ? & ?). exists rc'. split; [|done].
             eapply rtc_l; [|done]. by apply Hkid.
        * exists (dn ++ [(crc, ci)]), (l ++ rp_certs rep2). split; [by rewrite <- app_assoc|].
          split; [cbn; by rewrite Hl|]. split.
          -- intros crc' ci' [H|H]%elem_of_app.
             ++ destruct (Hdn _ _ H) as (ca' & H1 & H2). exists ca'. split; [|done]. apply elem_of_app. by left.
             ++ apply elem_of_list_singleton in H as [= -> ->].
                destruct (tree_root _ _ _ _ _ Htree) as (ca' & H1 & info' & H2 & H3). exists ca'.
                split; [apply elem_of_app; by right|]. assert (info' = ci) as -> by (apply details_eq in H2, Hci; congruence).
                destruct (ci_rrdp ci); [destruct H3 as [->|(d' & _ & _ & H3 & _)]|subst]; done.
          -- intros ca' c [H|H]%elem_of_app Hcc.
             ++ destruct (Hcov _ _ H Hcc) as (ca'' & H1 & H2). exists ca''. split; [|done]. apply elem_of_app. by left.
             ++ destruct (tree_children _ _ _ _ _ Htree _ _ H Hcc) as (ca'' & H1 & H2). exists ca''. split; [|done].
                apply elem_of_app. by right.
      + intros w2 v2 rc2 Hw2 Hs2 Hn. assert (Hs12 : stable v1 v2) by by transitivity v'.
        eapply HP; [congruence|by transitivity v1|]. econstructor; [by apply Hkid|done].
    - intros [v' rep] w' (Hw' & Hs' & Ht & Hc & dn & l & Hk & Hl & Hdn & Hcov). rewrite app_nil_r in Hk. subst dn.
      assert (He : explained (e_ext e) when v' rc ca).
      { exists info. split; [done|]. rewrite Eu. right. exists d. destruct Hs' as [_ Hs']. auto. }
      apply HQ; [done|by transitivity v1|]. split.
      + done.
      + exists ca. split; [rewrite Hl; by left|done].
      + done.
      + intros ca' c Hca' Hcc. rewrite Hl in Hca'. apply elem_of_cons in Hca' as [->|Hca'].
        * destruct (Hch _ Hcc) as (crc & Hin). destruct (Hdn _ _ Hin) as (ca'' & H1 & H2). exists ca''.
          split; [rewrite Hl; by right|done].
        * eauto.
  Qed.

  Lemma w_tal_validate t w (Q : res rcert -> world -> Prop) :
    (forall w' rc, w_fs w' = w_fs w -> ta_of e (w_fs w) when t rc -> Q (Ok rc) w') ->
    (forall w' x, w_fs w' = w_fs w -> Q (Err x) w') ->
    req_ok J (tl_source t) None ->
    wpt e J (tal_validate_at t when) w Q.
  Proof.
    intros H1 H2 H3. unfold tal_validate_at. apply wpt_bind, w_fetch_mem; [done|..]; [| |auto].
    - intros w' b et Hw Hs _. unfold try_into_data. wp1. wp1. wp1. wp1. wp1. wp1; [|auto].
      wp1. wp1; [|auto]. destruct (String.eqb_spec (ct_key (rc_cert a0)) (tl_key t)); wp1; [|auto].
      apply H1; [done|]. exists b, a. auto.
    - intros w' Hw _. unfold try_into_data. wp1. wp1. auto.
  Qed.
End tree.

(** The report of a validation of all trust anchors. *)
Record run_ok (e : env) (g : fs) (when : Z) (tals : list tal) (v : visited) (rep : report) : Prop := mkRun {
  run_totals : totals_eq rep;
  run_tas : forall t, t ∈ tals -> exists rc ca, ta_of e g when t rc /\ ca ∈ rp_certs rep /\ explained (e_ext e) when v rc ca;
  run_chain : forall ca, ca ∈ rp_certs rep -> exists t ta rc, t ∈ tals /\ ta_of e g when t ta /\
                rtc (kid (e_ext e) when v) ta rc /\ explained (e_ext e) when v rc ca;
  run_children : children_covered (rp_certs rep) }.

Lemma w_validate_at e (J : event -> Prop) offline when vd w (Q : res (validator * report) -> world -> Prop) :
  order_ok (e_ext e) ->
  (offline = false -> (forall t, J (EvClock t)) /\
     forall u, fetcher_ok e J (get_fetcher (vd_repos vd) u)) ->
  (forall t, t ∈ vd_tals vd -> req_ok J (tl_source t) None) ->
  (forall w' v' rep, w_fs w' = w_fs w -> stable (vd_repos vd) v' ->
     run_ok e (w_fs w) when (vd_tals vd) v' rep -> Q (Ok (mkValidator (vd_tals vd) v', rep)) w') ->
  (forall w' x, w_fs w' = w_fs w -> Q (Err x) w') ->
  (forall w' v' t ta rc, w_fs w' = w_fs w -> stable (vd_repos vd) v' -> t ∈ vd_tals vd ->
     ta_of e (w_fs w) when t ta -> nsteps (kid (e_ext e) when v') (e_stack e) ta rc -> Q Panic w') ->
  wpt e J (validate_at vd offline when) w Q.
Proof.
  intros Hx HJ HT HQ HE HP. unfold validate_at. apply wpt_bind.
  eapply (wpt_fold_m _ _ _ (fun '(v', rep) rest w' =>
    w_fs w' = w_fs w /\ stable (vd_repos vd) v' /\ exists dn, vd_tals vd = dn ++ rest /\ run_ok e (w_fs w) when dn v' rep)).
  - repeat split; try done. exists []. split; [done|]. split.
    + apply totals_default.
    + intros ? []%not_elem_of_nil.
    + intros ? []%not_elem_of_nil.
    + intros ? ? []%not_elem_of_nil.
  - intros [v rep] t rest w1 (Hw1 & Hs1 & dn & Hdn & Hrun). apply wpt_bind. unfold validate_ta_at.
    apply wpt_bind, w_tal_validate; [|intros; apply HE; congruence|apply HT; rewrite Hdn; apply elem_of_app; right; by left].
    intros w2 rc Hw2 Hta. apply wpt_bind, wpt_of_option; [|intros; apply HE; congruence].
    intros info Hinfo. apply wpt_bind, wpt_ask. apply (w_validate_tree e J Hx offline when (vi_fetchers (vd_repos vd))).
    + intros Ho. destruct (HJ Ho) as [H1 H2]. split; [done|]. exact H2.
    + by destruct Hs1.
    + by apply details_eq.
    + intros w3 v3 rep3 Hw3 Hs3 Htree. apply wpt_ret. split; [congruence|]. split; [by transitivity v|].
      exists (dn ++ [t]). split; [by rewrite <- app_assoc|]. rewrite Hw1 in Hta. destruct Hrun as [R1 R2 R3 R4]. split.
      * apply totals_add_other; [done|apply Htree].
      * intros t' [H|H]%elem_of_app.
        -- destruct (R2 t' H) as (rc' & ca & ? & ? & ?). exists rc', ca. split; [done|].
           split; [apply elem_of_app; by left|by apply (explained_stable _ _ v)].
        -- apply elem_of_list_singleton in H as ->. destruct (tree_root _ _ _ _ _ Htree) as (ca & ? & ?).
           exists rc, ca. split; [done|]. split; [apply elem_of_app; by right|done].
      * intros ca [H|H]%elem_of_app.
        -- destruct (R3 ca H) as (t' & ta & rc' & ? & ? & ? & ?). exists t', ta, rc'.
           split; [apply elem_of_app; by left|]. split; [done|]. split; [by apply (kids_stable _ _ v)|by apply (explained_stable _ _ v)].
        -- destruct (tree_chain _ _ _ _ _ Htree ca H) as (rc' & ? & ?). exists t, rc, rc'.
           split; [apply elem_of_app; right; by left|done].
      * intros ca c [H|H]%elem_of_app Hc.
        -- destruct (R4 _ _ H Hc) as (ca' & ? & ?). exists ca'. split; [apply elem_of_app; by left|done].
        -- destruct (tree_children _ _ _ _ _ Htree _ _ H Hc) as (ca' & ? & ?). exists ca'. split; [apply elem_of_app; by right|done].
    + intros w3 v3 rc3 Hw3 Hs3 Hn. eapply (HP _ v3 t); [congruence|by transitivity v| |by rewrite <- Hw1|done].
      rewrite Hdn. apply elem_of_app. right. by left.
  - intros [v rep] w1 (Hw1 & Hs1 & dn & Hdn & Hrun). rewrite app_nil_r in Hdn. subst dn. apply wpt_ret. by apply HQ.
Qed.
