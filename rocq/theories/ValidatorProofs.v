(** * Proofs about repository data and validation *)
From Coq Require Import ZifyN ZifyNat ZifyBool.
From Verif Require Export ValidatorSpec.

(** ** Sorting *)
Lemma insert_by_perm {A} (key : A -> N) x l : insert_by key x l ≡ₚ x :: l.
Proof.
  induction l as [|y l IH]; cbn; [done|]. destruct (key x <=? key y)%N; [done|].
  rewrite IH. apply perm_swap.
Qed.
Lemma sort_by_key_perm {A} (key : A -> N) l : sort_by_key key l ≡ₚ l.
Proof. induction l as [|x l IH]; cbn; [done|]. by rewrite insert_by_perm, IH. Qed.
Lemma sort_by_key_nil {A} (key : A -> N) l : sort_by_key key l = [] -> l = [].
Proof. intros H. pose proof (sort_by_key_perm key l) as P. rewrite H in P. by apply Permutation_nil_l in P. Qed.

Lemma sort_and_verify_nolimit x n : sort_and_verify x None n <> None.
Proof.
  unfold sort_and_verify. destruct (n_deltas n) as [|d l] eqn:E; [done|]. cbn [limit_deltas].
  destruct (sort_by_key di_serial (d :: l)) as [|d' l'] eqn:E2; [|done].
  by apply sort_by_key_nil in E2.
Qed.
Lemma sort_and_verify_perm x n n' : sort_and_verify x None n = Some (n', true) ->
  n_deltas n' ≡ₚ n_deltas n /\
  (n_deltas n' = [] \/ exists d l, n_deltas n' = d :: l /\ no_gaps (di_serial d) l = true).
Proof.
  unfold sort_and_verify. destruct (n_deltas n) as [|d l] eqn:E; [intros [= <-]; rewrite E; auto|].
  cbn [limit_deltas]. pose proof (sort_by_key_perm di_serial (d :: l)) as P.
  destruct (sort_by_key di_serial (d :: l)) as [|d' l'] eqn:E2; [done|].
  intros [= <- H]. cbn [n_deltas]. split; [done|]. right. exists d', l'. split; [done|].
  by apply andb_true_iff in H as [H _].
Qed.

(** ** The last entry of a list *)
Lemma last_for_lookup {A} (l : list (string * A)) k v :
  (list_to_map (reverse l) : gmap string A) !! k = Some v <-> last_for k l v.
Proof.
  unfold last_for. induction l as [|[k' v'] l IH] using rev_ind.
  - cbn. rewrite lookup_empty. split; [done|]. intros (l1 & l2 & E & _). by destruct l1.
  - rewrite reverse_app. cbn. destruct (decide (k' = k)) as [->|Hne].
    + rewrite lookup_insert. split.
      * intros [= ->]. exists l, []. split; [done|]. cbn. apply not_elem_of_nil.
      * intros (l1 & l2 & E & Hn). destruct l2 as [|p l2 _] using rev_ind.
        -- apply app_inj_tail in E as [_ E]. by injection E as ->.
        -- change (l ++ [(k, v')] = l1 ++ ((k, v) :: l2) ++ [p]) in E. rewrite app_assoc in E.
           apply app_inj_tail in E as [_ E]. subst p. destruct Hn. rewrite fmap_app.
           apply elem_of_app. right. cbn. by apply elem_of_list_singleton.
    + rewrite lookup_insert_ne by done. rewrite IH. split.
      * intros (l1 & l2 & -> & Hn). exists l1, (l2 ++ [(k', v')]). split; [by rewrite <- app_assoc|].
        rewrite fmap_app. intros [?|H]%elem_of_app; [done|]. cbn in H.
        apply elem_of_list_singleton in H. done.
      * intros (l1 & l2 & E & Hn). destruct l2 as [|p l2 _] using rev_ind.
        -- apply app_inj_tail in E as [_ E]. congruence.
        -- change (l ++ [(k', v')] = l1 ++ ((k, v) :: l2) ++ [p]) in E. rewrite app_assoc in E.
           apply app_inj_tail in E as [E _]. exists l1, l2. split; [done|].
           intros H. apply Hn. rewrite fmap_app. apply elem_of_app. by left.
Qed.

(** ** Repository data *)
Lemma all_some_spec {A} (l : list (A * option string)) r :
  all_some l = Some r -> l = (fun el => (el.1, Some el.2)) <$> r.
Proof.
  revert r. induction l as [|[a [b|]] l IH]; intros r; cbn.
  - by intros [= <-].
  - destruct (all_some l) as [k|]; cbn; [|done]. intros [= <-]. cbn. by rewrite (IH k).
  - done.
Qed.

Lemma apply_elements_patched x o els o' : apply_elements x o els = Some o' -> patched x o els o'.
Proof.
  revert o. induction els as [|el els IH]; intros o; cbn.
  - intros [= <-]. constructor.
  - destruct (apply_element x o el) as [o1|] eqn:E; cbn; [|done]. intros H. apply IH in H.
    econstructor; [|done]. unfold apply_element in E. destruct el as [u b|u h b|u h].
    + injection E as <-. constructor.
    + destruct (o !! rsync_str u) as [old|] eqn:E2; cbn in E; [|done].
      destruct (hash_matches x h old) eqn:E3; [|done]. injection E as <-.
      econstructor; [done|]. by apply String.eqb_eq in E3.
    + destruct (o !! rsync_str u) as [old|] eqn:E2; cbn in E; [|done].
      destruct (hash_matches x h old) eqn:E3; [|done]. injection E as <-.
      econstructor; [done|]. by apply String.eqb_eq in E3.
Qed.

Section data.
  Context (e : env) (J : event -> Prop).

  (** every request a fetcher may make is allowed *)
  Definition fetcher_ok (f : fetcher) : Prop :=
    forall u src etag, located (e_ext e) f u = Some src -> req_ok J src etag.

  Lemma w_data_from_snapshot n t f when w (Q : res repo_data -> world -> Prop) :
    fetcher_ok f ->
    (forall w' o, w_fs w' = w_fs w -> snapshot_of e (w_fs w) f n o ->
       Q (Ok (mkRD t when true (n_session n) (n_serial n) o)) w') ->
    (forall w' x, w_fs w' = w_fs w -> Q (Err x) w') ->
    wpt e J (data_from_snapshot n t f when) w Q.
  Proof.
    intros HJ H1 H2. unfold data_from_snapshot, read_snapshot_file. wp1. wp1.
    apply w_read_bytes; [by eauto| |auto]. intros w' src b Hw Hl Hs Hh. wp1. wp1. wp1; [|auto].
    unfold snapshot_parse in H. destruct (x_snapshot (e_ext e) b) as [l fine] eqn:E.
    destruct fine; [|done]. apply all_some_spec in H. subst l. wp1. apply H1; [done|].
    exists b, a. split; [by exists src|]. split; [done|]. intros uri c. unfold snapshot_objects.
    rewrite last_for_lookup.
    replace ((λ '(u, b), (rsync_str u, b)) <$> a) with ((λ el, (rsync_str el.1, el.2)) <$> a); [done|].
    apply list_fmap_ext. by intros ? [].
  Qed.

  Lemma w_apply_deltas f n (g : fs) l s o w (Q : res (N * gmap string string) -> world -> Prop) :
    fetcher_ok f -> w_fs w = g -> (forall di, di ∈ l -> di ∈ n_deltas n) ->
    (l = [] \/ exists d l', l = d :: l' /\ no_gaps (di_serial d) l' = true /\ (di_serial d <= s + 1)%N) ->
    (forall w' s' o', w_fs w' = g -> caught_up e g f n s o s' o' ->
       (s <= s')%N ->
       (forall di, di ∈ l -> (di_serial di <= s')%N) ->
       (s' = s \/ exists di, di ∈ l /\ di_serial di = s') ->
       Q (Ok (s', o')) w') ->
    (forall w' x, w_fs w' = g -> Q (Err x) w') ->
    wpt e J (apply_deltas f l s o) w Q.
  Proof.
    intros HJ. revert s o w Q. induction l as [|d l IH]; intros s o w Q Hw Hin Hl H1 H2; cbn [apply_deltas].
    - wp1. apply H1; [done|apply caught_refl|lia| |by left]. intros ? []%not_elem_of_nil.
    - destruct Hl as [?|(d' & l' & [= <- <-] & Hg & Hs)]; [done|].
      assert (Hl : l = [] \/ exists d1 l', l = d1 :: l' /\ no_gaps (di_serial d1) l' = true /\
                                         di_serial d1 = (di_serial d + 1)%N).
      { destruct l as [|d1 l]; [by left|]. right. exists d1, l. cbn in Hg.
        destruct (N.eqb_spec (di_serial d + 1) (di_serial d1)); [|done]. auto. }
      destruct (N.eqb_spec (di_serial d) (s + 1)) as [Heq|Hne]; cbn [negb].
      + wp1. unfold read_delta_file. wp1. apply w_read_bytes; [by eauto| |intros w' x Hw'; apply H2; congruence].
        intros w' src b Hw' Hloc Hsrv Hh. wp1. wp1. wp1; [|intros; apply H2; congruence].
        wp1. wp1. wp1. wp1; [|intros; apply H2; congruence].
        apply apply_elements_patched in H0. apply IH.
        * congruence.
        * intros di Hdi. apply Hin. by right.
        * destruct Hl as [->|(d1 & l' & -> & Hg' & Hd1)]; [by left|]. right. exists d1, l'. repeat split; [done|lia].
        * intros w2 s' o' Hw2 Hc Hle Hmax Hex. apply H1; [done|..].
          -- econstructor; [apply Hin; by left|done| |done..]. exists src. rewrite <- Hw. done.
          -- lia.
          -- intros di [->|Hdi]%elem_of_cons; [lia|auto].
          -- right. destruct Hex as [->|(di & Hdi & <-)]; [exists d; split; [by left|done]|].
             exists di. split; [by right|done].
        * auto.
      + apply IH.
        * done.
        * intros di Hdi. apply Hin. by right.
        * destruct Hl as [->|(d1 & l' & -> & Hg' & Hd1)]; [by left|]. right. exists d1, l'. repeat split; [done|lia].
        * intros w2 s' o' Hw2 Hc Hle Hmax Hex. apply H1; [done|done|done|..].
          -- intros di [->|Hdi]%elem_of_cons; [lia|auto].
          -- destruct Hex as [->|(di & Hdi & <-)]; [by left|]. right. exists di. split; [by right|done].
        * auto.
  Qed.

  Lemma w_data_from_deltas n t d f when w (Q : res repo_data -> world -> Prop) :
    fetcher_ok f ->
    (forall w' s' o', w_fs w' = w_fs w -> n_session n = rd_session d -> n_deltas n <> [] ->
       caught_up e (w_fs w) f n (rd_serial d) (rd_objects d) s' o' ->
       (forall di, di ∈ n_deltas n -> (di_serial di <= s')%N) ->
       (s' = rd_serial d \/ exists di, di ∈ n_deltas n /\ di_serial di = s') ->
       Q (Ok (mkRD t when true (rd_session d) s' o')) w') ->
    (forall w' x, w_fs w' = w_fs w -> Q (Err x) w') ->
    wpt e J (data_from_deltas n t d f when) w Q.
  Proof.
    intros HJ H1 H2. unfold data_from_deltas.
    destruct (bool_decide_reflect (n_session n = rd_session d)) as [Hs|]; cbn [negb]; [|wp1; auto].
    wp1. wp1. destruct (sort_and_verify (e_ext e) None n) as [[n' fine]|] eqn:E;
      [|by apply sort_and_verify_nolimit in E].
    destruct fine; cbn [negb]; [|wp1; auto]. apply sort_and_verify_perm in E as [Hp Hg].
    destruct (n_deltas n') as [|first rest] eqn:En; [wp1; auto|].
    destruct Hg as [|(d0 & l & [= <- <-] & Hg)]; [done|].
    destruct (N.ltb_spec (rd_serial d + 1) (di_serial first)); [wp1; auto|].
    wp1. eapply (w_apply_deltas f n); [done|done|..].
    - intros di Hdi. by rewrite <- Hp.
    - right. eauto.
    - intros w' s' o' Hw Hc Hle Hmax Hex. wp1. apply H1; auto.
      + intros En'. rewrite En' in Hp. by apply Permutation_nil_r in Hp.
      + intros di Hdi. apply Hmax. by rewrite Hp.
      + destruct Hex as [->|(di & Hdi & <-)]; [by left|]. right. exists di. by rewrite <- Hp.
    - auto.
  Qed.

  (** Data looked up in this run stays as it is. *)
  Definition stable (v v' : visited) : Prop :=
    vi_fetchers v' = vi_fetchers v /\
    forall u d, vi_data v !! u = Some d -> rd_fetched d = true -> vi_data v' !! u = Some d.
  Global Instance stable_pre : PreOrder stable.
  Proof.
    split; [done|]. intros a b c [H1 H2] [H3 H4]. split; [congruence|eauto].
  Qed.

  Lemma w_get_latest v u offline when w (Q : res (visited * (repo_data + err)) -> world -> Prop) :
    (offline = false -> (forall d, vi_data v !! u = Some d -> rd_fetched d = false) ->
     (forall t, J (EvClock t)) /\ fetcher_ok (get_fetcher v u)) ->
    (forall w' v' r, w_fs w' = w_fs w -> stable v v' ->
       (forall u', u' <> u -> vi_data v' !! u' = vi_data v !! u') ->
       lookup_outcome e (w_fs w) (get_fetcher v u) (vi_data v !! u) (vi_data v' !! u) ->
       (forall d, r = inl d -> vi_data v' !! u = Some d /\ rd_fetched d = true) ->
       (offline = true -> forall d d', vi_data v !! u = Some d -> vi_data v' !! u = Some d' -> same_content d d') ->
       Q (Ok (v', r)) w') ->
    wpt e J (get_latest v u offline when) w Q.
  Proof.
    intros HJ HQ. unfold get_latest.
    set (f := get_fetcher v u) in *.
    destruct (vi_data v !! u) as [d|] eqn:Ed; [destruct (rd_fetched d) eqn:Ef|].
    - wp1. apply HQ; auto; [done|rewrite Ed; by do 2 constructor|rewrite Ed; intros ? [= <-]; done|].
      intros _ d1 d2 [= <-]. rewrite Ed. intros [= <-]. done.
    - assert (Hst : forall o, stable v (set_data v (partial_alter (fun _ => o) u (vi_data v)))).
      { intros o. split; [done|]. intros u' d' Hd' Hf'. cbn.
        destruct (decide (u' = u)) as [->|Hne]; [congruence|]. by rewrite lookup_partial_alter_ne. }
      assert (Hot : forall o u', u' <> u -> vi_data (set_data v (partial_alter (fun _ => o) u (vi_data v))) !! u' = vi_data v !! u').
      { intros o u' Hne. cbn. by rewrite lookup_partial_alter_ne. }
      set (v1 := set_data v (<[u:=mark_fetched d]> (vi_data v))).
      assert (Hv1 : vi_data v1 !! u = Some (mark_fetched d)) by (cbn; apply lookup_insert).
      (* the content is kept *)
      assert (Hkeep : forall w' r, w_fs w' = w_fs w ->
                (forall d', r = inl d' -> d' = mark_fetched d) -> Q (Ok (v1, r)) w').
      { intros w' r Hw Hr. apply HQ; auto.
        - apply (Hst (Some _)).
        - apply (Hot (Some _)).
        - rewrite Hv1. by constructor.
        - intros d' ->. rewrite Hv1, (Hr d'); auto.
        - intros _ d1 d2 [= <-]. rewrite Hv1. intros [= <-]. done. }
      assert (Hfin : forall w', w_fs w' = w_fs w ->
         Q (Ok (v1, match vi_data v1 !! u with Some d => inl d | None => inr ENoData end)) w').
      { intros w' Hw. rewrite Hv1. apply Hkeep; [done|]. by intros ? [= ->]. }
      destruct offline; [wp1; auto|].
      destruct HJ as [HJc HF]; [done|by intros ? [= <-]|].
      wp1. wp1; [auto|]. destruct (Z.ltb _ _); [wp1; auto|].
      wp1. wp1. apply w_read_notification; [by eauto|..].
      + intros w1 src b n t Hw1 Hloc Hsrv Hn. cbn [push_ev w_fs] in Hw1, Hsrv.
        assert (Hoff : offered_notif e (w_fs w) f n) by by exists src, b.
        destruct (bool_decide (n_session n = rd_session d) && (n_serial n =? rd_serial d)%N) eqn:Esame; [wp1; auto|].
        assert (Hdiff : (n_session n, n_serial n) <> (rd_session d, rd_serial d)).
        { intros [= E1 E2]. rewrite E1, E2, bool_decide_true, N.eqb_refl in Esame by done. done. }
        assert (Hnew : forall w' d', w_fs w' = w_fs w -> rd_fetched d' = true ->
                  lookup_outcome e (w_fs w) f (Some d) (Some d') ->
                  Q (Ok (set_data v (<[u:=d']> (vi_data v)),
                         match vi_data (set_data v (<[u:=d']> (vi_data v))) !! u with Some d => inl d | None => inr ENoData end)) w').
        { intros w' d' Hw' Hf' Ho. assert (Hd' : vi_data (set_data v (<[u:=d']> (vi_data v))) !! u = Some d') by (cbn; apply lookup_insert).
          rewrite Hd'. apply HQ; auto.
          - apply (Hst (Some _)).
          - apply (Hot (Some _)).
          - by rewrite Hd'.
          - rewrite Hd'. by intros ? [= <-].
          - done. }
        wp1. wp1. apply w_data_from_deltas; [done|..].
        * intros w2 s' o' Hw2 Hses Hnd Hc Hmax Hex. cbn in Hw1. rewrite Hw1 in Hw2, Hc. wp1. apply Hnew; [congruence|done|].
          eapply (out_deltas e (w_fs w) f d _ n); cbn; try done.
          intros Hser. apply Hdiff. by rewrite Hses, Hser.
        * intros w2 _ Hw2. wp1. wp1. apply w_data_from_snapshot; [done|..].
          -- intros w3 o Hw3 Hsn. wp1. rewrite Hw2, Hw1 in Hsn. apply Hnew; [congruence|done|].
             by eapply (out_snapshot e (w_fs w) f _ _ n).
          -- intros w3 _ Hw3. wp1. assert (Hd' : vi_data (set_data v (delete u (vi_data v))) !! u = None) by (cbn; apply lookup_delete).
             rewrite Hd'. apply HQ; auto.
             ++ congruence.
             ++ apply (Hst None).
             ++ apply (Hot None).
             ++ rewrite Hd'. by eapply out_removed.
             ++ done.
             ++ done.
      + intros w1 src Hw1 Hloc H304. wp1. auto.
      + intros w1 x Hw1. wp1. apply Hkeep; [done|done].
    - destruct offline.
      + wp1. rewrite ?Ed. apply HQ; auto; [done|rewrite Ed; constructor|done|done].
      + destruct HJ as [_ HF]; [done|done|].
        wp1. wp1. unfold retrieve_new_repository. wp1. apply w_read_notification; [by eauto|..].
        * intros w1 src b n t Hw1 Hloc Hsrv Hn. unfold notif_content. wp1. wp1.
          apply w_data_from_snapshot; [done|..].
          -- intros w2 o Hw2 Hsn. wp1. set (d' := mkRD _ _ _ _ _ _).
             assert (Hd' : vi_data (set_data v (<[u:=d']> (vi_data v))) !! u = Some d') by (cbn; apply lookup_insert).
             rewrite Hd'. apply HQ.
             ++ congruence.
             ++ split; [done|]. intros u' d1 Hd1 _. cbn. rewrite lookup_insert_ne; [done|]. congruence.
             ++ intros u' Hne. cbn. by rewrite lookup_insert_ne.
             ++ rewrite Hd'. rewrite Hw1 in Hsn. eapply (out_snapshot e (w_fs w) f _ _ n); try done. by exists src, b.
             ++ rewrite Hd'. by intros ? [= <-].
             ++ done.
          -- intros w2 x Hw2. wp1. apply HQ; [congruence|done|done|rewrite Ed; constructor|done|done].
        * intros w1 src Hw1 Hloc H304. unfold notif_content. wp1. wp1. wp1.
          apply HQ; [congruence|done|done|rewrite Ed; constructor|done|done].
        * intros w1 x Hw1. wp1.
          apply HQ; [congruence|done|done|rewrite Ed; constructor|done|done].
  Qed.
End data.

(** ** One CA *)
Lemma elem_of_flat_map {A B} (f : A -> list B) l y : y ∈ flat_map f l <-> exists a, a ∈ l /\ y ∈ f a.
Proof.
  rewrite elem_of_list_In, in_flat_map. split; intros (a & H1 & H2); exists a;
    by rewrite !elem_of_list_In in *.
Qed.
Lemma ca_join_eq dir name : ca_join dir name = file_uri dir name.
Proof. unfold ca_join, file_uri. by destruct (ends_with "/" dir). Qed.
Lemma mft_entries_listed info m u h : mft_entries info m !! u = Some h <-> listed info m u h.
Proof.
  unfold mft_entries, listed. rewrite last_for_lookup.
  replace ((λ '(name, h), (ca_join (ci_ca info) name, h)) <$> mf_entries m)
    with ((λ en, (file_uri (ci_ca info) en.1, en.2)) <$> mf_entries m); [done|].
  apply list_fmap_ext. intros ? [nm h']. cbn. by rewrite ca_join_eq.
Qed.
Lemma crl_contains_spec c s : crl_contains c s = true <-> s ∈ cl_revoked c.
Proof.
  unfold crl_contains. rewrite existsb_exists. split.
  - intros (y & Hy & ->%N.eqb_eq). by apply elem_of_list_In.
  - intros H. exists s. split; [by apply elem_of_list_In|]. apply N.eqb_refl.
Qed.
Lemma crl_contains_false c s : crl_contains c s = false <-> s ∉ cl_revoked c.
Proof. rewrite <- crl_contains_spec. by destruct (crl_contains c s). Qed.

Lemma check_mft_spec x rc info objs when r :
  check_mft x rc info objs when = inr r <->
  exists m cu, acceptable x rc info objs when m r.1 cu /\ r.2 = delete cu (mft_entries info m).
Proof.
  destruct r as [cr en]. cbn [fst snd]. unfold check_mft. split.
  - destruct (objs !! ci_mft info) as [mb|] eqn:E1; [|done].
    destruct (x_mft x mb) as [m|] eqn:E2; [|done].
    destruct (x_mft_valid x rc m when) eqn:E3; cbn [negb]; [|done].
    destruct (mf_ee_crl m) as [cu|] eqn:E4; [|done].
    destruct (mft_entries info m !! cu) as [ch|] eqn:E5; [|done].
    destruct (objs !! cu) as [cb|] eqn:E6; [|done].
    destruct (hash_matches x ch cb) eqn:E7; cbn [negb]; [|done].
    destruct (x_crl x cb) as [cr'|] eqn:E8; [|done].
    destruct (x_crl_signed x rc cr') eqn:E9; cbn [negb]; [|done].
    destruct (Z.ltb_spec (cl_next_update cr') when) as [|E10]; [done|].
    destruct (crl_contains cr' (mf_ee_serial m)) eqn:E11; [done|].
    intros [= -> <-]. exists m, cu. split; [|done]. split; eauto.
    + exists ch, cb. rewrite <- mft_entries_listed. repeat split; auto. by apply String.eqb_eq in E7.
    + by apply crl_contains_false.
  - intros (m & cu & H & ->). destruct H as [(mb & E1 & E2) E3 E4 (h & cb & E5 & E6 & E7 & E8) E9 E10 E11].
    rewrite E1, E2, E3. cbn [negb]. rewrite E4. rewrite <- mft_entries_listed in E5. rewrite E5, E6.
    assert (hash_matches x h cb = true) as -> by by apply String.eqb_eq.
    cbn [negb]. rewrite E8, E9. cbn [negb].
    destruct (Z.ltb_spec (cl_next_update cr) when); [lia|].
    rewrite <- crl_contains_false in E11. by rewrite E11.
Qed.
Lemma acceptable_unique x rc info objs when m cr cu m' cr' cu' :
  acceptable x rc info objs when m cr cu -> acceptable x rc info objs when m' cr' cu' ->
  m = m' /\ cr = cr' /\ cu = cu'.
Proof.
  intros [(mb & E1 & E2) _ E4 (h & cb & _ & E6 & _ & E8) _ _ _]
         [(mb' & E1' & E2') _ E4' (h' & cb' & _ & E6' & _ & E8') _ _ _].
  assert (m = m') as <- by congruence. assert (cu = cu') as <- by congruence.
  assert (cr = cr') by congruence. done.
Qed.

Lemma present_spec x objs u h b : present x objs (u, h) = Some b <-> objs !! u = Some b /\ x_hash x b = h.
Proof.
  unfold present. cbn. destruct (objs !! u) as [b'|]; [|naive_solver].
  unfold hash_matches. destruct (String.eqb_spec (x_hash x b') h); naive_solver.
Qed.

(** ** The reported details *)
Lemma details_eq rc i : info_of_cert rc = Some i <-> details rc i.
Proof.
  unfold info_of_cert, details. destruct (ct_sia_ca (rc_cert rc)) as [a|]; cbn; [|naive_solver].
  destruct (ct_sia_mft (rc_cert rc)) as [b|]; cbn; [|naive_solver].
  destruct i; cbn. split; [intros [= -> -> -> ->]; done|]. intros ([= ->] & [= ->] & -> & ->). done.
Qed.
Lemma roa_lines_eq u r : make_roa u r = roa_lines u r.
Proof. unfold make_roa, roa_lines. f_equal. f_equal; apply list_fmap_ext; by intros ? []. Qed.
Lemma aspa_line_eq u a : make_aspa u a = aspa_line u a.
Proof. done. Qed.
Definition dotless (s : string) : bool := bool_decide (s <> "" /\ split_on dot s = [s]).
Lemma extension_eq u s : dotless s = true -> extension u = s <-> exists name, u = name +:+ "." +:+ s.
Proof.
  intros [H1 H2]%bool_decide_eq_true. unfold extension. destruct (rsplit_once dot u) as [[l r]|] eqn:E.
  - split.
    + intros <-. apply rsplit_once_spec in E as [-> _]. by exists l.
    + intros (name & ->). assert (E2 : rsplit_once dot (name +:+ "." +:+ s) = Some (name, s)) by by apply rsplit_once_spec.
      rewrite E2 in E. by injection E.
  - split; [done|]. intros (name & ->). assert (E2 : rsplit_once dot (name +:+ "." +:+ s) = Some (name, s)) by by apply rsplit_once_spec.
    by rewrite E2 in E.
Qed.

Section ca.
  Context (x : ext) (rc : rcert) (info : ca_info) (objs : gmap string string) (when : Z).
  Context (m : mft) (cr : crl) (cu : string).
  Context (Hx : order_ok x) (Hacc : acceptable x rc info objs when m cr cu).
  Let l := x_order x (map_to_list (delete cu (mft_entries info m))).

  Lemma check_ca_eq : check_ca x rc info objs when = check_entries x rc cr when objs l (ca_empty info, []).
  Proof.
    unfold check_ca. assert (check_mft x rc info objs when = inr (cr, delete cu (mft_entries info m))) as ->.
    { apply check_mft_spec. eauto. }
    done.
  Qed.
  Lemma in_l u h : (u, h) ∈ l <-> u <> cu /\ listed info m u h.
  Proof.
    unfold l. rewrite (Hx _). rewrite elem_of_map_to_list, lookup_delete_Some, mft_entries_listed. naive_solver.
  Qed.
  Lemma there u h ext_ b : dotless ext_ = true -> (u, h) ∈ l /\ present x objs (u, h) = Some b /\ extension u = ext_ <->
    h = x_hash x b /\ entry_there x info objs m cu ext_ u b.
  Proof. intros He. rewrite in_l, present_spec, (extension_eq _ _ He). unfold entry_there. naive_solver. Qed.

  Lemma check_ca_kids u i crc : (exists h, (u, h) ∈ l /\ (crc, i) ∈ entry_kids x rc cr when objs (u, h)) <->
    child_of x rc info objs when m cr cu u crc i.
  Proof.
    unfold child_of, entry_kids. cbn [fst snd]. split.
    - intros (h & Hl & H). destruct (present x objs (u, h)) as [b|] eqn:Ep; [|by apply not_elem_of_nil in H].
      destruct (String.eqb_spec (extension u) "cer") as [Ee|]; [|by apply not_elem_of_nil in H].
      destruct (x_cert x b) as [c|] eqn:Ec; [|by apply not_elem_of_nil in H].
      destruct (ct_is_ca c) eqn:Eca; cbn [andb] in H; [|by apply not_elem_of_nil in H].
      destruct (crl_contains cr (ct_serial c)) eqn:Er; cbn [negb] in H; [by apply not_elem_of_nil in H|].
      destruct (x_ca_valid x rc c when) as [crc'|] eqn:Ev; [|by apply not_elem_of_nil in H].
      destruct (info_of_cert crc') as [i'|] eqn:Ei; [|by apply not_elem_of_nil in H].
      apply elem_of_list_singleton in H as [= -> ->]. exists b, c.
      destruct (proj1 (there u h "cer" b eq_refl)) as [_ Ht]; [done|]. apply crl_contains_false in Er. apply details_eq in Ei. naive_solver.
    - intros (b & c & Ht & Ec & Eca & Er & Ev & Ei). apply details_eq in Ei. exists (x_hash x b).
      destruct (proj2 (there u (x_hash x b) "cer" b eq_refl)) as (Hl & Hp & He); [done|]. split; [done|].
      rewrite Hp, He, Ec, Eca. apply crl_contains_false in Er. rewrite Er. cbn. rewrite Ev, Ei. by apply elem_of_list_singleton.
  Qed.

  Lemma check_ca_listed : ca_listed x rc info objs when m cr cu (check_ca x rc info objs when).1.
  Proof.
    rewrite check_ca_eq.
    pose proof (check_entries_mentions x rc cr when objs l (ca_empty info, [])) as HM.
    pose proof (check_entries_spec x rc cr when objs l (ca_empty info, [])) as HS. cbv zeta in HS.
    cbn [fst snd ca_empty ca_roas ca_aspas ca_routers ca_ignored ca_children ca_info_ app] in HS, HM.
    rewrite mentions_empty, app_nil_r in HM. destruct HS as (H1 & H2 & H3 & H4 & H5 & _ & _). split.
    - rewrite HM. unfold l. rewrite (Hx _). apply NoDup_fst_map_to_list.
    - intros u. rewrite HM, elem_of_list_fmap. split.
      + intros ([u' h] & -> & Hin). apply in_l in Hin. cbn. naive_solver.
      + intros (Hu & h & Hh). exists (u, h). split; [done|]. by apply in_l.
    - intros v. rewrite H1, elem_of_flat_map. split.
      + intros ([u h] & Hin & H).  unfold entry_roas in H. cbn [fst] in H.
        destruct (present x objs (u, h)) as [b|] eqn:Ep; [|by apply not_elem_of_nil in H].
        destruct (String.eqb_spec (extension u) "roa") as [Ee|]; [|by apply not_elem_of_nil in H].
        destruct (x_roa x b) as [r|] eqn:Ec; [|by apply not_elem_of_nil in H].
        destruct (x_roa_valid x rc r) eqn:Eca; cbn [andb] in H; [|by apply not_elem_of_nil in H].
        destruct (crl_contains cr (ro_ee_serial r)) eqn:Er; cbn [negb] in H; [by apply not_elem_of_nil in H|].
        apply elem_of_list_singleton in H as ->. rewrite roa_lines_eq. apply crl_contains_false in Er.
        exists u, b, r. destruct (proj1 (there u h "roa" b eq_refl)); [done|]. naive_solver.
      + intros (u & b & r & Ht & Ec & Ev & Er & ->). exists (u, x_hash x b).
        destruct (proj2 (there u (x_hash x b) "roa" b eq_refl)) as (Hl & Hp & He); [done|].
         split; [done|]. unfold entry_roas. cbn [fst].
        rewrite <- roa_lines_eq. apply crl_contains_false in Er. rewrite Hp, He, Ec, Ev, Er. by apply elem_of_list_singleton.
    - intros v. rewrite H2, elem_of_flat_map. split.
      + intros ([u h] & Hin & H).  unfold entry_aspas in H. cbn [fst] in H.
        destruct (present x objs (u, h)) as [b|] eqn:Ep; [|by apply not_elem_of_nil in H].
        destruct (String.eqb_spec (extension u) "asa") as [Ee|]; [|by apply not_elem_of_nil in H].
        destruct (x_aspa x b) as [r|] eqn:Ec; [|by apply not_elem_of_nil in H].
        destruct (x_aspa_valid x rc r) eqn:Eca; cbn [andb] in H; [|by apply not_elem_of_nil in H].
        destruct (crl_contains cr (as_ee_serial r)) eqn:Er; cbn [negb] in H; [by apply not_elem_of_nil in H|].
        apply elem_of_list_singleton in H as ->. rewrite aspa_line_eq. apply crl_contains_false in Er.
        exists u, b, r. destruct (proj1 (there u h "asa" b eq_refl)); [done|]. naive_solver.
      + intros (u & b & r & Ht & Ec & Ev & Er & ->). exists (u, x_hash x b).
        destruct (proj2 (there u (x_hash x b) "asa" b eq_refl)) as (Hl & Hp & He); [done|].
         split; [done|]. unfold entry_aspas. cbn [fst].
        rewrite <- aspa_line_eq. apply crl_contains_false in Er. rewrite Hp, He, Ec, Ev, Er. by apply elem_of_list_singleton.
    - intros u i. rewrite H5, elem_of_flat_map. split.
      + intros ([u' h] & Hin & H).  cbn [fst] in H.
        apply elem_of_list_fmap in H as ([crc i'] & [= -> ->] & H). exists crc. cbn [snd]. apply check_ca_kids. eauto.
      + intros (crc & H). apply check_ca_kids in H as (h & Hl & H). exists (u, h). 
        split; [done|]. cbn [fst]. apply elem_of_list_fmap. by exists (crc, i).
    - intros u. rewrite H3, elem_of_flat_map. split.
      + intros ([u' h] & Hin & H).  unfold entry_routers in H. cbn [fst] in H.
        destruct (present x objs (u', h)) as [b|] eqn:Ep; [|by apply not_elem_of_nil in H].
        destruct (String.eqb_spec (extension u') "cer") as [Ee|]; [|by apply not_elem_of_nil in H].
        destruct (x_cert x b) as [r|] eqn:Ec; [|by apply not_elem_of_nil in H].
        destruct (ct_is_ca r) eqn:Eca; cbn [andb negb] in H; [by apply not_elem_of_nil in H|].
        destruct (x_router_valid x rc r when) eqn:Er; [|by apply not_elem_of_nil in H].
        apply elem_of_list_singleton in H as ->.
        exists b, r. destruct (proj1 (there u' h "cer" b eq_refl)); [done|]. naive_solver.
      + intros (b & r & Ht & Ec & Ev & Er). exists (u, x_hash x b).
        destruct (proj2 (there u (x_hash x b) "cer" b eq_refl)) as (Hl & Hp & He); [done|].
         split; [done|]. unfold entry_routers. cbn [fst].
        rewrite Hp, He, Ec, Ev, Er. by apply elem_of_list_singleton.
    - intros u. rewrite H4, elem_of_flat_map. split.
      + intros ([u' h] & Hin & H).  unfold entry_ignored in H. cbn [fst] in H.
        destruct (present x objs (u', h)) as [b|] eqn:Ep; [|by apply not_elem_of_nil in H].
        destruct (String.eqb_spec (extension u') "gbr") as [Ee|]; [|by apply not_elem_of_nil in H].
        apply elem_of_list_singleton in H as ->.
        exists b. destruct (proj1 (there u' h "gbr" b eq_refl)); [done|]. naive_solver.
      + intros (b & Ht). exists (u, x_hash x b).
        destruct (proj2 (there u (x_hash x b) "gbr" b eq_refl)) as (Hl & Hp & He); [done|].
         split; [done|]. unfold entry_ignored. cbn [fst].
        rewrite Hp, He. by apply elem_of_list_singleton.
  Qed.
End ca.

Lemma check_ca_info x rc info objs when : ca_info_ (check_ca x rc info objs when).1 = info.
Proof.
  unfold check_ca. destruct (check_mft x rc info objs when) as [[u p]|[cr en]]; [done|].
  pose proof (check_entries_spec x rc cr when objs (x_order x (map_to_list en)) (ca_empty info, [])) as HS.
  by destruct HS as (_ & _ & _ & _ & _ & _ & ->).
Qed.
Lemma check_ca_right x rc info objs when : order_ok x ->
  ca_right x rc info objs when (check_ca x rc info objs when).1.
Proof.
  intros Hx. split; [apply check_ca_info|]. split.
  - intros m cr cu H. by apply check_ca_listed.
  - intros Hno. unfold check_ca. destruct (check_mft x rc info objs when) as [[u p]|[cr en]] eqn:E.
    + exists u, p. done.
    + apply check_mft_spec in E as (m & cu & H & _). destruct Hno. eauto.
Qed.
(** the children descended into *)
Lemma check_ca_kid x rc info objs when crc i : order_ok x ->
  (crc, i) ∈ (check_ca x rc info objs when).2 ->
  exists m cr cu uri, acceptable x rc info objs when m cr cu /\ child_of x rc info objs when m cr cu uri crc i.
Proof.
  intros Hx. unfold check_ca. destruct (check_mft x rc info objs when) as [[u p]|[cr en]] eqn:E.
  - intros []%not_elem_of_nil.
  - apply check_mft_spec in E as (m & cu & H & He). cbn in H, He. subst en.
    pose proof (check_entries_spec x rc cr when objs (x_order x (map_to_list (delete cu (mft_entries info m)))) (ca_empty info, [])) as HS.
    destruct HS as (_ & _ & _ & _ & _ & -> & _). cbn [snd app]. rewrite elem_of_flat_map.
    intros ([u h] & Hin & Hk).  exists m, cr, cu, u. split; [done|].
    eapply check_ca_kids; eauto.
Qed.
Lemma check_ca_children x rc info objs when c :
  c ∈ ca_children (check_ca x rc info objs when).1 ->
  exists crc, (crc, c.2) ∈ (check_ca x rc info objs when).2.
Proof.
  unfold check_ca. destruct (check_mft x rc info objs when) as [[u p]|[cr en]] eqn:E.
  - intros []%not_elem_of_nil.
  - pose proof (check_entries_spec x rc cr when objs (x_order x (map_to_list en)) (ca_empty info, [])) as HS.
    destruct HS as (_ & _ & _ & _ & -> & -> & _). cbn [snd app fst ca_empty ca_children].
    rewrite elem_of_flat_map. intros ([u h] & Hin & Hk). 
    apply elem_of_list_fmap in Hk as ([crc i] & -> & Hk). exists crc. rewrite elem_of_flat_map.
    exists (u, h). done.
Qed.
