(** * Every program step stays inside a set of paths *)
From Coq Require Import ZifyN ZifyNat ZifyBool Sorting.Sorted.
From Verif Require Export ListProofs StageProofs.

(** directories above a path of [A] *)
Definition anc (A : path -> Prop) (q : path) : Prop := exists p, A p /\ below q p.
(** from [f0] to [g] only paths in [A] changed, apart from directories above
    them created or removed *)
Definition inside (A : path -> Prop) (f0 g : fs) : Prop := wf g /\ mods A (anc A) f0 g.

Lemma strip_path_spec p q r : strip_path p q = Some r <-> q = p ++ r.
Proof.
  revert q. induction p as [|a p IH]; intros q; cbn; [split; [by intros [= ->]|by intros ->]|].
  destruct q as [|b q]; [done|]. destruct (decide (a = b)) as [->|Hne].
  - rewrite IH. split; [by intros ->|by intros [= ->]].
  - split; [done|]. by intros [= <- _].
Qed.

Lemma list_to_map_keys (l : list (path * node)) k nd :
  (list_to_map l : fs) !! k = Some nd -> (k, nd) ∈ l.
Proof. apply elem_of_list_to_map_2. Qed.

Lemma NoDup_omap_keys (p q : path) (l : list (path * node)) :
  NoDup l.*1 -> NoDup (omap (fun kv => r ← strip_path p kv.1; Some (q ++ r, kv.2)) l).*1.
Proof.
  induction l as [|[k nd] l IH]; intros Hnd; [constructor|].
  rewrite fmap_cons in Hnd. apply NoDup_cons in Hnd as [Hn Hnd]. cbn [omap list_omap].
  destruct (strip_path p (k, nd).1) as [r|] eqn:E; cbn [mbind option_bind]; [|by apply IH].
  rewrite fmap_cons. apply NoDup_cons. split; [|by apply IH].
  cbn [fst]. intros Hin. apply elem_of_list_fmap in Hin as ([k' nd'] & Ek & Hin). cbn in Ek. subst k'.
  apply elem_of_list_omap in Hin as ([k2 nd2] & Hin2 & E2). cbn in E2.
  destruct (strip_path p k2) as [r2|] eqn:E3; cbn in E2; [|done]. injection E2 as E2 _.
  apply app_inv_head in E2. subst r2.
  cbn in E. apply strip_path_spec in E, E3. subst k k2. apply Hn.
  apply elem_of_list_fmap. by exists (p ++ r, nd2).
Qed.

(** what [move_tree] does to each path *)
Lemma move_tree_target p q f r :
  is_Some (f !! (p ++ r)) -> move_tree p q f !! (q ++ r) = f !! (p ++ r).
Proof.
  intros [nd Hnd]. unfold move_tree. rewrite Hnd. apply lookup_union_Some_l.
  apply elem_of_list_to_map_1.
  - apply NoDup_omap_keys. apply NoDup_fst_map_to_list.
  - apply elem_of_list_omap. exists (p ++ r, nd). split; [by apply elem_of_map_to_list|]. cbn.
    assert (strip_path p (p ++ r) = Some r) as -> by (by apply strip_path_spec). done.
Qed.
Lemma move_tree_target_None p q f r :
  f !! (p ++ r) = None -> move_tree p q f !! (q ++ r) = None.
Proof.
  intros Hnd. unfold move_tree. apply lookup_union_None. split.
  - apply eq_None_not_Some. intros [nd Hs]. apply list_to_map_keys in Hs.
    apply elem_of_list_omap in Hs as ([k' nd'] & Hin & E). cbn in E.
    destruct (strip_path p k') as [r'|] eqn:Ep; cbn in E; [|done]. injection E as E <-.
    apply app_inv_head in E. subst r'. apply strip_path_spec in Ep. subst k'.
    apply elem_of_map_to_list in Hin. congruence.
  - apply map_filter_lookup_None. right. intros nd Hf [_ H]. apply H. cbn. by exists r.
Qed.
Lemma move_tree_other p q f k :
  ~ under q k -> move_tree p q f !! k = if decide (under p k) then None else f !! k.
Proof.
  intros Hq. unfold move_tree. rewrite lookup_union_r.
  - case_decide.
    + apply map_filter_lookup_None. right. intros nd _ [Hp _]. by apply Hp.
    + destruct (f !! k) as [nd|] eqn:E.
      * apply map_filter_lookup_Some. split; [done|]. split; [done|exact Hq].
      * apply map_filter_lookup_None. by left.
  - apply eq_None_not_Some. intros [nd Hs]. apply list_to_map_keys in Hs.
    apply elem_of_list_omap in Hs as ([k' nd'] & Hin & E). cbn in E.
    destruct (strip_path p k') as [r'|] eqn:Ep; cbn in E; [|done]. injection E as E <-.
    apply Hq. rewrite <- E. apply under_app.
Qed.

Lemma removelast_app_ne (q r : path) : r <> [] -> removelast (q ++ r) = q ++ removelast r.
Proof. apply removelast_app. Qed.

Lemma wf_move_tree p q f :
  wf f -> p <> [] -> f !! p = Some Dir -> parent_is_dir f q = true -> ~ below p q -> p <> q ->
  wf (move_tree p q f).
Proof.
  intros Hwf Hp Hd Hpd Hnb Hne k nd Hk. apply parent_is_dir_spec in Hpd as [Hq Hqd].
  assert (Hpq : ~ under p q) by (intros Hu; apply Hnb; split; done).
  destruct (decide (under q k)) as [[r ->]|Hu].
  - destruct (f !! (p ++ r)) as [nd'|] eqn:E.
    2: { rewrite move_tree_target_None in Hk; done. }
    apply parent_is_dir_spec. split; [by destruct q|].
    destruct (decide (r = [])) as [->|Hr].
    + rewrite app_nil_r. rewrite app_nil_r in Hk.
      assert (Hrl : ~ under q (removelast q)).
      { intros Hu. apply (below_irrefl q). eapply below_parent; done. }
      destruct (removelast q) as [|s l] eqn:El; [done|]. cbn [fs_get] in *.
      rewrite move_tree_other by done. rewrite decide_False; [done|].
      intros Hu. apply Hpq. eapply under_trans; [exact Hu|]. rewrite <- El.
      apply below_under, removelast_below. done.
    + rewrite removelast_app_ne by done.
      assert (Hps : f !! (p ++ removelast r) = Some Dir).
      { pose proof (Hwf _ _ E) as [_ Hx]%parent_is_dir_spec. rewrite removelast_app_ne in Hx by done.
        by rewrite fs_get_nonroot in Hx by (by destruct p). }
      rewrite fs_get_nonroot by (by destruct q). rewrite move_tree_target by eauto. done.
  - rewrite move_tree_other in Hk by done. case_decide as Hpk; [done|].
    pose proof (Hwf _ _ Hk) as [Hkn Hkd]%parent_is_dir_spec. apply parent_is_dir_spec. split; [done|].
    destruct (removelast k) as [|s l] eqn:El; [done|]. cbn [fs_get] in *.
    assert (Hbl : below (s :: l) k) by (rewrite <- El; by apply removelast_below).
    rewrite move_tree_other.
    + rewrite decide_False; [done|]. intros Hu'. apply Hpk. eapply under_trans; [exact Hu'|by apply below_under].
    + intros Hu'. apply Hu. eapply under_trans; [exact Hu'|by apply below_under].
Qed.

Section coarse.
  Context (e : env) (A : path -> Prop) (f0 : fs).
  (** [T]: the paths whose whole subtree is in [A] *)
  Context (T : path -> Prop) (Aup : forall p q, T p -> under p q -> A q) (Aroot : ~ A []).
  Notation I := (inside A f0).

  Lemma T_A p : T p -> A p.
  Proof using Aup. intros H. eapply Aup; [exact H|apply under_refl]. Qed.
  Lemma A_ne p : A p -> p <> [].
  Proof using Aroot. intros H ->. done. Qed.

  Lemma in_mk : mk_ok I (fun q => A q \/ anc A q).
  Proof.
    intros f q [Hwf Hm] HP Hq Hn Hpd. split; [by eapply (wf_mk (fun _ => True))|].
    apply mods_mkdir; [|done|done]. destruct HP; auto.
  Qed.
  Lemma in_put f p nd : I f -> A p -> f !! p <> Some Dir -> parent_is_dir f p = true -> I (<[p := nd]> f).
  Proof using Aroot.
    intros [Hwf Hm] HA Hnd Hpd. split; [|by apply mods_insert]. apply wf_put; auto. by apply A_ne.
  Qed.
  Lemma in_wr p b : A p -> wr_ok I p b.
  Proof using Aroot.
    intros HA f b' HI _ Hp Hst Hpd. apply in_put; auto. destruct Hst as [->|(?&?&->)]; done.
  Qed.
  Lemma in_rmf p : A p -> rmf_ok I p.
  Proof. intros HA f nd [Hwf Hm] Hp Hf Hnd. split; [by eapply wf_rmf|by apply mods_delete]. Qed.
  Lemma in_rmd : rmd_ok I (fun q => A q \/ anc A q).
  Proof.
    intros f q [Hwf Hm] HP Hq Hf Hc. split; [by eapply (wf_rmd (fun _ => True))|].
    apply mods_rmdir; [|done|done]. destruct HP; auto.
  Qed.
  Lemma in_mv o t : A o -> A t -> mv_ok I o t.
  Proof.
    intros Ho Ht f b m [Hwf Hm] Hone Htne Hf Hd Hpd. split; [by eapply wf_mv|].
    apply mods_insert; [done|]. by apply mods_delete.
  Qed.

  Lemma pre_A p q : A p -> q `prefix_of` p -> A q \/ anc A q.
  Proof.
    intros HA Hq. destruct (decide (q = p)) as [->|Hne]; [by left|]. right. exists p. split; [done|]. by split.
  Qed.
  Lemma below_A p q : A p -> below q p -> A q \/ anc A q.
  Proof. intros HA [Hq _]. by eapply pre_A. Qed.

  Lemma k_mkdir p : A p \/ anc A p \/ p = [] -> keeps e I (f_mkdir p).
  Proof.
    intros HP w HI. eapply (w_mkdir e I); [done|exact in_mk| |auto]. destruct HP as [?|[?|?]]; auto.
  Qed.
  Lemma k_create_dir_all p : A p -> keeps e I (create_dir_all p).
  Proof.
    intros HP w HI. eapply (w_create_dir_all e I); [done|exact in_mk| |auto].
    intros q Hq _. by eapply pre_A.
  Qed.
  Lemma k_create_path p : A p -> keeps e I (create_path_for_file p).
  Proof.
    intros HP w HI. eapply (w_create_path_for_file e I); [done|exact in_mk| |auto].
    intros q Hq _. by eapply below_A.
  Qed.
  Lemma k_write p b : A p -> keeps e I (f_write p b).
  Proof using Aroot.
    intros HP w HI. eapply (w_write e I); [done|by apply in_wr|auto|auto].
  Qed.
  Lemma k_write_buf p b : A p -> keeps e I (write_buf p b).
  Proof using Aroot. intros HP. unfold write_buf. apply keeps_bind; [by apply k_create_path|]. intros _. by apply k_write. Qed.
  Lemma k_remove_file p : A p -> keeps e I (f_remove_file p).
  Proof.
    intros HP w HI. eapply (w_remove_file e I); [done|by apply in_rmf| |auto]. intros x w' ->. done.
  Qed.
  Lemma k_remove_dir p : A p \/ anc A p -> keeps e I (f_remove_dir p).
  Proof.
    intros HP w HI. eapply (w_remove_dir e I); [done|exact in_rmd|done| |auto]. intros x w' ->. done.
  Qed.
  Lemma k_copy o t : A t -> keeps e I (f_copy o t).
  Proof using Aroot.
    intros HP w HI. destruct (op_read (w_fs w) o) as [b|] eqn:E.
    - eapply (w_copy e I); [done|exact E| |auto|auto]. intros _. by apply in_wr.
    - unfold f_copy. apply wpt_fs_inv; [done| |done|]; unfold op_copy; rewrite E; [done|]. by intros.
  Qed.
  Lemma k_symlink s p : A p -> keeps e I (f_symlink s p).
  Proof using Aroot.
    intros HP. unfold f_symlink. apply keeps_step. intros g mids fin HI E. unfold op_symlink in E.
    rewrite fs_get_nonroot in E by (by apply A_ne). destruct (g !! p) eqn:Ep; [done|].
    destruct (parent_is_dir g p) eqn:Hpd; [|done]. injection E as <- <-. split; [constructor|].
    apply in_put; auto. by rewrite Ep.
  Qed.
  Lemma k_set_mtime p t : A p -> keeps e I (f_set_mtime p t).
  Proof using Aroot.
    intros HP. unfold f_set_mtime. apply keeps_step. intros g mids fin HI E. unfold op_set_mtime in E.
    rewrite fs_get_nonroot in E by (by apply A_ne). destruct (g !! p) as [[b m| |]|] eqn:Ep; try done.
    injection E as <- <-. split; [constructor|]. apply in_put; auto; [by rewrite Ep|].
    by apply (proj1 HI p (File b m)).
  Qed.
  Lemma k_rename o t : T o -> T t -> keeps e I (f_rename o t).
  Proof using Aroot Aup.
    intros Ho' Ht'. pose proof (T_A _ Ho') as Ho. pose proof (T_A _ Ht') as Ht. unfold f_rename. apply keeps_step. intros g mids fin [Hwf Hm] E. unfold op_rename in E.
    pose proof (A_ne _ Ho) as Hone. pose proof (A_ne _ Ht) as Htne.
    rewrite !fs_get_nonroot in E by done. destruct o as [|o0 o']; [done|]. set (o := o0 :: o') in *.
    assert (Hmt : mods A (anc A) g (move_tree o t g)).
    { intros k. destruct (decide (under t k)) as [Hu|Hu]; [right; left; exact (Aup _ _ Ht' Hu)|].
      rewrite move_tree_other by done. destruct (decide (under o k)) as [Hoo|]; [right; left; exact (Aup _ _ Ho' Hoo)|]. by left. }
    rewrite (fs_get_nonroot g o) in E by done.
    destruct (g !! o) as [[b m| |l]|] eqn:Eo; [| | |done].
    - destruct (parent_is_dir g t) eqn:Hpd; [|done].
      assert (Hnd : g !! t <> Some Dir) by (intros Ex; rewrite Ex in E; done).
      assert (Hfin : Some ([], <[t := File b m]> (delete o g)) = Some (mids, fin)).
      { destruct (g !! t) as [[| |]|]; done. }
      injection Hfin as <- <-. split; [constructor|]. by apply (in_mv o t).
    - destruct (parent_is_dir g t && negb (bool_decide (below o t))) eqn:Hb; [|done].
      apply andb_true_iff in Hb as [Hpd Hb]. apply negb_true_iff, bool_decide_eq_false in Hb.
      assert (Hcase : (o = t /\ mids = [] /\ fin = g) \/ (o <> t /\ mids = [] /\ fin = move_tree o t g)).
      { destruct (g !! t) as [[| |]|] eqn:Et; try done.
        - destruct (decide (o = t)); [left; by injection E as <- <-|].
          destruct (has_children g t); [done|]. right. by injection E as <- <-.
        - right. split; [intros ->; congruence|]. by injection E as <- <-. }
      destruct Hcase as [(-> & -> & ->)|(Hne & -> & ->)]; (split; [constructor|]); [done|].
      split; [by apply wf_move_tree|]. eapply mods_trans; [exact Hm|done].
    - destruct (parent_is_dir g t) eqn:Hpd; [|done].
      assert (Hnd : g !! t <> Some Dir) by (intros Ex; rewrite Ex in E; done).
      assert (Hfin : Some ([], <[t := Link l]> (delete o g)) = Some (mids, fin)).
      { destruct (g !! t) as [[| |]|]; done. }
      injection Hfin as <- <-. split; [constructor|].
      assert (Hdel : I (delete o g)) by (by eapply (in_rmf o Ho)).
      apply in_put; auto.
      + destruct (decide (o = t)) as [->|Hot]; [by rewrite lookup_delete|].
        by rewrite lookup_delete_ne.
      + apply parent_is_dir_spec in Hpd as [_ Hpd]. apply parent_is_dir_spec. split; [done|].
        destruct (removelast t) as [|s q] eqn:El; [done|]. cbn [fs_get] in *.
        rewrite lookup_delete_ne; [done|]. intros Ex. rewrite Ex in Eo. congruence.
  Qed.

  Lemma below_keys_spec p f k : k ∈ below_keys p f <-> below p k /\ is_Some (f !! k).
  Proof.
    unfold below_keys. rewrite elem_of_reverse, (sort_by_key_perm _ _), elem_of_list_filter.
    rewrite elem_of_list_fmap. split.
    - intros (H1 & [k' nd] & -> & H2). apply elem_of_map_to_list in H2. eauto.
    - intros (H1 & nd & H2). split; [done|]. exists (k, nd). split; [done|]. by apply elem_of_map_to_list.
  Qed.
  Lemma delete_seq_inside ks : forall f,
    I f -> Forall A ks -> StronglySorted (fun a b : path => length b <= length a) ks ->
    (forall k q, k ∈ ks -> below k q -> is_Some (f !! q) -> q ∈ ks) ->
    Forall I (delete_seq ks f).
  Proof.
    induction ks as [|k ks IH]; intros f [Hwf Hm] HA Hs Hc; cbn; [constructor|].
    apply Forall_cons in HA as [HAk HA]. apply StronglySorted_inv in Hs as [Hs Hk].
    assert (HI : I (delete k f)).
    { split; [|by apply mods_delete]. apply wf_delete; [done|]. intros q nd Hq Hr.
      destruct (decide (q = [])) as [|Hne]; [done|]. exfalso.
      assert (Hb : below k q) by (rewrite <- Hr; by apply removelast_below).
      assert (Hin : q ∈ k :: ks) by (apply (Hc k); [constructor|done|eauto]).
      apply elem_of_cons in Hin as [->|Hin]; [by apply below_irrefl in Hb|].
      rewrite Forall_forall in Hk. specialize (Hk _ Hin). apply below_length in Hb. lia. }
    constructor; [done|]. apply IH; auto. intros k' q Hk' Hb Hq.
    assert (Hqk : q <> k) by (intros ->; rewrite lookup_delete in Hq; by destruct Hq).
    rewrite lookup_delete_ne in Hq by done.
    assert (Hin : q ∈ k :: ks) by (apply (Hc k'); [by constructor|done|done]).
    apply elem_of_cons in Hin as [->|Hin]; done.
  Qed.
  Lemma last_cons_default {B} (l : list B) x d : List.last (x :: l) d = List.last l x.
  Proof.
    revert x d. induction l as [|y l IH]; intros x d; [done|].
    change (List.last (y :: l) d = List.last (y :: l) x). by rewrite !IH.
  Qed.
  Lemma delete_seq_last ks : forall f q,
    List.last (delete_seq ks f) f !! q = if decide (q ∈ ks) then None else f !! q.
  Proof.
    induction ks as [|k ks IH]; intros f q; cbn [delete_seq].
    { rewrite decide_False; [done|]. apply not_elem_of_nil. }
    assert (E : List.last (delete k f :: delete_seq ks (delete k f)) f =
                List.last (delete_seq ks (delete k f)) (delete k f)).
    { apply last_cons_default. }
    rewrite E, IH. destruct (decide (q = k)) as [->|Hne].
    - rewrite lookup_delete. rewrite (decide_True _ _ (proj2 (elem_of_cons ks k k) (or_introl eq_refl))).
      by case_decide.
    - rewrite lookup_delete_ne by done.
      destruct (decide (q ∈ ks)); [rewrite decide_True; [done|by constructor]|].
      rewrite decide_False; [done|]. by intros [?|?]%elem_of_cons.
  Qed.
  Lemma below_keys_sorted p f : StronglySorted (fun a b : path => length b <= length a) (below_keys p f).
  Proof.
    unfold below_keys. eapply StronglySorted_weaken; [|apply StronglySorted_reverse, sort_by_key_sorted].
    cbn. intros a b. lia.
  Qed.
  (** the tree is gone, the rest is unchanged *)
  Lemma remove_dir_all_spec p f mids fin : op_remove_dir_all p f = Some (mids, fin) ->
    p <> [] /\ f !! p = Some Dir /\
    (forall q, fin !! q = if decide (under p q) then None else f !! q).
  Proof.
    unfold op_remove_dir_all. destruct p as [|p0 p']; [done|]. set (p := p0 :: p').
    rewrite fs_get_nonroot by done. destruct (f !! p) as [[| |]|] eqn:E; try done.
    injection 1 as <- <-. split; [done|]. split; [done|]. intros q.
    destruct (decide (q = p)) as [->|Hne].
    { rewrite lookup_delete, decide_True; [done|]. apply under_refl. }
    rewrite lookup_delete_ne by done. rewrite delete_seq_last.
    destruct (decide (q ∈ below_keys p f)) as [Hin|Hin].
    - apply below_keys_spec in Hin as [[Hb _] _]. by rewrite decide_True.
    - case_decide as Hu; [|done]. destruct (f !! q) as [nd|] eqn:Eq; [|done]. exfalso. apply Hin.
      apply below_keys_spec. split; [by split|eauto].
  Qed.
  Lemma k_remove_dir_all p : T p -> keeps e I (f_remove_dir_all p).
  Proof using Aup.
    intros HP. unfold f_remove_dir_all. apply keeps_step. intros g mids fin HI E.
    pose proof (remove_dir_all_spec _ _ _ _ E) as (Hne & Hd & Hfin).
    unfold op_remove_dir_all in E. destruct p as [|p0 p']; [done|]. set (p := p0 :: p') in *.
    rewrite fs_get_nonroot, Hd in E by done. injection E as <- <-.
    assert (Hm : Forall I (delete_seq (below_keys p g) g)).
    { apply delete_seq_inside; [done| |apply below_keys_sorted|].
      - apply Forall_forall. intros k Hk. apply below_keys_spec in Hk as [[Hk _] _]. by eapply Aup.
      - intros k q Hk Hb Hq. apply below_keys_spec in Hk as [Hk _]. apply below_keys_spec.
        split; [by eapply below_trans|done]. }
    split; [done|].
    set (f' := List.last (delete_seq (below_keys p g) g) g) in *.
    assert (HI' : I f').
    { unfold f'. destruct (delete_seq (below_keys p g) g) as [|x l] eqn:El; [done|].
      rewrite <- El in *. assert (Hin : In (List.last (delete_seq (below_keys p g) g) g) (delete_seq (below_keys p g) g)).
      { rewrite El. clear. revert x. induction l as [|y l IH]; intros x; [by left|]. right. apply IH. }
      rewrite Forall_forall in Hm. apply Hm. by apply elem_of_list_In. }
    destruct HI' as [Hwf' Hm']. split; [|apply mods_delete; [by apply T_A|done]].
    apply wf_delete; [done|]. intros q nd Hq Hr. destruct (decide (q = [])) as [|Hqn]; [done|]. exfalso.
    assert (Hb : below p q) by (rewrite <- Hr; by apply removelast_below).
    unfold f' in Hq. rewrite delete_seq_last in Hq. case_decide as Hin; [done|]. apply Hin.
    apply below_keys_spec. eauto.
  Qed.

  Lemma k_move_file src dst rel :
    T (path_join src rel) -> T (path_join dst rel) -> keeps e I (move_file src dst rel).
  Proof using Aroot Aup.
    intros Ho Ht. pose proof (T_A _ Ho). pose proof (T_A _ Ht). unfold move_file. cbv zeta. apply keeps_bind; [by apply k_create_path|]. intros _.
    apply keeps_bind; [apply keeps_exists|]. intros ex. destruct (negb ex); [apply keeps_fail|].
    apply keeps_bind; [apply keeps_catch; by apply k_rename|]. intros [|]; [apply keeps_ret|].
    apply keeps_bind; [by apply k_copy|]. intros _. by apply k_remove_file.
  Qed.

  (** removing an existing path and its emptied parents *)
  Lemma k_remove_path p : A p -> keeps e I (ex ← f_exists p; when_ ex (remove_file_and_empty_parent_dirs p)).
  Proof.
    intros HP w HI. wp1. wp1. wp1; [|done].
    eapply (w_remove_path e I); [done|apply HI|done|by apply in_rmf|exact in_rmd| | |auto].
    - intros q Hq _. by eapply pre_A.
    - intros x w' ->. done.
  Qed.
End coarse.
