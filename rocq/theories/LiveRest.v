(** * A run that nothing stands in the way of: scripts, records, cleaning, the
      rsync tree, the notification and the state *)
From Coq Require Import ZifyN ZifyNat ZifyBool.
From Verif Require Export LiveRun RsyncRun.
From Verif Require Import Live FsWf.

(** every script can be started, and none fails, or failures do not matter *)
Definition scripts_fine (c : config) (e : env) : Prop :=
  forall k p, p ∈ c_scripts c -> e_script e k p = SOk \/ (e_script e k p = SFail /\ c_reject c = false).

Lemma tot_scripts c e w (Q : unit -> world -> Prop) : scripts_fine c e ->
  (forall w', w_fs w' = w_fs w -> Q tt w') -> tot e (pre_validate_scripts c) w Q.
Proof.
  intros Hf HQ. unfold pre_validate_scripts. destruct (is_empty (c_scripts c)); [by apply tot_ret, HQ|].
  apply tot_bind.
  assert (H : forall l i w1, (forall p, p ∈ l -> p ∈ c_scripts c) -> (i = true -> c_reject c = false) ->
    tot e (run_scripts l i) w1 (fun i' w' => w_fs w' = w_fs w1 /\ (i' = true -> c_reject c = false))).
  { induction l as [|p l IH]; intros i w1 Hl Hi; cbn [run_scripts]; [by apply tot_ret|].
    apply tot_bind. unfold run_script. eexists _, _. split; [reflexivity|]. cbv beta.
    assert (Hl' : forall p, p ∈ l -> p ∈ c_scripts c) by (intros; apply Hl; by constructor).
    destruct (Hf (w_n w1) p (Hl _ ltac:(constructor))) as [->|[-> Hr]]; (eapply tot_conseq; [apply IH; [done|done]|done]). }
  eapply tot_conseq; [apply H; done|]. intros i w1 [E1 Hi]. cbv beta.
  destruct i; [rewrite Hi by done|]; by apply tot_ret, HQ.
Qed.

(** nothing is below [p] *)
Definition vacant (f : fs) (p : path) : Prop := forall k, below p k -> f !! k = None.
Lemma vacant_none f p : wf f -> p <> [] -> f !! p = None -> vacant f p.
Proof.
  intros Hw Hp E k Hk. destruct (f !! k) as [nd|] eqn:Ek; [|done]. exfalso.
  assert (Hd : is_Some (f !! p)); [|rewrite E in Hd; by destruct Hd].
  destruct Hk as [Hk Hne]. revert nd Hne Ek. destruct Hk as [q ->]. induction q as [|s q IH] using rev_ind; intros nd Hne Ek; [by rewrite app_nil_r in Hne|].
  destruct (proj1 (parent_is_dir_spec _ _) (Hw _ _ Ek)) as [_ Hd].
  rewrite app_assoc, removelast_last in Hd. rewrite fs_get_nonroot in Hd by (by destruct p).
  destruct (decide (q = [])) as [->|Hq]; [rewrite app_nil_r in Hd; by eauto|]. eapply IH; [|exact Hd].
  intros Ex. apply Hq. apply (app_inv_head p). by rewrite app_nil_r.
Qed.

(** ** Records *)
Section memory.
  Context (e : env).
  Lemma tot_deprecate_now p w (Q : deprecated -> world -> Prop) :
    (forall w' d, w_fs w' = w_fs w -> dp_path d = p -> run_clock e (dp_since d) -> Q d w') ->
    tot e (deprecate_now p) w Q.
  Proof using.
    intros H. unfold deprecate_now. apply tot_bind. unfold time_now. eexists _, _. split; [reflexivity|].
    cbv beta. apply tot_ret, H; [done|done|]. by exists (w_n w).
  Qed.
  Lemma tot_deprecate_all l : forall w (Q : list deprecated -> world -> Prop),
    (forall w' deps, w_fs w' = w_fs w -> dp_path <$> deps = l ->
       Forall (fun d => run_clock e (dp_since d)) deps -> Q deps w') ->
    tot e (deprecate_all l) w Q.
  Proof using.
    induction l as [|p l IH]; intros w Q H; cbn [deprecate_all].
    - by apply tot_ret, H.
    - apply tot_bind, tot_deprecate_now. intros w1 d E1 Hp Hd. apply tot_bind, IH. intros w2 deps E2 Hl Hds.
      apply tot_ret, H; [by rewrite E2| |by constructor]. cbn. by rewrite Hp, Hl.
  Qed.
  Lemma tot_apply_memory st sg (k : rrdp_state -> M rrdp_state) w (Q : rrdp_state -> world -> Prop) :
    (forall w' st', w_fs w' = w_fs w -> merged e st sg st' -> tot e (k st') w' Q) ->
    tot e
      (st1 ← deprecate_snapshot st;
       let st2 := set_snap st1 (sg_snap sg) in
       st3 ← (if sg_reset sg then deltas_deprecate_all st2 else deltas_deprecate_before st2 (sg_cutoff sg));
       k (merge_deltas st3 (sg_deltas sg))) w Q.
  Proof using.
    intros Hk. apply tot_bind.
    assert (H1 : tot e (deprecate_snapshot st) w (fun r w' => w_fs w' = w_fs w /\
      exists deps, r = (set_deltas st (st_deltas st) (st_deprecated st ++ deps)) /\
                   dp_path <$> deps = option_list (snapshot_path st) /\
                   Forall (fun d => run_clock e (dp_since d)) deps)).
    { unfold deprecate_snapshot. destruct (snapshot_path st) as [p|].
      - apply tot_bind, tot_deprecate_now. intros w' d E1 Hp Hd. apply tot_ret. split; [done|]. exists [d].
        split; [done|]. split; [cbn; by rewrite Hp|]. by constructor.
      - apply tot_ret. split; [done|]. exists []. split; [|split; [done|constructor]]. rewrite app_nil_r. by destruct st. }
    eapply tot_conseq; [exact H1|]. intros r w1 (E1 & deps1 & -> & Hp1 & Hd1). cbv zeta.
    apply tot_bind. unfold kept, gone, dropped in *.
    assert (Hfin : forall w2 deps2 ks gs, w_fs w2 = w_fs w1 ->
      dp_path <$> deps2 = (fun d => mp_path (st_map st) (ds_rel d)) <$> gs ->
      Forall (fun d => run_clock e (dp_since d)) deps2 -> kept st sg = ks -> gone st sg = gs ->
      tot e (k (merge_deltas (set_deltas (set_snap (set_deltas st (st_deltas st) (st_deprecated st ++ deps1)) (sg_snap sg))
                                  ks ((st_deprecated st ++ deps1) ++ deps2)) (sg_deltas sg))) w2 Q).
    { intros w2 deps2 ks gs E2 Hp2 Hd2 Hks Hgs. apply Hk; [by rewrite E2|]. split; try done.
      - cbn. by rewrite Hks.
      - cbn. exists (deps1 ++ deps2). rewrite app_assoc. split; [done|]. split; [|by apply Forall_app].
        rewrite fmap_app, Hp1, Hp2. unfold dropped. by rewrite Hgs. }
    destruct (sg_reset sg) eqn:Hr.
    - unfold deltas_deprecate_all. apply tot_bind, tot_deprecate_all. intros w2 deps2 E2 Hp2 Hd2. apply tot_ret.
      eapply Hfin; [done|exact Hp2|done| |]; unfold kept, gone; by rewrite Hr.
    - unfold deltas_deprecate_before. cbn [set_snap set_deltas st_deltas st_map].
      destruct (split_before (sg_cutoff sg) (st_deltas st)) as [ks gs] eqn:Es.
      apply tot_bind, tot_deprecate_all. intros w2 deps2 E2 Hp2 Hd2. apply tot_ret.
      eapply Hfin; [done|exact Hp2|done| |]; unfold kept, gone; by rewrite Hr, Es.
  Qed.
End memory.

Section rest.
  Context (e : env) (He : no_faults e) (T D : path -> Prop).
  Context (Tne : forall t, T t -> t <> []) (Tanti : forall t, T t -> ~ dirs T D t).
  Context (Dup : forall d d', D d -> below d' d -> D d').
  Notation room := (room T D).
  Notation frame := (frame T D).
  Notation X := (e_ext e).

  (** ** Cleaning *)
  Lemma exists_file f p : p <> [] -> file_or_none f p -> fs_exists f p = true -> exists b m, f !! p = Some (File b m).
  Proof using. intros Hne [E|?] Hx; [|done]. exfalso. revert Hx. unfold fs_exists, fs_stat. by rewrite fs_get_nonroot, E. Qed.

  Lemma tot_clean c st w (Q : rrdp_state -> world -> Prop) :
    room (w_fs w) -> (forall d, d ∈ st_deprecated st -> T (dp_path d)) ->
    (forall w' cb, room (w_fs w') ->
       mods (fun q => exists d, d ∈ st_deprecated st /\ dp_path d = q)
            (fun q => exists d, d ∈ st_deprecated st /\ below q (dp_path d)) (w_fs w) (w_fs w') ->
       Q (set_deltas st (st_deltas st) (filter (fun d => (cb < dp_since d)%Z) (st_deprecated st))) w') ->
    tot e (clean st c) w Q.
  Proof using He Tne.
    intros Hr HT HQ. unfold clean, seconds_ago. apply tot_bind, tot_bind, tot_clock. intros now w1 E1. apply tot_ret.
    set (cb := wrap64 (now - c_cleanup_after c)). apply tot_bind.
    set (S := fun q => exists d, d ∈ st_deprecated st /\ dp_path d = q).
    set (U := fun q => exists d, d ∈ st_deprecated st /\ below q (dp_path d)).
    apply (tot_for_each _ _ _ _ (fun l w' => (forall d, d ∈ l -> d ∈ st_deprecated st) /\ room (w_fs w') /\ mods S U (w_fs w) (w_fs w'))).
    - split; [|split; [by rewrite E1|rewrite E1; apply mods_refl]]. intros d [_ Hd]%elem_of_list_filter. done.
    - intros d l w2 (Hl & R2 & M2). assert (Hd : d ∈ st_deprecated st) by (apply Hl; constructor).
      assert (Hl' : forall d', d' ∈ l -> d' ∈ st_deprecated st) by (intros; apply Hl; by constructor).
      apply tot_bind, tot_exists. apply tot_when; [|intros _; done]. intros Ex.
      assert (Tne' := Tne _ (HT d Hd)).
      destruct (exists_file _ _ Tne' (proj1 (proj2 R2) _ (HT d Hd)) Ex) as (b & m & E).
      apply (tot_remove e He T D (dp_path d) b m); [done|done|done|]. intros w3 R3 M3 _. split; [done|]. split; [done|].
      eapply mods_trans; [exact M2|]. intros q. destruct (M3 q) as [?|[->|([? ?] & ? & ?)]]; [by left|right; left; by exists d|].
      right. right. split; [by exists d|done].
    - intros w2 (_ & R2 & M2). by apply tot_ret, HQ.
  Qed.

  (** ** The rsync tree *)
  Lemma fs_exists_dir f p : p <> [] -> dir_or_none f p -> fs_exists f p = bool_decide (f !! p = Some Dir).
  Proof using.
    intros Hne [E|E]; unfold fs_exists, fs_stat; rewrite fs_get_nonroot, E by done; [by rewrite bool_decide_false|by rewrite bool_decide_true].
  Qed.
  Lemma tot_out out w (Q : unit -> world -> Prop) : room (w_fs w) -> D out -> out <> [] ->
    (forall w', room (w_fs w') -> w_fs w' !! out = Some Dir -> frame (fun _ => False) (w_fs w) (w_fs w') -> Q tt w') ->
    tot e (create_out_path_if_missing out) w Q.
  Proof using He Tanti Dup.
    intros Hr HD Hne HQ. unfold create_out_path_if_missing. apply tot_bind, tot_exists.
    rewrite (fs_exists_dir _ out Hne (proj2 (proj2 Hr) out (or_intror HD) Hne)).
    destruct (bool_decide _) eqn:Eb; cbn [unless_].
    - apply tot_ret, HQ; [done|by apply bool_decide_eq_true_1 in Eb|apply frame_refl].
    - apply (tot_create_dir_all e He T D Tanti Dup); [done|by right|]. intros w' R' E' F'. apply HQ; [done| |done].
      by rewrite fs_get_nonroot in E'.
  Qed.
  Lemma tot_publish h out u b w (Q : unit -> world -> Prop) : room (w_fs w) -> T (object_path h out u) ->
    (forall w', room (w_fs w') -> frame (eq (object_path h out u)) (w_fs w) (w_fs w') -> Q tt w') ->
    tot e (publish h out u (Some b)) w Q.
  Proof using He Tne Tanti Dup.
    intros Hr HT HQ. unfold publish. cbv zeta. set (p := object_path h out u) in *.
    apply tot_bind, (tot_of_option _ _ _ b); [done|]. apply tot_bind, (tot_write_buf e He T D Tne Tanti Dup); [done|done|].
    intros w1 R1 E1 F1. unfold fix_since. apply tot_bind, tot_getext. destruct (object_time X p b) as [t|]; [|by apply tot_ret, HQ].
    apply tot_bind. apply tot_catch_ok. unfold f_set_mtime.
    apply (tot_fs_step e He _ _ [] (<[p := File b (Some t)]> (w_fs w1))).
    { unfold op_set_mtime. pose proof (Tne _ HT). by rewrite fs_get_nonroot, E1. }
    intros w2 E2. apply tot_ret, HQ; rewrite E2.
    - apply (room_put T D Tne Tanti); [done|done|]. by apply (proj1 R1 _ _ E1).
    - eapply frame_trans; [exact F1|]. intros q Hq. rewrite lookup_insert_ne by done. by left.
  Qed.
  Lemma tot_objects h out els w (Q : unit -> world -> Prop) : room (w_fs w) ->
    Forall (fun el => T (object_path h out el.1) /\ is_Some el.2) els ->
    (forall w', room (w_fs w') -> frame (fun p => exists u o, (u, o) ∈ els /\ p = object_path h out u) (w_fs w) (w_fs w') -> Q tt w') ->
    tot e (for_each els (fun '(u, data) => publish h out u data)) w Q.
  Proof using He Tne Tanti Dup.
    intros Hr Hels HQ. rewrite Forall_forall in Hels.
    apply (tot_for_each _ _ _ _ (fun l w' => (forall el, el ∈ l -> el ∈ els) /\ room (w_fs w') /\
      frame (fun p => exists u o, (u, o) ∈ els /\ p = object_path h out u) (w_fs w) (w_fs w'))).
    - split; [done|]. split; [done|apply frame_refl].
    - intros [u o] l w1 (Hl & R1 & F1). destruct (Hels _ (Hl _ ltac:(constructor))) as [HT [b Eb]]. cbn in HT, Eb. subst o.
      apply tot_publish; [done|done|]. intros w2 R2 F2. split; [intros; apply Hl; by constructor|]. split; [done|].
      eapply frame_trans; [exact F1|]. eapply frame_weaken; [|exact F2]. intros p <-. exists u, (Some b). split; [|done].
      apply Hl. constructor.
    - intros w1 (_ & R1 & F1). by apply HQ.
  Qed.

  (** the link *)
  Lemma wf_other_insert f p nd : wf f -> p <> [] -> parent_is_dir f p = true -> f !! p <> Some Dir -> wf (<[p := nd]> f).
  Proof using.
    intros Hw Hne Hp Hnd q nd' Hq. apply parent_is_dir_spec.
    assert (Hpar : q <> [] /\ fs_get f (removelast q) = Some Dir).
    { apply parent_is_dir_spec. destruct (decide (q = p)) as [->|Hqp]; [done|].
      rewrite lookup_insert_ne in Hq by done. by eapply Hw. }
    destruct Hpar as [Hqn Hpar]. split; [done|].
    destruct (removelast q) as [|x r] eqn:Er; [done|]. rewrite fs_get_nonroot in * by done.
    rewrite lookup_insert_ne; [done|]. intros ->. congruence.
  Qed.
  Lemma room_insert f p nd : room f -> p <> [] -> parent_is_dir f p = true -> f !! p <> Some Dir -> ~ T p -> ~ dirs T D p -> room (<[p := nd]> f).
  Proof using.
    intros (Hw & H1 & H2) Hne Hp Hnd HT HD. split; [by apply wf_other_insert|]. split.
    - intros t Ht. unfold file_or_none. rewrite lookup_insert_ne; [by apply H1|]. by intros ->.
    - intros q Hq Hqn. unfold dir_or_none. rewrite lookup_insert_ne; [by apply H2|]. by intros ->.
  Qed.
  Lemma room_delete f p nd : room f -> p <> [] -> f !! p = Some nd -> nd <> Dir -> room (delete p f).
  Proof using.
    intros H Hne E Hd. eapply room_sub; [|eapply (wf_rmf p); [apply H|done|exact E|done]|exact H].
    intros q nd' [_ ?]%lookup_delete_Some. done.
  Qed.
  Definition tmp_fine (c : config) (f : fs) : Prop :=
    file_or_none f (link_tmp c) \/ exists r, f !! link_tmp c = Some (Link (dir_name r)) /\ f !! rev_path c r = Some Dir.
  Lemma tot_symlink c r w (Q : unit -> world -> Prop) : room (w_fs w) ->
    fs_get (w_fs w) (c_rsync_dir c) = Some Dir ->
    ~ T (link_tmp c) -> ~ dirs T D (link_tmp c) -> ~ T (rsync_current c) -> ~ dirs T D (rsync_current c) ->
    w_fs w !! rsync_current c <> Some Dir -> tmp_fine c (w_fs w) ->
    (forall w', room (w_fs w') -> Q tt w') -> tot e (symlink_current r c) w Q.
  Proof using He.
    intros Hr Hdir HT1 HD1 HT2 HD2 Hcur Htmp HQ. destruct (link_tmp_ne c) as (Ht & Hcu & Htc).
    assert (Hp1 : forall f, fs_get f (c_rsync_dir c) = Some Dir -> parent_is_dir f (link_tmp c) = true).
    { intros f H. apply parent_is_dir_spec. split; [done|]. by rewrite link_tmp_eq, removelast_last. }
    assert (Hp2 : forall f, fs_get f (c_rsync_dir c) = Some Dir -> parent_is_dir f (rsync_current c) = true).
    { intros f H. apply parent_is_dir_spec. split; [done|]. by rewrite rsync_current_eq, removelast_last. }
    assert (Hdt : c_rsync_dir c <> link_tmp c).
    { rewrite link_tmp_eq. intros E. apply (f_equal length) in E. rewrite app_length in E. cbn in E. lia. }
    unfold symlink_current. cbv zeta. fold (link_tmp c). apply tot_bind, tot_exists. apply tot_bind.
    assert (Hgone : forall w1, w_fs w1 = delete (link_tmp c) (w_fs w) -> room (w_fs w1) ->
      tot e (f_symlink (dir_name r) (link_tmp c);; f_rename (link_tmp c) (rsync_current c)) w1 Q).
    { intros w1 E1 R1. apply tot_bind.
      assert (Hd1 : fs_get (w_fs w1) (c_rsync_dir c) = Some Dir).
      { rewrite E1. destruct (c_rsync_dir c) as [|x d]; [done|]. rewrite fs_get_nonroot in * by done. by rewrite lookup_delete_ne. }
      unfold f_symlink. apply (tot_fs_step e He _ _ [] (<[link_tmp c := Link (dir_name r)]> (w_fs w1))).
      { unfold op_symlink. rewrite fs_get_nonroot by done. rewrite E1, lookup_delete, <- E1. by rewrite Hp1. }
      intros w2 E2. assert (R2 : room (w_fs w2)).
      { rewrite E2. apply room_insert; try done; [by apply Hp1|]. rewrite E1, lookup_delete. done. }
      assert (Hd2 : fs_get (w_fs w2) (c_rsync_dir c) = Some Dir).
      { rewrite E2. destruct (c_rsync_dir c) as [|x d]; [done|]. rewrite fs_get_nonroot in * by done. by rewrite lookup_insert_ne. }
      unfold f_rename. apply (tot_fs_step e He _ _ [] (<[rsync_current c := Link (dir_name r)]> (delete (link_tmp c) (w_fs w2)))).
      { unfold op_rename. destruct (link_tmp c) as [|x t] eqn:Et; [done|]. rewrite <- Et in *. rewrite !fs_get_nonroot by (by rewrite ?Et).
        assert (w_fs w2 !! link_tmp c = Some (Link (dir_name r))) as -> by (rewrite E2; apply lookup_insert).
        rewrite Hp2 by done.
        assert (w_fs w2 !! rsync_current c = w_fs w !! rsync_current c) as ->.
        { rewrite E2, lookup_insert_ne, E1, lookup_delete_ne by done. done. }
        by destruct (w_fs w !! rsync_current c) as [[]|]. }
      intros w3 E3. apply HQ. rewrite E3.
      assert (Hd3 : fs_get (delete (link_tmp c) (w_fs w2)) (c_rsync_dir c) = Some Dir).
      { destruct (c_rsync_dir c) as [|x d]; [done|]. rewrite fs_get_nonroot in * by done. by rewrite lookup_delete_ne. }
      apply room_insert; try done.
      - eapply room_delete; [done|done| |]; [rewrite E2; apply lookup_insert|done].
      - by apply Hp2.
      - rewrite lookup_delete_ne, E2, lookup_insert_ne, E1, lookup_delete_ne by done. done. }
    assert (Hrm : forall nd, w_fs w !! link_tmp c = Some nd -> nd <> Dir ->
      tot e (f_remove_file (link_tmp c)) w (fun _ w1 => tot e (f_symlink (dir_name r) (link_tmp c);; f_rename (link_tmp c) (rsync_current c)) w1 Q)).
    { intros nd E Hnd. unfold f_remove_file. apply (tot_fs_step e He _ _ [] (delete (link_tmp c) (w_fs w))).
      - unfold op_remove_file. rewrite fs_get_nonroot, E by done. by destruct nd.
      - intros w1 E1. apply Hgone; [done|]. rewrite E1. by eapply room_delete. }
    destruct Htmp as [[E|(b & m & E)]|(r' & E & Ed)].
    - assert (fs_exists (w_fs w) (link_tmp c) = false) as -> by (unfold fs_exists, fs_stat; by rewrite fs_get_nonroot, E).
      apply tot_ret, Hgone; [|done]. symmetry. by apply delete_notin.
    - rewrite (exists_at _ _ b m) by done. by eapply Hrm.
    - assert (fs_exists (w_fs w) (link_tmp c) = true) as ->.
      { unfold fs_exists, fs_stat. rewrite fs_get_nonroot, E by done.
        assert (path_join (removelast (link_tmp c)) (dir_name r') = rev_path c r') as ->.
        { by rewrite link_tmp_eq, removelast_last. }
        rewrite fs_get_nonroot; [by rewrite Ed|]. rewrite rev_path_eq. by destruct (c_rsync_dir c). }
      by eapply Hrm.
  Qed.

  (** renaming directories *)
  Lemma room_move p q f : room f -> p <> [] -> f !! p = Some Dir -> parent_is_dir f q = true -> ~ below p q -> p <> q ->
    ~ T q -> (forall k, below q k -> ~ T k /\ ~ dirs T D k) -> room (move_tree p q f).
  Proof using.
    intros (Hw & H1 & H2) Hne Ep Hpd Hnb Hpq HTq Hno.
    assert (Hcase : forall k, T k \/ dirs T D k -> k = q \/ ~ under q k).
    { intros k Hk. destruct (decide (k = q)) as [|Hkq]; [by left|right]. intros Hu.
      destruct (Hno k); [split; [done|congruence]|]. naive_solver. }
    split; [by apply wf_move_tree|]. split.
    - intros t Ht. unfold file_or_none. destruct (Hcase t) as [->|Hu]; [by left|done|].
      rewrite move_tree_other by done. case_decide; [by left|]. by apply H1.
    - intros k Hk Hkn. unfold dir_or_none. destruct (Hcase k) as [->|Hu]; [by right| |].
      + right. pose proof (move_tree_target p q f []) as Hm. rewrite !app_nil_r, Ep in Hm. apply Hm. eauto.
      + rewrite move_tree_other by done. case_decide; [by left|]. by apply H2.
  Qed.
  Lemma tot_rename_dir p q w (Q : unit -> world -> Prop) : room (w_fs w) -> p <> [] -> q <> [] -> w_fs w !! p = Some Dir ->
    dir_or_none (w_fs w) q -> vacant (w_fs w) q ->
    parent_is_dir (w_fs w) q = true -> apart p q -> ~ T q -> (forall k, below q k -> ~ T k /\ ~ dirs T D k) ->
    (forall w', room (w_fs w') -> w_fs w' = move_tree p q (w_fs w) -> Q tt w') -> tot e (f_rename p q) w Q.
  Proof using He.
    intros Hr Hp Hq Ep Eq Hv Hpd Hap HT Hno HQ. destruct Hap as [Ha1 Ha2].
    assert (Hnb : ~ below p q) by (intros [? _]; auto). assert (Hpq : p <> q) by (intros ->; by apply Ha1, under_refl).
    unfold f_rename. apply (tot_fs_step e He _ _ [] (move_tree p q (w_fs w))).
    - unfold op_rename. destruct p as [|x p']; [done|]. rewrite !fs_get_nonroot, Ep, Hpd by done.
      rewrite bool_decide_false by done. cbn [negb andb]. destruct Eq as [->| ->]; [done|]. rewrite decide_False by done.
      assert (has_children (w_fs w) q = false) as -> by (apply has_children_false; intros r nd Hr'; intros Hb; by rewrite (Hv r Hb) in Hr'). done.
    - intros w' E'. apply HQ; [|done]. rewrite E'. by apply room_move.
  Qed.

  (** removing revisions *)
  Lemma wf_without f g p : wf f -> (forall q, g !! q = if decide (under p q) then None else f !! q) -> wf g.
  Proof using.
    intros Hw H q nd Hq. rewrite H in Hq. case_decide as Hu; [done|]. destruct (proj1 (parent_is_dir_spec _ _) (Hw q nd Hq)) as [Hne Hd]. apply parent_is_dir_spec. split; [done|].
    destruct (removelast q) as [|x r] eqn:Er; [done|]. rewrite fs_get_nonroot in * by done. rewrite H, decide_False; [done|].
    intros Hu'. apply Hu. eapply under_trans; [exact Hu'|]. rewrite <- Er. by apply removelast_below.
  Qed.
  Lemma tot_remove_dir_all p w (Q : unit -> world -> Prop) : room (w_fs w) -> p <> [] -> w_fs w !! p = Some Dir ->
    (forall w', room (w_fs w') -> (forall q nd, w_fs w' !! q = Some nd -> w_fs w !! q = Some nd) -> Q tt w') ->
    tot e (f_remove_dir_all p) w Q.
  Proof using He.
    intros Hr Hne Ep HQ. unfold f_remove_dir_all.
    destruct (op_remove_dir_all p (w_fs w)) as [[mids fin]|] eqn:E.
    2: { unfold op_remove_dir_all in E. destruct p; [done|]. by rewrite fs_get_nonroot, Ep in E. }
    eapply tot_fs_step; [done|exact E|]. intros w' E'. destruct (remove_dir_all_spec _ _ _ _ E) as (_ & _ & Hfin).
    assert (Hsub : forall q nd, fin !! q = Some nd -> w_fs w !! q = Some nd).
    { intros q nd. rewrite Hfin. by case_decide. }
    apply HQ; rewrite E'; [|done]. eapply room_sub; [exact Hsub| |exact Hr]. eapply wf_without; [apply Hr|exact Hfin].
  Qed.
  Lemma tot_clean_old c rs w (Q : rsync_state -> world -> Prop) : room (w_fs w) ->
    (forall o, o ∈ rs_old rs -> dir_or_none (w_fs w) (rev_path c (or_rev o))) ->
    (forall w' rs', room (w_fs w') -> Q rs' w') -> tot e (clean_old rs c) w Q.
  Proof using He.
    intros Hr Ho HQ. unfold clean_old, seconds_ago. apply tot_bind, tot_bind, tot_clock. intros now w1 E1. apply tot_ret. apply tot_bind.
    apply (tot_for_each _ _ _ _ (fun l w' => (forall o, o ∈ l -> o ∈ rs_old rs) /\ room (w_fs w') /\
      (forall q nd, w_fs w' !! q = Some nd -> w_fs w !! q = Some nd))).
    - split; [by intros o [_ ?]%elem_of_list_filter|]. rewrite E1. done.
    - intros o l w2 (Hl & R2 & S2). assert (Hin : o ∈ rs_old rs) by (apply Hl; constructor). cbv zeta.
      assert (Hl' : forall o', o' ∈ l -> o' ∈ rs_old rs) by (intros; apply Hl; by constructor).
      assert (Hne : rev_path c (or_rev o) <> []) by (rewrite rev_path_eq; by destruct (c_rsync_dir c)).
      assert (Hdn : dir_or_none (w_fs w2) (rev_path c (or_rev o))).
      { unfold dir_or_none. destruct (w_fs w2 !! _) as [nd|] eqn:E; [|by left]. apply S2 in E. destruct (Ho o Hin); [congruence|right; congruence]. }
      apply tot_bind, tot_exists. rewrite fs_exists_dir by done. apply tot_when; [|done]. intros Ex%bool_decide_eq_true_1.
      apply tot_remove_dir_all; [done|done|done|]. intros w3 R3 S3. split; [done|]. split; [done|]. auto.
    - intros w2 (_ & R2 & _). by apply tot_ret, HQ.
  Qed.

  Lemma tot_recover c rs w (Q : rsync_state -> world -> Prop) : rsync_starts c (w_fs w) rs ->
    (forall w', w_fs w' = w_fs w -> Q rs w') -> tot e (rsync_recover c) w Q.
  Proof using He.
    intros Hs HQ. unfold rsync_recover. apply tot_bind, tot_exists. destruct Hs as [(-> & b & Hb & Hp)|(-> & ->)].
    - apply tot_bind. apply (tot_read e He _ b); [done|]. intros w1 E1. apply (tot_of_option _ _ _ rs); [done|]. by apply HQ.
    - by apply tot_ret, HQ.
  Qed.
  (** what the switch to a new revision needs *)
  Definition switch_ready (c : config) (rs : rsync_state) (r : revision) (f : fs) : Prop :=
    if use_symlinks c then f !! rsync_current c <> Some Dir /\ tmp_fine c f
    else match rs_current rs with
         | Some cur => dir_or_none f (rsync_current c) /\ dir_or_none f (rev_path c cur) /\
             (f !! rsync_current c = Some Dir -> vacant f (rev_path c cur)) /\ cur <> r
         | None => dir_or_none f (rsync_current c) /\ vacant f (rsync_current c)
         end.
  Lemma tot_switch c rs r w (Q : unit -> world -> Prop) :
    let out := rev_path c r in
    room (w_fs w) -> switch_ready c rs r (w_fs w) -> w_fs w !! out = Some Dir ->
    ~ T (rsync_current c) -> ~ dirs T D (rsync_current c) -> ~ T (link_tmp c) -> ~ dirs T D (link_tmp c) ->
    (use_symlinks c = false -> (forall k, below (rsync_current c) k -> ~ T k /\ ~ dirs T D k) /\
       forall cur, rs_current rs = Some cur ->
         ~ T (rev_path c cur) /\ forall k, below (rev_path c cur) k -> ~ T k /\ ~ dirs T D k) ->
    (use_symlinks c = true -> forall cur, rs_current rs = Some cur -> D (rev_path c cur)) ->
    (forall w', room (w_fs w') -> (forall cur, rs_current rs = Some cur -> dir_or_none (w_fs w') (rev_path c cur)) -> Q tt w') ->
    tot e (if use_symlinks c then symlink_current r c else rename_new_revision r rs c) w Q.
  Proof using He Tne Tanti Dup.
    intros out Hr Hsw Eout HTc HDc HTt HDt Hmv Hsy HQ.
    assert (Hne : forall r', rev_path c r' <> []) by (intros r'; rewrite rev_path_eq; by destruct (c_rsync_dir c)).
    assert (Hcn : rsync_current c <> []) by apply link_tmp_ne.
    assert (Hdir : fs_get (w_fs w) (c_rsync_dir c) = Some Dir).
    { pose proof (proj1 Hr _ _ Eout) as Hp. apply parent_is_dir_spec in Hp as [_ Hp].
      unfold out in Hp. by rewrite rev_path_eq, removelast_last in Hp. }
    unfold switch_ready in Hsw. destruct (use_symlinks c).
    - destruct Hsw as [H1 H2]. apply tot_symlink; try done. intros w' R'. apply HQ; [done|]. intros cur Hcur.
      apply (proj2 (proj2 R')); [|apply Hne]. right. by apply Hsy.
    - destruct (Hmv eq_refl) as [Hbc Hbr]. unfold rename_new_revision. cbv zeta. apply tot_bind.
      assert (Hlast : forall w1, room (w_fs w1) -> w_fs w1 !! out = Some Dir -> dir_or_none (w_fs w1) (rsync_current c) ->
        vacant (w_fs w1) (rsync_current c) -> fs_get (w_fs w1) (c_rsync_dir c) = Some Dir ->
        (forall cur, rs_current rs = Some cur -> cur <> r /\ dir_or_none (w_fs w1) (rev_path c cur)) ->
        tot e (f_rename out (rsync_current c)) w1 Q).
      { intros w1 R1 E1 C1 V1 D1 O1. apply tot_rename_dir; try done.
        { apply Hne. }
        { apply parent_is_dir_spec. split; [done|]. by rewrite rsync_current_eq, removelast_last. }
        { apply rev_current_apart. }
        intros w2 R2 E2. apply HQ; [done|]. intros cur Hcur. destruct (O1 cur Hcur) as [Hn Hd]. unfold dir_or_none.
        rewrite E2, move_tree_other.
        2: { destruct (rev_current_apart c cur) as [Hx1 Hx2]. exact Hx2. }
        destruct (revs_apart c r cur (not_eq_sym Hn)) as [Hx1 Hx2]. rewrite decide_False; [done|]. exact Hx1. }
      destruct (rs_current rs) as [cur|].
      + destruct Hsw as (Hcd & Hrd & Hrn & Hcr). apply tot_bind, tot_exists. rewrite fs_exists_dir by done.
        destruct (bool_decide _) eqn:Eb; cbn [when_].
        * apply bool_decide_eq_true_1 in Eb. destruct (Hbr cur eq_refl) as [Hb1 Hb2]. specialize (Hrn Eb).
          apply tot_rename_dir; try done.
          { apply parent_is_dir_spec. split; [apply Hne|]. by rewrite rev_path_eq, removelast_last. }
          { apply apart_sym, rev_current_apart. }
          intros w1 R1 E1. destruct (rev_current_apart c cur) as [Ha1 Ha2].
          destruct (rev_current_apart c r) as [Hr1 Hr2]. destruct (revs_apart c cur r Hcr) as [Hr3 Hr4].
          assert (Hdc : ~ under (rev_path c cur) (c_rsync_dir c) /\ ~ under (rsync_current c) (c_rsync_dir c)).
          { rewrite rev_path_eq, rsync_current_eq. split; intros [k Hk]; apply (f_equal length) in Hk; rewrite !app_length in Hk; cbn in Hk; lia. }
          apply Hlast; [done|..].
          -- rewrite E1, move_tree_other by done. by rewrite decide_False.
          -- left. rewrite E1, move_tree_other by done. rewrite decide_True; [done|apply under_refl].
          -- intros k Hk. rewrite E1, move_tree_other; [by rewrite decide_True by (by apply below_under)|].
             intros Hk2. apply (apart_disjoint (rev_path c cur) (rsync_current c) k); [apply rev_current_apart|done|by apply below_under].
          -- rewrite E1. destruct (c_rsync_dir c) as [|x d] eqn:Ed; [done|]. rewrite <- Ed in *. 
             rewrite fs_get_nonroot in * by (by rewrite Ed). rewrite move_tree_other by apply Hdc. by rewrite decide_False by apply Hdc.
          -- intros cur' [= <-]. split; [done|]. right. rewrite E1.
             pose proof (move_tree_target (rsync_current c) (rev_path c cur) (w_fs w) []) as Hm. rewrite !app_nil_r, Eb in Hm. apply Hm. eauto.
        * apply tot_ret. apply Hlast; [done|done|done| |done|].
          -- apply bool_decide_eq_false_1 in Eb. destruct Hcd as [Hcd|Hcd]; [|done]. by apply vacant_none; [apply Hr|..].
          -- by intros cur' [= <-].
      + destruct Hsw as [Hcd Hv]. apply tot_ret. by apply Hlast.
  Qed.

  Lemma tot_rsync c st snap rs b m els w (Q : unit -> world -> Prop) :
    let out := rev_path c (rev_of snap) in
    room (w_fs w) -> st_snap st = Some snap ->
    mp_path (st_map st) (ss_rel snap) <> [] -> w_fs w !! mp_path (st_map st) (ss_rel snap) = Some (File b m) ->
    x_snapshot X b = (els, true) ->
    Forall (fun el => T (object_path (c_include_host c) out el.1) /\ is_Some el.2) els ->
    D out -> T (rsync_state_path c) -> rsync_starts c (w_fs w) rs ->
    (forall o, o ∈ rs_old rs -> D (rev_path c (or_rev o))) ->
    switch_ready c rs (rev_of snap) (w_fs w) ->
    ~ T (rsync_current c) -> ~ dirs T D (rsync_current c) -> ~ T (link_tmp c) -> ~ dirs T D (link_tmp c) ->
    (use_symlinks c = false -> (forall k, below (rsync_current c) k -> ~ T k /\ ~ dirs T D k) /\
       forall cur, rs_current rs = Some cur ->
         ~ T (rev_path c cur) /\ ~ dirs T D (rev_path c cur) /\ forall k, below (rev_path c cur) k -> ~ T k /\ ~ dirs T D k) ->
    (use_symlinks c = true -> forall cur, rs_current rs = Some cur -> D (rev_path c cur)) ->
    (forall w', room (w_fs w') -> Q tt w') -> tot e (update_from_rrdp_state st c) w Q.
  Proof using He Tne Tanti Dup.
    intros out Hr Hsn Hpn Eb Hx Hels HDo HTy Hst Hold Hsw HTc HDc HTt HDt Hmv Hsy HQ.
    assert (Hne : forall r', rev_path c r' <> []) by (intros r'; rewrite rev_path_eq; by destruct (c_rsync_dir c)).
    unfold update_from_rrdp_state. rewrite Hsn. cbv zeta. apply tot_bind, (tot_recover c rs); [done|]. intros w1 E1.
    fold (rev_of snap). fold out. apply tot_bind, tot_out; [by rewrite E1|done|apply Hne|]. intros w2 R2 D2 F2. rewrite E1 in F2.
    apply tot_bind. unfold for_snapshot_path. apply tot_bind, (tot_read e He _ b).
    { unfold op_read, fs_stat. rewrite fs_get_nonroot by done. by rewrite (frame_file _ _ _ _ _ _ _ _ F2 ltac:(tauto) Eb). }
    intros w3 E3. apply tot_bind, tot_getext. rewrite Hx. apply tot_bind, tot_objects; [by rewrite E3|done|]. intros w4 R4 F4.
    rewrite E3 in F4. apply tot_ret.
    set (S := fun p => exists u o, (u, o) ∈ els /\ p = object_path (c_include_host c) out u) in *.
    assert (HST : forall p, S p -> T p).
    { intros p (u & o & Hin & ->). rewrite Forall_forall in Hels. by destruct (Hels _ Hin). }
    assert (F : frame S (w_fs w) (w_fs w4)).
    { eapply frame_trans; [eapply frame_weaken; [|exact F2]; done|exact F4]. }
    assert (Hsame : forall p, ~ T p -> ~ dirs T D p -> w_fs w4 !! p = w_fs w !! p).
    { intros p H1 H2. eapply frame_out; [exact F| |done]. auto. }
    apply tot_bind, tot_switch; try done.
    { unfold switch_ready in *. destruct (use_symlinks c).
      - rewrite (Hsame _ HTc HDc). destruct Hsw as [H1 H2]. split; [done|]. destruct H2 as [H2|(r' & H2 & H3)].
        + left. unfold file_or_none in *. by rewrite (Hsame _ HTt HDt).
        + right. exists r'. rewrite (Hsame _ HTt HDt). split; [done|].
          destruct (F (rev_path c r')) as [->|(En & _)]; [|done|congruence].
          intros Hs%HST. destruct (proj1 (proj2 Hr) _ Hs) as [?|(? & ? & ?)]; congruence.
      - destruct (Hmv eq_refl) as [Hc1 Hc2]. unfold dir_or_none, vacant in *. rewrite (Hsame _ HTc HDc).
        destruct (rs_current rs) as [cur|].
        + destruct (Hc2 cur eq_refl) as (H1 & H2 & H3). rewrite (Hsame _ H1 H2). destruct Hsw as (W1 & W2 & W3 & W4).
          split; [done|]. split; [done|]. split; [|done]. intros Ed k Hk. destruct (H3 k Hk). rewrite Hsame by done. by apply W3.
        + destruct Hsw as [W1 W2]. split; [done|]. intros k Hk. destruct (Hc1 k Hk). rewrite Hsame by done. by apply W2. }
    { fold out. destruct (F4 out) as [->|(En & _)]; [|done|congruence]. intros Hs%HST. by apply (Tanti _ Hs); right. }
    { intros Hu. destruct (Hmv Hu) as [H1 H2]. split; [done|]. intros cur Hcur. destruct (H2 cur Hcur) as (? & ? & ?). done. }
    intros w5 R5 O5. apply tot_bind. unfold update_current.
    assert (Hrest : forall rs1 w6, w_fs w6 = w_fs w5 -> (forall o, o ∈ rs_old rs1 -> o ∈ rs_old rs \/ rs_current rs = Some (or_rev o)) ->
      tot e (rs2 ← clean_old rs1 c; rsync_persist rs2 c) w6 Q).
    { intros rs1 w6 E6 Ho. apply tot_bind, tot_clean_old; [by rewrite E6| |].
      - intros o Hin. rewrite E6. destruct (Ho o Hin) as [H|H]; [|by apply O5].
        apply (proj2 (proj2 R5)); [right; by apply Hold|apply Hne].
      - intros w7 rs2 R7. unfold rsync_persist. apply (tot_write_buf e He T D Tne Tanti Dup); [done|done|]. intros w8 R8 _ _. by apply HQ. }
    destruct (rs_current rs) as [cur|].
    - apply tot_bind, tot_clock. intros now w6 E6. apply tot_ret, Hrest; [done|]. cbn. intros o [?|Ho]%elem_of_app; [by left|].
      apply elem_of_list_singleton in Ho as ->. by right.
    - apply tot_ret, Hrest; [done|]. cbn. by left.
  Qed.

  (** ** The notification *)
  Lemma tot_mp_uri m rel base w (Q : https -> world -> Prop) : mp_base m = base -> ends_with "/" base = true ->
    x_https_ok X (base +:+ rel) = true -> Q (base +:+ rel) w -> tot e (mp_uri m rel) w Q.
  Proof using.
    intros Hb Hs Ho HQ. unfold mp_uri. apply tot_bind, tot_getext. rewrite Hb, https_join_base by done.
    apply (tot_of_option _ _ _ (base +:+ rel)); [by rewrite Ho|done].
  Qed.
  Lemma tot_delta_infos m base l w (Q : list delta_info -> world -> Prop) : mp_base m = base -> ends_with "/" base = true ->
    (forall d, d ∈ l -> x_https_ok X (base +:+ ds_rel d) = true) ->
    (forall ds, Q ds w) -> tot e (delta_infos m l) w Q.
  Proof using.
    intros Hb Hs. revert Q. induction l as [|d l IH]; intros Q Ho HQ; cbn [delta_infos]; [by apply tot_ret|].
    apply tot_bind, (tot_mp_uri _ _ base); [done|done|apply Ho; constructor|]. apply tot_bind, IH; [intros; apply Ho; by constructor|].
    intros ds. by apply tot_ret.
  Qed.
  Lemma tot_notification c base name st snap delay w (Q : unit -> world -> Prop) :
    cfg_ok c base name -> st_map st = mkMap base (c_rrdp_dir c) -> st_source st = mkNS (c_notif_uri c) name None ->
    st_snap st = Some snap -> x_https_ok X (base +:+ ss_rel snap) = true -> (forall d, d ∈ st_deltas st -> x_https_ok X (base +:+ ds_rel d) = true) ->
    room (w_fs w) -> T (notif_path c name) -> T (notif_tmp c name) ->
    (forall w' ds, room (w_fs w') ->
       w_fs w' !! notif_path c name = Some (File (x_write_notif X
         (mkNotif (ss_session snap) (ss_serial snap) (base +:+ ss_rel snap) (ss_hash snap) ds)) None) -> Q tt w') ->
    tot e (write_notification st delay) w Q.
  Proof using He Tne Tanti Dup.
    intros Hc Hgm Hgs Hs Ho1 Ho2 Hr HT1 HT2 HQ. unfold write_notification. apply tot_bind, tot_when.
    2: intros _.
    1: intros _; apply tot_sleep; intros w1 E1; rewrite <- E1 in Hr; clear E1; revert Hr; generalize w1; clear w w1; intros w Hr.
    all: cbv zeta; rewrite Hgm, Hgs; cbn [mp_path tmp_name ns_name mp_dir];
      unfold mp_path; cbn [mp_dir];
      rewrite (path_join_name _ name) by (apply (ck_name _ _ _ Hc));
      rewrite (path_join_name _ (name +:+ ".tmp")) by (by eapply ends_with_tmp_noslash);
      fold (notif_path c name) (notif_tmp c name).
    all: assert (Hb : ends_with "/" base = true) by (eapply https_parent_ends, (ck_parent _ _ _ Hc)).
    all: apply tot_bind; unfold make_notification_file; rewrite Hgm.
    all: apply tot_bind, (tot_of_option _ _ _ snap); [done|]; apply tot_bind, (tot_mp_uri _ _ base); [done|done|done|];
      apply tot_bind, (tot_delta_infos _ base); [done|done|done|]; intros ds; apply tot_ret, tot_bind, tot_getext, tot_bind;
      apply (tot_write_buf e He T D Tne Tanti Dup); [done|done|]; intros w1 R1 E1 F1.
    all: assert (Hne : notif_tmp c name <> notif_path c name) by (intros Ex; apply (proj1 (notif_tmp_apart c name)); rewrite Ex; apply under_refl).
    all: apply (tot_rename e He T D Tne Tanti _ _ (x_write_notif X (mkNotif (ss_session snap) (ss_serial snap) (base +:+ ss_rel snap) (ss_hash snap) ds)) None);
      [done|done|done|done|done| |intros w2 R2 E2 _ _; by apply (HQ w2 ds)].
    all: apply parent_is_dir_spec; split; [by apply Tne|]; destruct (proj1 (parent_is_dir_spec _ _) (proj1 R1 _ _ E1)) as [_ Hd];
      unfold notif_tmp, notif_path in *; rewrite removelast_last in *; done.
  Qed.
End rest.
