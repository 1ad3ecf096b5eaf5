(** * What the rsync step does to the tree *)
From Coq Require Import ZifyN ZifyNat ZifyBool.
From Verif Require Export RunCoarse.
From Verif Require Import FsWf.

(** ** Trees that only got new directories *)
Definition grow (D : path -> Prop) (f g : fs) : Prop :=
  forall p, g !! p = f !! p \/ (D p /\ f !! p = None /\ g !! p = Some Dir).
Lemma grow_refl D f : grow D f f.
Proof. intros p. by left. Qed.
Lemma grow_mk D f0 : mk_ok (fun g => wf g /\ grow D f0 g) D.
Proof.
  intros g q [Hwf Hg] HD Hq Hn Hpd. split; [by apply (wf_mk (fun _ => True))|].
  intros p. destruct (decide (p = q)) as [->|Hne].
  - right. rewrite lookup_insert. split; [done|]. split; [|done].
    destruct (Hg q) as [E|(_ & E & _)]; [by rewrite <- E|done].
  - rewrite lookup_insert_ne by done. apply Hg.
Qed.
Lemma grow_file D f g p b m : grow D f g -> g !! p = Some (File b m) -> f !! p = Some (File b m).
Proof. intros H E. destruct (H p) as [E'|(_ & _ & E')]; congruence. Qed.
Lemma grow_read D f g p b : grow D f g -> op_read g p = Some b -> op_read f p = Some b.
Proof.
  intros H. unfold op_read, fs_stat.
  destruct p as [|p0 p']; [done|]. set (p := p0 :: p'). rewrite !fs_get_nonroot by done.
  destruct (H p) as [->|(_ & _ & ->)]; [|done].
  destruct (f !! p) as [[| |t]|]; try done.
  destruct (path_join (removelast p) t) as [|q0 q']; [done|].
  rewrite !fs_get_nonroot by done. destruct (H (q0 :: q')) as [->|(_ & _ & ->)]; done.
Qed.

Lemma w_create_dir_grow e p w (Q : res unit -> world -> Prop) :
  wf (w_fs w) ->
  (forall r w', wf (w_fs w') -> grow (fun q => q `prefix_of` p) (w_fs w) (w_fs w') -> r <> Panic -> Q r w') ->
  wpt e anyev (create_dir_all p) w Q.
Proof.
  intros Hwf HQ. eapply wpt_any.
  eapply (w_create_dir_all e (fun g => wf g /\ grow (fun q => q `prefix_of` p) (w_fs w) g) (fun q => q `prefix_of` p) p w Q);
    [split; [done|apply grow_refl]|apply grow_mk|done|].
  intros r w' [H1 H2] Hr. by apply HQ.
Qed.
Lemma w_create_path_grow e p w (Q : res unit -> world -> Prop) :
  wf (w_fs w) ->
  (forall r w', wf (w_fs w') -> grow (fun q => below q p) (w_fs w) (w_fs w') -> r <> Panic -> Q r w') ->
  wpt e anyev (create_path_for_file p) w Q.
Proof.
  intros Hwf HQ. eapply wpt_any.
  eapply (w_create_path_for_file e (fun g => wf g /\ grow (fun q => below q p) (w_fs w) g) (fun q => below q p) p w Q);
    [split; [done|apply grow_refl]|apply grow_mk|done|].
  intros r w' [H1 H2] Hr. by apply HQ.
Qed.

(** a write that succeeds *)
Lemma w_write_exact e p b w (Q : res unit -> world -> Prop) :
  (forall x w', Q (Err x) w') ->
  (forall w', can_write (w_fs w) p -> w_fs w' = <[p := File b None]> (w_fs w) -> Q (Ok tt) w') ->
  wpt e anyev (f_write p b) w Q.
Proof.
  intros HE HQ. unfold f_write. apply wpt_fs_step.
  - intros _. by apply HE.
  - intros mids fin E. destruct (op_write_spec (fun _ => True) p b (w_fs w) mids fin) as (_ & _ & -> & Hcw); [done|done| |].
    { by intros. }
    split; [by apply Forall_forall|]. split; [|intros; by apply HE].
    apply HQ; [done|]. by rewrite push_fs_snoc.
Qed.

(** ** Publishing the objects of a snapshot *)
Section objects.
  Context (e : env) (h : bool) (out : path).
  Notation op := (object_path h out).

  (** the last element of the snapshot stored at [p] carries [b] *)
  Definition last_at (els : list (rsync_uri * option string)) (p : path) (b : string) : Prop :=
    exists l1 u l2, els = l1 ++ (u, Some b) :: l2 /\ op u = p /\ (forall v o, (v, o) ∈ l2 -> op v <> p).
  (** no element is stored at [p] *)
  Definition none_at (els : list (rsync_uri * option string)) (p : path) : Prop :=
    forall v o, (v, o) ∈ els -> op v <> p.
  (** the file time: taken from the object, unless setting it failed or the
      object carries none *)
  Definition time_of (p : path) (b : string) (m : option Z) : Prop :=
    m = object_time (e_ext e) p b \/ (m = None /\ exists k, e_fault e k OSetMtime <> None).

  Inductive pub_at (els : list (rsync_uri * option string)) (f g : fs) (p : path) : Prop :=
  | pub_object b m : last_at els p b -> g !! p = Some (File b m) -> time_of p b m -> pub_at els f g p
  | pub_same : none_at els p -> g !! p = f !! p -> pub_at els f g p
  | pub_dir u o : none_at els p -> f !! p = None -> g !! p = Some Dir -> (u, o) ∈ els -> below p (op u) ->
      pub_at els f g p.
  Definition pub_tree els f g : Prop := forall p, pub_at els f g p.

  Lemma pub_nil f : pub_tree [] f f.
  Proof using. intros p. apply pub_same; [|done]. intros v o H. by apply elem_of_nil in H. Qed.

  Lemma last_at_snoc els p b v o : last_at els p b -> op v <> p -> last_at (els ++ [(v, o)]) p b.
  Proof using.
    intros (l1 & u & l2 & -> & Hu & Hl) Hv. exists l1, u, (l2 ++ [(v, o)]).
    split; [by rewrite <- app_assoc|]. split; [done|]. intros v' o'. rewrite elem_of_app, elem_of_list_singleton.
    intros [?|[= -> ->]]; [by eapply Hl|done].
  Qed.
  Lemma none_at_snoc els p v o : none_at els p -> op v <> p -> none_at (els ++ [(v, o)]) p.
  Proof using.
    intros H Hv v' o'. rewrite elem_of_app, elem_of_list_singleton. intros [?|[= -> ->]]; [by eapply H|done].
  Qed.

  (** adding directories above an object and then the object *)
  Lemma pub_step els f g g1 g2 u b m :
    pub_tree els f g -> grow (fun q => below q (op u)) g g1 -> g2 = <[op u := File b m]> g1 ->
    g1 !! op u <> Some Dir -> wf g2 ->
    time_of (op u) b m -> pub_tree (els ++ [(u, Some b)]) f g2.
  Proof using.
    intros Hp Hg -> Hnd Hwf Ht p. destruct (decide (p = op u)) as [->|Hne].
    { eapply (pub_object _ _ _ _ b m); [|apply lookup_insert|done].
      exists els, u, []. split; [done|]. split; [done|]. intros v o H. by apply elem_of_nil in H. }
    assert (Hl : <[op u := File b m]> g1 !! p = g1 !! p) by (by rewrite lookup_insert_ne).
    destruct (Hp p) as [b' m' H1 H2 H3|H1 H2|v o H1 H2 H3 H4 H5].
    - eapply (pub_object _ _ _ _ b' m'); [by apply last_at_snoc| |done].
      rewrite Hl. destruct (Hg p) as [->|(_ & E & _)]; [done|congruence].
    - destruct (Hg p) as [E|(Hb & E1 & E2)].
      + apply pub_same; [by apply none_at_snoc|]. rewrite Hl. congruence.
      + eapply (pub_dir _ _ _ _ u (Some b)); [by apply none_at_snoc|congruence|by rewrite Hl| |done].
        apply elem_of_app. right. by apply elem_of_list_singleton.
    - eapply (pub_dir _ _ _ _ v o); [by apply none_at_snoc|done| |apply elem_of_app; by left|done].
      rewrite Hl. destruct (Hg p) as [->|(_ & E & _)]; [done|congruence].
  Qed.

  Lemma w_publish_exact els f u o w (Q : res unit -> world -> Prop) :
    wf (w_fs w) -> pub_tree els f (w_fs w) ->
    (forall x w', Q (Err x) w') ->
    (forall w' b, o = Some b -> wf (w_fs w') -> pub_tree (els ++ [(u, Some b)]) f (w_fs w') -> Q (Ok tt) w') ->
    wpt e anyev (publish h out u o) w Q.
  Proof using.
    intros Hwf Hp HE HQ. unfold publish. wp1. wp1; [|by apply HE]. subst o. rename a into b.
    wp1. unfold write_buf. wp1. apply w_create_path_grow; [done|].
    intros [[]|x|] w1 Hwf1 Hg Hr; [|by apply HE|done].
    apply w_write_exact; [by intros|]. intros w2 (Hne & Hpd & Hnd) E2.
    assert (Hwf2 : wf (w_fs w2)) by (rewrite E2; by apply wf_put).
    unfold fix_since. wp1. wp1. destruct (object_time (e_ext e) (op u) b) as [t|] eqn:Et.
    2: { wp1. apply (HQ _ b); [done|done|]. rewrite E2 in *. eapply (pub_step _ _ _ _ _ _ _ None); try done. by left. }
    wp1. apply wpt_catch. unfold f_set_mtime. apply wpt_fs_step.
    - intros E. exfalso. unfold op_set_mtime in E. rewrite fs_get_nonroot, E2, lookup_insert in E by done. done.
    - intros mids fin E. unfold op_set_mtime in E. rewrite fs_get_nonroot, E2, lookup_insert in E by done.
      injection E as <- <-. split; [by apply Forall_forall|]. split.
      + wp1. rewrite insert_insert. apply (HQ _ b); [done| |].
        * rewrite push_fs_snoc. cbn. by apply wf_put.
        * rewrite push_fs_snoc. cbn. eapply (pub_step _ _ _ _ _ _ _ (Some t)); try done; [by apply wf_put|]. left. done.
      + intros j Hj. wp1. rewrite take_nil. apply (HQ _ b); [done|done|]. cbn. rewrite E2 in *.
        eapply (pub_step _ _ _ _ _ _ _ None); try done. right. split; [done|]. exists (w_n w2). congruence.
  Qed.

  Lemma w_for_snapshot_exact p w (Q : res unit -> world -> Prop) :
    wf (w_fs w) ->
    (forall x w', Q (Err x) w') ->
    (forall w' b els, op_read (w_fs w) p = Some b -> x_snapshot (e_ext e) b = (els, true) ->
       (forall u o, (u, o) ∈ els -> is_Some o) ->
       wf (w_fs w') -> pub_tree els (w_fs w) (w_fs w') -> Q (Ok tt) w') ->
    wpt e anyev (for_snapshot_path h out p) w Q.
  Proof using.
    intros Hwf HE HQ. unfold for_snapshot_path. wp1. wp1; [|by apply HE]. rename H into Hb. wp1. wp1.
    destruct (x_snapshot (e_ext e) b) as [els fine] eqn:Ex.
    apply wpt_bind.
    apply (wpt_for_each e _ els _ _ (fun l w' => wf (w_fs w') /\ exists done, els = done ++ l /\
      (forall u o, (u, o) ∈ done -> is_Some o) /\ pub_tree done (w_fs w) (w_fs w'))).
    - split; [done|]. exists []. split; [done|]. split; [|apply pub_nil]. intros u o H. by apply elem_of_nil in H.
    - intros [u o] l' w1 (H1 & done & -> & H2 & H3). eapply w_publish_exact; [done|exact H3|by intros|].
      intros w2 b' -> H4 H5. split; [done|]. exists (done ++ [(u, Some b')]). split; [by rewrite <- app_assoc|].
      split; [|done]. intros v o. rewrite elem_of_app, elem_of_list_singleton. intros [?|[= -> ->]]; [by eapply H2|done].
    - intros w1 (H1 & done & E & H2 & H3). rewrite app_nil_r in E. subst done.
      destruct fine; wp1; [|by apply HE]. by apply (HQ _ b els).
  Qed.
End objects.

(** ** Switching to the new revision: the link *)
Definition link_tmp (c : config) : path := path_with_extension (rsync_current c) "tmp".
Definition link_turned (c : config) (r : revision) (f g : fs) : Prop :=
  f !! rsync_current c <> Some Dir /\ g = <[rsync_current c := Link (dir_name r)]> (delete (link_tmp c) f).
(** only [current.tmp] differs *)
Definition tmp_only (c : config) (f g : fs) : Prop := forall p, p <> link_tmp c -> g !! p = f !! p.

Lemma link_tmp_eq c : link_tmp c = c_rsync_dir c ++ ["current.tmp"].
Proof. apply rsync_tmp_eq. Qed.
Lemma link_tmp_ne c : link_tmp c <> [] /\ rsync_current c <> [] /\ link_tmp c <> rsync_current c.
Proof.
  rewrite link_tmp_eq, rsync_current_eq. repeat split; try by destruct (c_rsync_dir c).
  intros E%app_inv_head. done.
Qed.

Lemma op_rename_link p q f t mids fin : p <> [] -> q <> [] -> f !! p = Some (Link t) ->
  op_rename p q f = Some (mids, fin) -> f !! q <> Some Dir /\ mids = [] /\ fin = <[q := Link t]> (delete p f).
Proof.
  intros Hp Hq Hl E. unfold op_rename in E. destruct p as [|p0 p']; [done|]. rewrite !fs_get_nonroot in E by done.
  rewrite Hl in E. destruct (parent_is_dir f q); [|done].
  destruct (f !! q) as [[| |]|]; try done; by injection E as <- <-.
Qed.
Lemma w_symlink_exact e c r w (Q : res unit -> world -> Prop) :
  wf (w_fs w) ->
  (forall x w', tmp_only c (w_fs w) (w_fs w') -> Q (Err x) w') ->
  (forall w', link_turned c r (w_fs w) (w_fs w') -> Q (Ok tt) w') ->
  wpt e (on_fs (fun g => tmp_only c (w_fs w) g \/ link_turned c r (w_fs w) g)) (symlink_current r c) w Q.
Proof.
  intros Hwf HE HQ. destruct (link_tmp_ne c) as (Ht & Hcu & Htc).
  unfold symlink_current. fold (link_tmp c). wp1. wp1. wp1.
  set (J := on_fs _). set (f := w_fs w) in *.
  assert (H1 : wpt e J (when_ (fs_exists f (link_tmp c)) (f_remove_file (link_tmp c))) w
     (fun r w' => r <> Panic /\ tmp_only c f (w_fs w') /\ (r = Ok tt -> w_fs w' = f \/ w_fs w' = delete (link_tmp c) f))).
  { wp1; [|by split; [|split; [|left]]]. unfold f_remove_file. apply wpt_fs_step.
    - intros _. by split.
    - intros mids fin E. unfold op_remove_file in E. rewrite fs_get_nonroot in E by done.
      assert (mids = [] /\ fin = delete (link_tmp c) f) as [-> ->].
      { fold f in E. destruct (f !! link_tmp c) as [[| |]|]; try done; by injection E as <- <-. }
      assert (Hto : tmp_only c f (delete (link_tmp c) f)).
      { intros p Hp. by rewrite lookup_delete_ne. }
      split; [|split].
      + constructor; [by left|constructor].
      + rewrite push_fs_snoc. split; [done|]. split; [done|]. intros _. by right.
      + intros j _. rewrite take_nil. by split. }
  eapply wpt_post; [exact H1|]. intros [[]|x|] w1 (Hr1 & Ht1 & Ho1); [|by apply HE|done].
  specialize (Ho1 eq_refl). wp1. unfold f_symlink. apply wpt_fs_step.
  - intros _. by apply HE.
  - intros mids fin E. unfold op_symlink in E. rewrite fs_get_nonroot in E by done.
    destruct (w_fs w1 !! link_tmp c) eqn:En; [done|].
    destruct (parent_is_dir (w_fs w1) (link_tmp c)) eqn:Hpd; [|done]. injection E as <- <-.
    assert (Ed : w_fs w1 = delete (link_tmp c) f).
    { destruct Ho1 as [Eo|Eo]; [|done]. rewrite Eo. rewrite Eo in En. symmetry. by apply delete_notin. }
    rewrite Ed. set (f1 := <[link_tmp c := Link (dir_name r)]> (delete (link_tmp c) f)).
    assert (Hto : tmp_only c f f1).
    { intros p Hp. unfold f1. rewrite lookup_insert_ne, lookup_delete_ne by done. done. }
    split; [constructor; [by left|constructor]|]. split; [|intros j _; rewrite take_nil; apply HE; exact Ht1].
    set (w2 := push_fs ([] ++ [f1]) w1). assert (E2 : w_fs w2 = f1) by apply push_fs_snoc.
    unfold f_rename. apply wpt_fs_step.
    + intros _. apply HE. change (w_fs (push_fs [] w2)) with (w_fs w2). by rewrite E2.
    + intros mids fin E. rewrite E2 in E.
      destruct (op_rename_link _ _ _ (dir_name r) _ _ Ht Hcu (lookup_insert _ _ _) E) as (Hnd & -> & ->).
      rewrite Hto in Hnd by done.
      assert (Hturn : link_turned c r f (<[rsync_current c := Link (dir_name r)]> (delete (link_tmp c) f1))).
      { split; [done|]. unfold f1. rewrite delete_insert_delete, delete_idemp. done. }
      split; [constructor; [by right|constructor]|]. split.
      * apply HQ. by rewrite push_fs_snoc.
      * intros j _. rewrite take_nil. apply HE. change (w_fs (push_fs [] w2)) with (w_fs w2). by rewrite E2.
Qed.

(** ** Switching to the new revision: renaming directories *)
Definition moved_aside (c : config) (rs : rsync_state) (f g : fs) : Prop :=
  match rs_current rs with
  | Some cur => if fs_exists f (rsync_current c)
                then op_rename (rsync_current c) (rev_path c cur) f = Some ([], g) else g = f
  | None => g = f
  end.
Definition dir_turned (c : config) (r : revision) (rs : rsync_state) (f g : fs) : Prop :=
  exists fa, moved_aside c rs f fa /\ op_rename (rev_path c r) (rsync_current c) fa = Some ([], g).

Lemma op_rename_mids p q f mids fin : op_rename p q f = Some (mids, fin) -> mids = [].
Proof.
  unfold op_rename. destruct p as [|p0 p']; [done|].
  destruct (fs_get f (p0 :: p')) as [[| |]|]; try done.
  - destruct (parent_is_dir f q); [|done]. destruct (fs_get f q) as [[| |]|]; try done; by injection 1 as <- _.
  - destruct (_ && _); [|done]. destruct (fs_get f q) as [[| |]|]; try done; [|by injection 1 as <- _].
    destruct (decide _); [by injection 1 as <- _|]. destruct (has_children f q); [done|by injection 1 as <- _].
  - destruct (parent_is_dir f q); [|done]. destruct (fs_get f q) as [[| |]|]; try done; by injection 1 as <- _.
Qed.
Lemma w_rename_step e (J : event -> Prop) p q w (Q : res unit -> world -> Prop) :
  (forall fin, op_rename p q (w_fs w) = Some ([], fin) -> J (EvFs fin)) ->
  (forall x w', w_fs w' = w_fs w -> Q (Err x) w') ->
  (forall w', op_rename p q (w_fs w) = Some ([], w_fs w') -> Q (Ok tt) w') ->
  wpt e J (f_rename p q) w Q.
Proof.
  intros HJ HE HQ. unfold f_rename. apply wpt_fs_step.
  - intros _. by apply HE.
  - intros mids fin E. pose proof (op_rename_mids _ _ _ _ _ E) as ->. split; [|split].
    + constructor; [by apply HJ|constructor].
    + apply HQ. by rewrite push_fs_snoc.
    + intros j _. rewrite take_nil. by apply HE.
Qed.
Lemma w_rename_revision_exact e c r rs w (Q : res unit -> world -> Prop) :
  (forall x w', w_fs w' = w_fs w \/ moved_aside c rs (w_fs w) (w_fs w') -> Q (Err x) w') ->
  (forall w', dir_turned c r rs (w_fs w) (w_fs w') -> Q (Ok tt) w') ->
  wpt e (on_fs (fun g => moved_aside c rs (w_fs w) g \/ dir_turned c r rs (w_fs w) g)) (rename_new_revision r rs c) w Q.
Proof.
  intros HE HQ. unfold rename_new_revision. set (J := on_fs _). cbv zeta. wp1.
  assert (H1 : wpt e J (match rs_current rs with
       | Some cur => ex ← f_exists (rsync_current c); when_ ex (f_rename (rsync_current c) (rev_path c cur))
       | None => mret tt end) w
     (fun r w' => r <> Panic /\ (w_fs w' = w_fs w \/ moved_aside c rs (w_fs w) (w_fs w')) /\ (r = Ok tt -> moved_aside c rs (w_fs w) (w_fs w')))).
  { unfold J, moved_aside. destruct (rs_current rs) as [cur|]; [|wp1; split; [done|]; split; [by left|done]].
    wp1. wp1. destruct (fs_exists (w_fs w) (rsync_current c)) eqn:Ex; cbn [when_].
    - apply w_rename_step.
      + intros fin E. by left.
      + intros x w' E. split; [done|]. split; [by left|done].
      + intros w' E. split; [done|]. split; [by right|done].
    - wp1. split; [done|]. split; [by left|done]. }
  eapply wpt_post; [exact H1|]. intros [[]|x|] w1 (Hr & Hw & Ho); [|by apply HE|done].
  specialize (Ho eq_refl). apply w_rename_step.
  - intros fin E. right. by exists (w_fs w1).
  - intros x w' E. apply HE. by rewrite E.
  - intros w' E. apply HQ. by exists (w_fs w1).
Qed.

(** ** Removing revisions *)
(** [g] is [f] without some paths, all in [S] *)
Definition lost (S : path -> Prop) (f g : fs) : Prop := forall p, g !! p = f !! p \/ (g !! p = None /\ S p).
Lemma lost_refl S f : lost S f f.
Proof. intros p. by left. Qed.
Lemma lost_trans S f g h : lost S f g -> lost S g h -> lost S f h.
Proof. intros H1 H2 p. destruct (H2 p) as [->|?]; [apply H1|by right]. Qed.
Lemma lost_weaken (S S' : path -> Prop) f g : (forall p, S p -> S' p) -> lost S f g -> lost S' f g.
Proof. intros H H1 p. destruct (H1 p) as [?|[? ?]]; [by left|right; auto]. Qed.
Lemma delete_seq_lost (S : path -> Prop) ks : forall f, Forall S ks -> Forall (lost S f) (delete_seq ks f).
Proof.
  induction ks as [|k ks IH]; intros f Hks; cbn; [constructor|]. apply Forall_cons in Hks as [Hk Hks].
  assert (H1 : lost S f (delete k f)).
  { intros p. destruct (decide (p = k)) as [->|Hne]; [right; by rewrite lookup_delete|left; by rewrite lookup_delete_ne]. }
  constructor; [done|]. eapply Forall_impl; [by apply IH|]. intros g Hg. by eapply lost_trans.
Qed.
Lemma remove_dir_all_lost p f mids fin : op_remove_dir_all p f = Some (mids, fin) ->
  Forall (lost (under p) f) mids /\ lost (under p) f fin.
Proof.
  intros E. pose proof (remove_dir_all_spec _ _ _ _ E) as (Hne & Hd & Hfin). split.
  - unfold op_remove_dir_all in E. destruct p as [|p0 p']; [done|]. rewrite fs_get_nonroot, Hd in E by done.
    injection E as <- _. apply delete_seq_lost. apply Forall_forall. intros k Hk.
    apply below_keys_spec in Hk as [[Hk _] _]. exact Hk.
  - intros q. rewrite Hfin. case_decide; [by right|by left].
Qed.
(** removing paths makes nothing appear *)
Lemma lost_exists S f g p : lost S f g -> fs_exists g p = true -> fs_exists f p = true.
Proof.
  intros H. unfold fs_exists, fs_stat.
  assert (Hg : forall q nd, fs_get g q = Some nd -> fs_get f q = Some nd).
  { intros [|q0 q'] nd; [done|]. rewrite !fs_get_nonroot by done. destruct (H (q0 :: q')) as [->|[-> _]]; done. }
  destruct (fs_get g p) as [nd|] eqn:E; [|done]. rewrite (Hg _ _ E). destruct nd as [| |t]; try done.
  destruct (fs_get g (path_join (removelast p) t)) as [nd|] eqn:E'; [|done]. by rewrite (Hg _ _ E').
Qed.

(** the expired records *)
Definition rev_expired (rs : rsync_state) (cb : Z) (o : old_revision) : Prop := o ∈ rs_old rs /\ (or_since o <= cb)%Z.
Definition rev_paths (c : config) (rs : rsync_state) (cb : Z) (p : path) : Prop :=
  exists o, rev_expired rs cb o /\ under (rev_path c (or_rev o)) p.

Lemma w_clean_old_exact e c rs w (Q : res rsync_state -> world -> Prop) :
  let cb := wrap64 (e_clock e (w_n w) - c_cleanup_after c) in
  (forall x w', lost (rev_paths c rs cb) (w_fs w) (w_fs w') -> Q (Err x) w') ->
  (forall w', lost (rev_paths c rs cb) (w_fs w) (w_fs w') ->
     (forall o, rev_expired rs cb o -> fs_exists (w_fs w') (rev_path c (or_rev o)) = false) ->
     Q (Ok (mkRs (rs_current rs) (filter (fun o => (cb < or_since o)%Z) (rs_old rs)))) w') ->
  wpt e (on_fs (lost (rev_paths c rs cb) (w_fs w))) (clean_old rs c) w Q.
Proof.
  intros cb HE HQ. unfold clean_old. wp1. wp1; [done|]. fold cb. wp1.
  set (w0 := push_ev _ w). assert (E0 : w_fs w0 = w_fs w) by done.
  apply (wpt_for_each e _ _ _ _ (fun l w' => lost (rev_paths c rs cb) (w_fs w) (w_fs w') /\
    (forall o, o ∈ l -> rev_expired rs cb o) /\
    forall o, rev_expired rs cb o -> o ∈ l \/ fs_exists (w_fs w') (rev_path c (or_rev o)) = false)).
  - split; [rewrite E0; apply lost_refl|]. split; intros o; rewrite elem_of_list_filter; unfold rev_expired; tauto.
  - intros o l' w1 (H1 & H2 & H3). cbv zeta. wp1. wp1.
    set (p := rev_path c (or_rev o)).
    assert (Ho : rev_expired rs cb o) by (apply H2; constructor).
    assert (Hsub : forall q, under p q -> rev_paths c rs cb q) by (intros q Hq; by exists o).
    assert (H2' : forall o', o' ∈ l' -> rev_expired rs cb o') by (intros; apply H2; by constructor).
    destruct (fs_exists (w_fs w1) p) eqn:Ex; cbn [when_].
    2: { wp1. split; [done|]. split; [done|]. intros o' Ho'. destruct (H3 o' Ho') as [[->|?]%elem_of_cons|?]; auto. }
    unfold f_remove_dir_all. apply wpt_fs_step.
    + intros _. apply HE. exact H1.
    + intros mids fin E. destruct (remove_dir_all_lost _ _ _ _ E) as [Hm Hf].
      pose proof (remove_dir_all_spec _ _ _ _ E) as (Hne & Hd & Hfin).
      assert (Hm' : Forall (lost (rev_paths c rs cb) (w_fs w)) mids).
      { eapply Forall_impl; [exact Hm|]. intros g Hg. eapply lost_trans; [exact H1|]. by eapply lost_weaken. }
      assert (Hf' : lost (rev_paths c rs cb) (w_fs w) fin).
      { eapply lost_trans; [exact H1|]. by eapply lost_weaken. }
      split; [|split].
      * apply Forall_app. split; [done|]. constructor; [done|constructor].
      * split; [by rewrite push_fs_snoc|]. split; [done|]. rewrite push_fs_snoc. intros o' Ho'.
        destruct (H3 o' Ho') as [[->|?]%elem_of_cons|Hn]; [|by left|].
        -- right. unfold fs_exists, fs_stat. fold p. rewrite fs_get_nonroot by done. rewrite Hfin, decide_True; [done|].
           apply under_refl.
        -- right. destruct (fs_exists fin (rev_path c (or_rev o'))) eqn:Ex'; [|done].
           by rewrite (lost_exists _ _ _ _ Hf Ex') in Hn.
      * intros j _. apply HE. unfold push_fs. cbn [w_fs].
        assert (Hin : List.last (take j mids) (w_fs w1) = w_fs w1 \/ List.last (take j mids) (w_fs w1) ∈ mids).
        { destruct (take j mids) as [|a l] eqn:Et; [by left|]. right.
          assert (Hla : List.last (a :: l) (w_fs w1) ∈ a :: l).
          { apply elem_of_list_In. clear. revert a. induction l as [|y l IH]; intros a; [by left|right; apply IH]. }
          rewrite <- (take_drop j mids), Et. apply elem_of_app. by left. }
        destruct Hin as [->|Hin]; [done|]. rewrite Forall_forall in Hm'. by apply Hm'.
  - intros w1 (H1 & _ & H3). wp1. apply HQ; [done|]. intros o Ho. destruct (H3 o Ho) as [?%elem_of_nil|?]; done.
Qed.

(** ** The whole step *)
(** the recorded rsync state at the start *)
Definition rsync_starts (c : config) (f : fs) (rs : rsync_state) : Prop :=
  (fs_exists f (rsync_state_path c) = true /\
   exists b, op_read f (rsync_state_path c) = Some b /\ rsync_state_parse b = Some rs) \/
  (fs_exists f (rsync_state_path c) = false /\ rs = mkRs None []).
Definition rev_of (s : snap_state) : revision := mkRev (ss_session s) (ss_serial s).
(** the record for the new revision *)
Definition next_rsync (e : env) (rs : rsync_state) (r : revision) (rs1 : rsync_state) : Prop :=
  match rs_current rs with
  | Some cur => exists now, run_clock e now /\ rs1 = mkRs (Some r) (rs_old rs ++ [mkOld now cur])
  | None => rs1 = mkRs (Some r) (rs_old rs)
  end.
Definition turned (c : config) (r : revision) (rs : rsync_state) (f g : fs) : Prop :=
  if use_symlinks c then link_turned c r f g else dir_turned c r rs f g.
Definition turning (c : config) (r : revision) (rs : rsync_state) (f g : fs) : Prop :=
  if use_symlinks c then tmp_only c f g \/ link_turned c r f g
  else g = f \/ moved_aside c rs f g \/ dir_turned c r rs f g.
(** saving the record [txt], or a part of that *)
Definition rsync_saving (c : config) (txt : string) (f g : fs) : Prop :=
  mods (eq (rsync_state_path c)) (fun q => below q (rsync_state_path c)) f g /\
  (g !! rsync_state_path c = f !! rsync_state_path c \/
   exists b, g !! rsync_state_path c = Some (File b None) /\ str_pre b txt).
Definition kept_revs (rs : rsync_state) (cb : Z) : rsync_state :=
  mkRs (rs_current rs) (filter (fun o => (cb < or_since o)%Z) (rs_old rs)).

(** nothing that was there is gone *)
Definition stays (f g : fs) : Prop := forall p, is_Some (f !! p) -> is_Some (g !! p).
Lemma stays_refl f : stays f f.
Proof. by intros p. Qed.
Lemma stays_insert f g p nd : stays f g -> stays f (<[p := nd]> g).
Proof. intros H q Hq. destruct (decide (q = p)) as [->|]; [by rewrite lookup_insert|rewrite lookup_insert_ne by done; auto]. Qed.

Section step.
  Context (c : config) (e : env) (st : rrdp_state).

  (** [f1]: the output directory exists; [f2]: the objects of the snapshot
      [els] are there *)
  Record rsync_pub (f : fs) (snap : snap_state) (rs : rsync_state) (f1 : fs)
      (b : string) (els : list (rsync_uri * option string)) (f2 : fs) : Prop := {
    rp_snap : st_snap st = Some snap;
    rp_start : rsync_starts c f rs;
    rp_grow : grow (fun q => q `prefix_of` rev_path c (rev_of snap)) f f1;
    rp_out : fs_exists f1 (rev_path c (rev_of snap)) = true;
    rp_wf1 : wf f1;
    rp_read : op_read f (mp_path (st_map st) (ss_rel snap)) = Some b;
    rp_doc : x_snapshot (e_ext e) b = (els, true);
    rp_all : forall u o, (u, o) ∈ els -> is_Some o;
    rp_tree : pub_tree e (c_include_host c) (rev_path c (rev_of snap)) els f1 f2;
    rp_in : inside (under (rev_path c (rev_of snap))) f f2 }.

  Inductive rsync_mid (f g : fs) : Prop :=
  | RM_start : g = f -> rsync_mid f g
  | RM_pub snap : st_snap st = Some snap -> inside (under (rev_path c (rev_of snap))) f g ->
      (exists rs, rsync_starts c f rs) /\ stays f g -> rsync_mid f g
  | RM_turn snap rs f1 b els f2 : rsync_pub f snap rs f1 b els f2 ->
      turning c (rev_of snap) rs f2 g -> rsync_mid f g
  | RM_clean snap rs f1 b els f2 f3 rs1 cb : rsync_pub f snap rs f1 b els f2 ->
      turned c (rev_of snap) rs f2 f3 -> next_rsync e rs (rev_of snap) rs1 -> clean_time c e cb ->
      lost (rev_paths c rs1 cb) f3 g -> rsync_mid f g
  | RM_save snap rs f1 b els f2 f3 rs1 cb f4 : rsync_pub f snap rs f1 b els f2 ->
      turned c (rev_of snap) rs f2 f3 -> next_rsync e rs (rev_of snap) rs1 -> clean_time c e cb ->
      lost (rev_paths c rs1 cb) f3 f4 -> rsync_saving c (rsync_state_text (kept_revs rs1 cb)) f4 g -> rsync_mid f g.

  Record rsync_done (f : fs) (snap : snap_state) (rs : rsync_state) (f1 : fs) (b : string)
      (els : list (rsync_uri * option string)) (f2 f3 : fs) (rs1 : rsync_state) (cb : Z) (f4 g : fs) : Prop := {
    rd_pub : rsync_pub f snap rs f1 b els f2;
    rd_turn : turned c (rev_of snap) rs f2 f3;
    rd_next : next_rsync e rs (rev_of snap) rs1;
    rd_time : clean_time c e cb;
    rd_lost : lost (rev_paths c rs1 cb) f3 f4;
    rd_gone : forall o, rev_expired rs1 cb o -> fs_exists f4 (rev_path c (or_rev o)) = false;
    rd_save : rsync_saving c (rsync_state_text (kept_revs rs1 cb)) f4 g;
    rd_file : g !! rsync_state_path c = Some (File (rsync_state_text (kept_revs rs1 cb)) None) }.
End step.

Lemma w_create_dir_is_dir e p w (Q : res unit -> world -> Prop) :
  wf (w_fs w) ->
  (forall r w', wf (w_fs w') -> grow (fun q => q `prefix_of` p) (w_fs w) (w_fs w') -> r <> Panic ->
     (r = Ok tt -> p <> [] -> w_fs w' !! p = Some Dir) -> Q r w') ->
  wpt e anyev (create_dir_all p) w Q.
Proof.
  intros Hwf HQ.
  assert (H : wpt e anyev (create_dir_all p) w (fun r w' => r = Ok tt -> p <> [] -> w_fs w' !! p = Some Dir)).
  { destruct (decide (p = [])) as [->|Hp]; [eapply wpt_any, wpt_post; [apply (w_create_dir_all e (fun _ => True) (fun _ => True) [] w (fun _ _ => True)); done|done]|].
    assert (El : exists l, inits_from [] p = l ++ [p]).
    { clear -Hp. assert (H : forall q acc, q <> [] -> exists l, inits_from acc q = l ++ [acc ++ q]).
      { induction q as [|a q IH]; intros acc Hq; [done|]. cbn [inits_from]. cbv zeta. destruct q as [|b q].
        - exists []. done.
        - destruct (IH (acc ++ [a]) ltac:(done)) as [l El]. exists ((acc ++ [a]) :: l). rewrite El.
          rewrite <- app_assoc. done. }
      apply (H p []). done. }
    destruct El as [l El]. unfold create_dir_all. rewrite El.
    assert (Hs : forall l w', wpt e anyev (for_each (l ++ [p]) f_mkdir) w' (fun r w'' => r = Ok tt -> w_fs w'' !! p = Some Dir)).
    { clear -Hp. induction l as [|a l IH]; intros w'; cbn [for_each app].
      - apply wpt_bind. unfold f_mkdir. apply wpt_fs_step; [done|].
        intros mids fin E. split; [by apply Forall_forall|]. split; [|done].
        apply wpt_ret. intros _. unfold op_mkdir in E. rewrite fs_get_nonroot in E by done.
        destruct (w_fs w' !! p) as [[| |]|] eqn:Ep; try done.
        + injection E as <- <-. rewrite push_fs_snoc. done.
        + destruct (parent_is_dir _ _); [|done]. injection E as <- <-. rewrite push_fs_snoc. apply lookup_insert.
      - apply wpt_bind. eapply wpt_any, (w_mkdir e (fun _ => True) (fun _ => True)); [done|done|by left|].
        intros [[]|x|] w'' _ _; [apply IH|done..]. }
    eapply wpt_post; [apply Hs|]. auto. }
  eapply wpt_post; [eapply (wpt_strengthen _ _ _ _ _ (fun r w' => wf (w_fs w') /\ grow (fun q => q `prefix_of` p) (w_fs w) (w_fs w') /\ r <> Panic)); [|exact H]|].
  - by apply w_create_dir_grow.
  - intros r w' [(H1 & H2 & H3) H4]. auto.
Qed.

Section story.
  Context (c : config) (e : env) (st : rrdp_state) (Hx : clean_snapshots (e_ext e)).

  Lemma k_publish_out h r f0 u o : clean_uri u -> keeps e (inside (under (rev_path c r)) f0) (publish h (rev_path c r) u o).
  Proof using.
    intros Hu. set (out := rev_path c r).
    assert (Ar : ~ under out []).
    { unfold out. rewrite rev_path_eq. intros H%prefix_nil_inv. by destruct (c_rsync_dir c). }
    unfold publish. apply keeps_bind; [apply keeps_of_option|]. intros b.
    assert (Ho : under out (object_path h out u)) by (by apply object_path_under).
    apply keeps_bind; [by apply k_write_buf|]. intros _. unfold fix_since.
    apply keeps_bind; [apply keeps_getext|]. intros x. destruct (object_time _ _ _); [|apply keeps_ret].
    apply keeps_bind; [|intros; apply keeps_ret]. apply keeps_catch. by apply k_set_mtime.
  Qed.
  Lemma k_for_snapshot_out h r f0 p : keeps e (inside (under (rev_path c r)) f0) (for_snapshot_path h (rev_path c r) p).
  Proof using Hx.
    intros w HI. unfold for_snapshot_path. wp1. wp1; [|done]. wp1. wp1.
    pose proof (fun u o => Hx b u o) as Hb. destruct (x_snapshot (e_ext e) b) as [els fine]. cbn in Hb.
    apply (wpt_keeps _ _ (for_each els (fun '(u, data) => publish h (rev_path c r) u data) ;;
             (if fine : bool then mret tt else fail ESnapshotXml))); [|done|auto].
    apply keeps_bind.
    - apply keeps_for_each. intros [u o] Hin. apply k_publish_out. by eapply Hb.
    - intros _. destruct fine; [apply keeps_ret|apply keeps_fail].
  Qed.

  (** publishing removes nothing *)
  Lemma ks_both {B} (I J : fs -> Prop) (m : M B) : keeps e I m -> keeps e J m -> keeps e (fun g => I g /\ J g) m.
  Proof using.
    intros H1 H2 w [HI HJ]. eapply wpt_conseq; [exact (wpt_and _ _ _ _ _ _ _ (H1 w HI) (H2 w HJ))| |done]. by intros [].
  Qed.
  Lemma ks_create_dir_all f0 p : keeps e (stays f0) (create_dir_all p).
  Proof using.
    apply keeps_for_each. intros q _. unfold f_mkdir. apply keeps_step. intros g mids fin Hg E. unfold op_mkdir in E.
    destruct (fs_get g q) as [[| |]|]; try done; [by injection E as <- <-|].
    destruct (parent_is_dir g q); [|done]. injection E as <- <-. split; [constructor|]. by apply stays_insert.
  Qed.
  Lemma ks_write f0 p b : keeps e (stays f0) (f_write p b).
  Proof using.
    unfold f_write. apply keeps_step. intros g mids fin Hg E. unfold op_write in E.
    assert (E' : mids = (fun b' => <[p := File b' None]> g) <$> strict_prefixes b /\ fin = <[p := File b None]> g).
    { destruct (fs_get g p) as [[| |]|]; try done; (destruct (parent_is_dir g p); [|done]); by injection E as <- <-. }
    destruct E' as [-> ->]. split; [|by apply stays_insert]. apply Forall_fmap, Forall_forall. intros b' _. by apply stays_insert.
  Qed.
  Lemma ks_publish h out f0 u o : keeps e (stays f0) (publish h out u o).
  Proof using.
    unfold publish. apply keeps_bind; [apply keeps_of_option|]. intros b. apply keeps_bind.
    - unfold write_buf. apply keeps_bind; [|intros _; apply ks_write]. unfold create_path_for_file.
      apply keeps_bind; [apply keeps_of_option|]. intros d. apply ks_create_dir_all.
    - intros _. unfold fix_since. apply keeps_bind; [apply keeps_getext|]. intros x. destruct (object_time _ _ _); [|apply keeps_ret].
      apply keeps_bind; [|intros; apply keeps_ret]. apply keeps_catch. unfold f_set_mtime. apply keeps_step.
      intros g mids fin Hg E. unfold op_set_mtime in E. destruct (fs_get g _) as [[| |]|]; try done.
      injection E as <- <-. split; [constructor|]. by apply stays_insert.
  Qed.
  Lemma ks_for_snapshot h out f0 p : keeps e (stays f0) (for_snapshot_path h out p).
  Proof using.
    intros w HI. unfold for_snapshot_path. wp1. wp1; [|done]. wp1. wp1.
    destruct (x_snapshot (e_ext e) b) as [els fine].
    apply (wpt_keeps _ _ (for_each els (fun '(u, data) => publish h out u data) ;;
             (if fine : bool then mret tt else fail ESnapshotXml))); [|done|auto].
    apply keeps_bind.
    - apply keeps_for_each. intros [u o] Hin. apply ks_publish.
    - intros _. destruct fine; [apply keeps_ret|apply keeps_fail].
  Qed.

  Lemma w_rsync_recover w (Q : res rsync_state -> world -> Prop) J :
    (forall x w', w_fs w' = w_fs w -> Q (Err x) w') ->
    (forall w' rs, w_fs w' = w_fs w -> rsync_starts c (w_fs w) rs -> Q (Ok rs) w') ->
    wpt e J (rsync_recover c) w Q.
  Proof using.
    intros HE HQ. unfold rsync_recover. wp1. wp1.
    destruct (fs_exists (w_fs w) (rsync_state_path c)) eqn:Ex.
    - wp1. wp1; [|by apply HE]. wp1; [|by apply HE]. apply HQ; [done|]. left. split; [done|]. by exists b.
    - wp1. apply HQ; [done|]. by right.
  Qed.

  Lemma w_rsync_step w :
    wf (w_fs w) ->
    wpt e (on_fs (rsync_mid c e st (w_fs w))) (update_from_rrdp_state st c) w (fun r w' =>
      rsync_mid c e st (w_fs w) (w_fs w') /\
      (r = Ok tt -> (st_snap st = None /\ w_fs w' = w_fs w) \/
         exists snap rs f1 b els f2 f3 rs1 cb f4, rsync_done c e st (w_fs w) snap rs f1 b els f2 f3 rs1 cb f4 (w_fs w'))).
  Proof using Hx.
    intros Hwf. set (f := w_fs w) in *. unfold update_from_rrdp_state.
    destruct (st_snap st) as [snap|] eqn:Esn.
    2: { wp1. split; [by apply RM_start|]. intros _. by left. }
    cbv zeta. fold (rev_of snap). set (out := rev_path c (rev_of snap)).
    assert (Ar : out <> []).
    { unfold out. rewrite rev_path_eq. by destruct (c_rsync_dir c). }
    assert (Ar' : ~ under out []) by (intros H%prefix_nil_inv; done).
    wp1. apply w_rsync_recover; [intros x w' ->; split; [by apply RM_start|done]|].
    intros w0 rs E0 Hrs. fold f in E0, Hrs. wp1.
    set (In := fun g => inside (under out) f g /\ stays f g).
    assert (H1 : wpt e (on_fs In) (create_out_path_if_missing out) w0 (fun r w' =>
       In (w_fs w') /\ (r <> Panic /\ grow (fun q => q `prefix_of` out) f (w_fs w') /\
         (r = Ok tt -> fs_exists (w_fs w') out = true)))).
    { eapply wpt_strengthen.
      - unfold create_out_path_if_missing. apply (wpt_keeps e In); [|rewrite E0; split; [split; [done|apply mods_refl]|apply stays_refl]|done].
        apply keeps_bind; [apply keeps_exists|]. intros b. apply keeps_unless, ks_both; [apply k_create_dir_all, under_refl|apply ks_create_dir_all].
      - unfold create_out_path_if_missing. wp1. wp1. wp1.
        + apply w_create_dir_is_dir; [by rewrite E0|]. rewrite E0. intros r w' _ H1 H2 H3.
          split; [done|]. split; [done|]. intros Hr. unfold fs_exists, fs_stat.
          rewrite fs_get_nonroot by done. by rewrite (H3 Hr Ar).
        + split; [done|]. rewrite E0. split; [apply grow_refl|]. intros _. by rewrite <- E0. }
    assert (HP : forall g, In g -> rsync_mid c e st f g) by (intros g [Hg Hg']; eapply RM_pub; [done|done|split; [by exists rs|done]]).
    eapply wpt_conseq; [exact H1|intros []; cbn; auto|]. clear H1.
    intros [[]|x|] w1 (I1 & Hnp & G1 & X1); [|split; [by apply HP|done]|done]. specialize (X1 eq_refl).
    assert (Hwf1 : wf (w_fs w1)) by apply I1.
    wp1. eapply wpt_conseq; [eapply wpt_strengthen; [apply (wpt_keeps e In
         (for_snapshot_path (c_include_host c) out (mp_path (st_map st) (ss_rel snap))) w1 (fun r w' => In (w_fs w')));
         [apply ks_both; [apply k_for_snapshot_out|apply ks_for_snapshot]|done|done]|]|intros []; cbn; auto|].
    { eapply (w_for_snapshot_exact e (c_include_host c) out _ w1 (fun r w' => r = Ok tt -> exists b els,
        op_read (w_fs w1) (mp_path (st_map st) (ss_rel snap)) = Some b /\ x_snapshot (e_ext e) b = (els, true) /\
        (forall u o, (u, o) ∈ els -> is_Some o) /\ pub_tree e (c_include_host c) out els (w_fs w1) (w_fs w'))); [done|by intros|].
      intros w' b els R1 R2 R3 R4 R5 _. by exists b, els. }
    intros [[]|x|] w2 (I2 & Hok); [|split; [by apply HP|done]..].
    destruct (Hok eq_refl) as (b & els & R1 & R2 & R3 & R4). clear Hok.
    set (f2 := w_fs w2) in *.
    assert (Hpub : rsync_pub c e st f snap rs (w_fs w1) b els f2).
    { split; try done; [by eapply grow_read|apply I2]. }
    assert (Hwf2 : wf f2) by apply I2.
    wp1.
    assert (H3 : wpt e (on_fs (rsync_mid c e st f))
       (if use_symlinks c then symlink_current (rev_of snap) c else rename_new_revision (rev_of snap) rs c) w2
       (fun r w' => r <> Panic /\ rsync_mid c e st f (w_fs w') /\ (r = Ok tt -> turned c (rev_of snap) rs f2 (w_fs w')))).
    { assert (HT : forall g, turning c (rev_of snap) rs f2 g -> rsync_mid c e st f g) by (intros g; by eapply RM_turn).
      unfold turning in HT. unfold turned. destruct (use_symlinks c).
      - eapply wpt_conseq; [apply (w_symlink_exact e c (rev_of snap) w2 (fun r w' => r <> Panic /\ rsync_mid c e st f (w_fs w') /\ (r = Ok tt -> link_turned c (rev_of snap) f2 (w_fs w'))))| |].
        + done.
        + intros x w' H. split; [done|]. split; [|done]. apply HT. by left.
        + intros w' H. split; [done|]. split; [|done]. apply HT. by right.
        + intros []; cbn; auto.
        + auto.
      - eapply wpt_conseq; [apply (w_rename_revision_exact e c (rev_of snap) rs w2 (fun r w' => r <> Panic /\ rsync_mid c e st f (w_fs w') /\ (r = Ok tt -> dir_turned c (rev_of snap) rs f2 (w_fs w'))))| |].
        + intros x w' H. split; [done|]. split; [|done]. apply HT. destruct H; auto.
        + intros w' H. split; [done|]. split; [|done]. apply HT. auto.
        + intros []; cbn; auto.
        + auto. }
    eapply wpt_post; [exact H3|]. clear H3. intros [[]|x|] w3 (Hnp3 & M3 & T3); [|by split|done].
    specialize (T3 eq_refl). set (f3 := w_fs w3) in *.
    wp1.
    assert (H4 : wpt e (on_fs (rsync_mid c e st f)) (update_current rs (rev_of snap)) w3 (fun r w' =>
       w_fs w' = f3 /\ exists rs1, r = Ok rs1 /\ next_rsync e rs (rev_of snap) rs1)).
    { unfold update_current, next_rsync. destruct (rs_current rs) as [cur|].
      - wp1. wp1; [done|]. wp1. split; [done|]. eexists. split; [done|]. eexists. split; [|done]. by eexists.
      - wp1. split; [done|]. by eexists. }
    eapply wpt_post; [exact H4|]. clear H4. intros r w4 (E4 & rs1 & -> & N4). wp1.
    pose proof (w_clean_old_exact e c rs1 w4) as Hcl. cbv zeta in Hcl.
    set (cb := wrap64 (e_clock e (w_n w4) - c_cleanup_after c)) in *.
    assert (Hcb : clean_time c e cb) by (by exists (w_n w4)).
    rewrite E4 in Hcl.
    assert (HC : forall g, lost (rev_paths c rs1 cb) f3 g -> rsync_mid c e st f g) by (intros g; by eapply RM_clean).
    eapply wpt_conseq; [apply (Hcl (fun r w' => r <> Panic /\ lost (rev_paths c rs1 cb) f3 (w_fs w') /\
       forall rs2, r = Ok rs2 -> rs2 = kept_revs rs1 cb /\
         forall o, rev_expired rs1 cb o -> fs_exists (w_fs w') (rev_path c (or_rev o)) = false))|intros []; cbn; auto|].
    { intros x w' H. done. }
    { intros w' H1 H2. split; [done|]. split; [done|]. by intros rs2 [= <-]. }
    intros [rs2|x|] w5 (Hnp5 & L5 & O5); [|split; [by apply HC|done]|done].
    destruct (O5 _ eq_refl) as [-> G5]. clear O5. set (f4 := w_fs w5) in *.
    set (txt := rsync_state_text (kept_revs rs1 cb)).
    assert (HS : forall g, rsync_saving c txt f4 g -> rsync_mid c e st f g) by (intros g; by eapply RM_save).
    unfold rsync_persist. set (yp := rsync_state_path c).
    eapply wpt_conseq; [eapply (w_write_buf e (rsync_saving c txt f4) (fun q => below q yp) yp _ w5
      (fun r w' => rsync_saving c txt f4 (w_fs w') /\ (r = Ok tt -> w_fs w' !! yp = Some (File (rsync_state_text (kept_revs rs1 cb)) None))))|intros []; cbn; auto|].
    { split; [apply mods_refl|by left]. }
    { intros g q [Hg1 Hg2] Hq Hne Hn Hp. split; [apply mods_mkdir; auto|].
      assert (Hqy : q <> yp) by (intros ->; by apply below_irrefl in Hq). fold yp. by rewrite lookup_insert_ne. }
    { done. }
    { intros g b' [Hg1 Hg2] Hb' Hne Hst Hp. split; [by apply mods_insert|]. right. exists b'. split; [apply lookup_insert|done]. }
    { done. }
    { done. }
    intros r w6 [H6 O6]. split; [by apply HS|]. intros Hr. right.
    exists snap, rs, (w_fs w1), b, els, f2, f3, rs1, cb, f4. split; auto.
  Qed.
End story.
