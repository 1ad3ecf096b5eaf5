(** * Running without obstacles: every step succeeds *)
From Verif Require Export RunDone.
From Verif Require Import FsWf.

(** [m], started in [w], succeeds with a result and world satisfying [Q] *)
Definition tot {A} (e : env) (m : M A) (w : world) (Q : A -> world -> Prop) : Prop :=
  exists a w', m e w = (Ok a, w') /\ Q a w'.

Section rules.
  Context (e : env).
  Lemma tot_conseq {A} (m : M A) w (Q Q' : A -> world -> Prop) :
    tot e m w Q -> (forall a w', Q a w' -> Q' a w') -> tot e m w Q'.
  Proof. intros (a & w' & E & H) HQ. exists a, w'. auto. Qed.
  Lemma tot_ret {A} (a : A) w (Q : A -> world -> Prop) : Q a w -> tot e (mret a) w Q.
  Proof. intros H. by exists a, w. Qed.
  Lemma tot_bind {A B} (m : M A) (k : A -> M B) w (Q : B -> world -> Prop) :
    tot e m w (fun a w' => tot e (k a) w' Q) -> tot e (m ≫= k) w Q.
  Proof.
    intros (a & w' & E & b & w'' & E' & H). exists b, w''. split; [|done].
    unfold mbind, M_bind. by rewrite E.
  Qed.
  Lemma tot_getext w (Q : ext -> world -> Prop) : Q (e_ext e) w -> tot e getext w Q.
  Proof. intros H. by exists (e_ext e), w. Qed.
  Lemma tot_exists p w (Q : bool -> world -> Prop) : Q (fs_exists (w_fs w) p) w -> tot e (f_exists p) w Q.
  Proof. intros H. by eexists _, w. Qed.
  Lemma tot_of_option {A} x (o : option A) a w (Q : A -> world -> Prop) : o = Some a -> Q a w -> tot e (of_option x o) w Q.
  Proof. intros -> H. by exists a, w. Qed.
  Lemma tot_clock w (Q : Z -> world -> Prop) :
    (forall t w', w_fs w' = w_fs w -> Q t w') -> tot e clock w Q.
  Proof. intros H. eexists _, _. split; [reflexivity|]. by apply H. Qed.
  Lemma tot_sleep s w (Q : unit -> world -> Prop) :
    (forall w', w_fs w' = w_fs w -> Q tt w') -> tot e (sleep s) w Q.
  Proof. intros H. eexists _, _. split; [reflexivity|]. by apply H. Qed.
  Lemma tot_when b m w (Q : unit -> world -> Prop) :
    (b = true -> tot e m w Q) -> (b = false -> Q tt w) -> tot e (when_ b m) w Q.
  Proof. destruct b; intros H1 H2; [by apply H1|by apply tot_ret, H2]. Qed.
  Lemma tot_for_each {A} (l : list A) (f : A -> M unit) w (I : list A -> world -> Prop) (Q : unit -> world -> Prop) :
    I l w -> (forall a l' w', I (a :: l') w' -> tot e (f a) w' (fun _ w'' => I l' w'')) ->
    (forall w', I [] w' -> Q tt w') -> tot e (for_each l f) w Q.
  Proof.
    intros HI Hs Hq. revert w HI. induction l as [|a l IH]; intros w HI; cbn.
    - apply tot_ret. auto.
    - apply tot_bind. eapply tot_conseq; [by apply Hs|]. cbn. auto.
  Qed.
  (** partial correctness adds what it knows *)
  Lemma tot_wpt {A} (m : M A) J w (Q : A -> world -> Prop) (Q' : res A -> world -> Prop) :
    tot e m w Q -> wpt e J m w Q' -> tot e m w (fun a w' => Q a w' /\ Q' (Ok a) w').
  Proof. intros (a & w' & E & H) H'%wpt_elim. rewrite E in H'. by exists a, w'. Qed.
  (** a caught error *)
  Lemma tot_catch {A} (m : M A) w (Q : A + err -> world -> Prop) :
    wpt e anyev m w (fun r w' => match r with Ok a => Q (inl a) w' | Err x => Q (inr x) w' | Panic => False end) ->
    tot e (catch m) w Q.
  Proof.
    intros H%wpt_elim. unfold tot, catch. destruct (m e w) as [[a|x|] w']; cbn in H; [by exists (inl a), w'|by exists (inr x), w'|done].
  Qed.
  Lemma tot_catch_ok {A} (m : M A) w (Q : A + err -> world -> Prop) :
    tot e m w (fun a w' => Q (inl a) w') -> tot e (catch m) w Q.
  Proof. intros (a & w' & E & H). exists (inl a), w'. split; [|done]. unfold catch. by rewrite E. Qed.
End rules.

(** ** File operations that nothing stands in the way of *)
(** no operation fails for a reason outside the tree *)
Definition no_faults (e : env) : Prop := forall k op, e_fault e k op = None.
Definition file_or_none (f : fs) (t : path) : Prop := f !! t = None \/ exists b m, f !! t = Some (File b m).
Definition dir_or_none (f : fs) (t : path) : Prop := f !! t = None \/ f !! t = Some Dir.

Section room.
  (** [T]: files that a run touches; [D]: directories that it touches *)
  Context (e : env) (He : no_faults e) (T D : path -> Prop).
  Definition dirs (d : path) : Prop := (exists t, T t /\ below d t) \/ D d.
  Context (Tne : forall t, T t -> t <> []) (Tanti : forall t, T t -> ~ dirs t).
  Context (Dup : forall d d', D d -> below d' d -> D d').

  (** nothing stands in the way: where there is to be a file, there is at most
      a file, and where there is to be a directory, at most a directory *)
  Definition room (f : fs) : Prop :=
    wf f /\ (forall t, T t -> file_or_none f t) /\ (forall q, dirs q -> q <> [] -> dir_or_none f q).

  Lemma dirs_up d d' : dirs d -> below d' d -> dirs d'.
  Proof using Dup.
    intros [(t & Ht & Hb)|Hd] Hb'; [left; exists t; split; [done|]; by eapply below_trans|right; by eapply Dup].
  Qed.
  Lemma dirs_of_file t d : T t -> below d t -> dirs d.
  Proof using. left. eauto. Qed.

  Lemma tot_fs_step k f mids fin w (Q : unit -> world -> Prop) :
    f (w_fs w) = Some (mids, fin) -> (forall w', w_fs w' = fin -> Q tt w') -> tot e (fs_step k f) w Q.
  Proof using He.
    intros E H. unfold fs_step. eexists tt, _. rewrite E, He. split; [reflexivity|]. apply H, push_fs_snoc.
  Qed.
  Lemma tot_read p b w (Q : string -> world -> Prop) :
    op_read (w_fs w) p = Some b -> (forall w', w_fs w' = w_fs w -> Q b w') -> tot e (read_file p) w Q.
  Proof using He. intros E H. unfold read_file, f_read. eexists _, _. rewrite E, He. split; [reflexivity|]. by apply H. Qed.

  (** what a step may do to the other paths *)
  Definition frame (S : path -> Prop) (f g : fs) : Prop :=
    forall p, ~ S p -> g !! p = f !! p \/ (f !! p = None /\ g !! p = Some Dir /\ dirs p).
  Lemma frame_refl S f : frame S f f.
  Proof using. intros p _. by left. Qed.
  Lemma frame_trans S f g h : frame S f g -> frame S g h -> frame S f h.
  Proof using.
    intros H1 H2 p Hp. destruct (H2 p Hp) as [E|(E1 & E2 & E3)].
    - rewrite E. by apply H1.
    - right. split; [|done]. destruct (H1 p Hp) as [<-|(? & ? & ?)]; congruence.
  Qed.
  Lemma frame_weaken (S S' : path -> Prop) f g : (forall p, S p -> S' p) -> frame S f g -> frame S' f g.
  Proof using. intros H HF p Hp. apply HF. auto. Qed.
  Lemma frame_file S f g p b m : frame S f g -> ~ S p -> f !! p = Some (File b m) -> g !! p = Some (File b m).
  Proof using. intros H Hp E. destruct (H p Hp) as [->|(E' & _)]; congruence. Qed.
  Lemma frame_out S f g p : frame S f g -> ~ S p -> ~ dirs p -> g !! p = f !! p.
  Proof using. intros H Hp Hd. by destruct (H p Hp) as [->|(_ & _ & ?)]. Qed.

  Lemma room_mk f q : room f -> dirs q -> q <> [] -> f !! q = None -> parent_is_dir f q = true ->
    room (<[q := Dir]> f).
  Proof using Tanti.
    intros (Hw & Hr & Hd) Hq Hne Hn Hp. split; [by apply (wf_mk (fun _ => True))|]. split.
    - intros t Ht. unfold file_or_none. rewrite lookup_insert_ne; [by apply Hr|]. intros ->. by apply (Tanti t).
    - intros p Hpd Hpne. unfold dir_or_none. destruct (decide (p = q)) as [->|]; [rewrite lookup_insert; by right|].
      rewrite lookup_insert_ne by done. by apply Hd.
  Qed.
  Lemma room_put f t b m : room f -> T t -> parent_is_dir f t = true -> room (<[t := File b m]> f).
  Proof using Tne Tanti.
    intros (Hw & Hr & Hd) Ht Hp. split.
    { apply wf_put; auto. destruct (Hr t Ht) as [->|(? & ? & ->)]; done. }
    split.
    - intros t' Ht'. unfold file_or_none. destruct (decide (t' = t)) as [->|]; [rewrite lookup_insert; right; by eexists _, _|].
      rewrite lookup_insert_ne by done. by apply Hr.
    - intros p Hpd Hpne. unfold dir_or_none. rewrite lookup_insert_ne; [by apply Hd|]. intros <-. by apply (Tanti t).
  Qed.
  Lemma room_sub f g : (forall p nd, g !! p = Some nd -> f !! p = Some nd) -> wf g -> room f -> room g.
  Proof using.
    intros H Hw (_ & R1 & R2). split; [done|]. split.
    - intros t Ht. unfold file_or_none. destruct (g !! t) as [nd|] eqn:E; [|by left]. apply H in E.
      destruct (R1 t Ht) as [?|(b & m & ?)]; [congruence|]. right. exists b, m. congruence.
    - intros q Hq Hne. unfold dir_or_none. destruct (g !! q) as [nd|] eqn:E; [|by left]. apply H in E.
      destruct (R2 q Hq Hne); [congruence|right; congruence].
  Qed.

  Lemma tot_mkdir q w (Q : unit -> world -> Prop) : room (w_fs w) -> dirs q -> q <> [] ->
    parent_is_dir (w_fs w) q = true ->
    (forall w', room (w_fs w') -> w_fs w' !! q = Some Dir -> frame (fun _ => False) (w_fs w) (w_fs w') -> Q tt w') ->
    tot e (f_mkdir q) w Q.
  Proof using He Tanti.
    intros Hr Hq Hne Hp HQ. unfold f_mkdir. destruct (proj2 (proj2 Hr) q Hq Hne) as [E|E].
    - apply (tot_fs_step _ _ [] (<[q := Dir]> (w_fs w))).
      { unfold op_mkdir. by rewrite fs_get_nonroot, E, Hp. }
      intros w' Ew. apply HQ; rewrite Ew; [apply room_mk; eauto|by rewrite lookup_insert|].
      intros p _. destruct (decide (p = q)) as [->|]; [|rewrite lookup_insert_ne by done; by left].
      right. rewrite lookup_insert. eauto 6.
    - apply (tot_fs_step _ _ [] (w_fs w)); [unfold op_mkdir; by rewrite fs_get_nonroot, E|].
      intros w' Ew. apply HQ; rewrite Ew; [done|done|apply frame_refl].
  Qed.
  Lemma tot_mkdirs w acc l (Q : unit -> world -> Prop) : room (w_fs w) -> (l = [] \/ dirs (acc ++ l)) ->
    fs_get (w_fs w) acc = Some Dir ->
    (forall w', room (w_fs w') -> fs_get (w_fs w') (acc ++ l) = Some Dir -> frame (fun _ => False) (w_fs w) (w_fs w') -> Q tt w') ->
    tot e (for_each (inits_from acc l) f_mkdir) w Q.
  Proof using He Tanti Dup.
    revert w acc Q. induction l as [|x l IH]; intros w acc Q Hr Hb Hd HQ; cbn [inits_from for_each].
    - apply tot_ret, HQ; [done|by rewrite app_nil_r|apply frame_refl].
    - destruct Hb as [|Hb]; [done|]. rewrite cons_middle, app_assoc in Hb.
      assert (Hne : acc ++ [x] <> []) by (by destruct acc).
      apply tot_bind. apply tot_mkdir; [done| |done| |].
      + destruct l as [|y l]; [by rewrite app_nil_r in Hb|]. eapply dirs_up; [exact Hb|].
        split; [by exists (y :: l)|]. intros E. rewrite <- (app_nil_r (acc ++ [x])) in E at 1. by apply app_inv_head in E.
      + apply parent_is_dir_spec. split; [done|]. by rewrite removelast_last.
      + intros w' Hr' Hd' Hf'. apply IH; [done|by right|by rewrite fs_get_nonroot|]. intros w'' Hr'' Hd'' Hf''.
        apply HQ; [done|by rewrite cons_middle, app_assoc|]. by eapply frame_trans.
  Qed.
  Lemma tot_create_dir_all d w (Q : unit -> world -> Prop) : room (w_fs w) -> dirs d ->
    (forall w', room (w_fs w') -> fs_get (w_fs w') d = Some Dir -> frame (fun _ => False) (w_fs w) (w_fs w') -> Q tt w') ->
    tot e (create_dir_all d) w Q.
  Proof using He Tanti Dup. intros Hr Hd HQ. unfold create_dir_all. apply tot_mkdirs; [done|by right|done|]. exact HQ. Qed.
  Lemma tot_create_path t w (Q : unit -> world -> Prop) : room (w_fs w) -> T t ->
    (forall w', room (w_fs w') -> parent_is_dir (w_fs w') t = true -> frame (fun _ => False) (w_fs w) (w_fs w') -> Q tt w') ->
    tot e (create_path_for_file t) w Q.
  Proof using He Tne Tanti Dup.
    intros Hr Ht HQ. unfold create_path_for_file. apply tot_bind. pose proof (Tne t Ht) as Hne.
    apply (tot_of_option _ _ _ (removelast t)); [by destruct t|]. apply tot_create_dir_all; [done| |].
    - eapply dirs_of_file; [done|]. by apply removelast_below.
    - intros w' Hr' Hd Hf. apply HQ; [done| |done]. apply parent_is_dir_spec. done.
  Qed.
  Lemma tot_put t b w (Q : unit -> world -> Prop) : room (w_fs w) -> T t -> parent_is_dir (w_fs w) t = true ->
    (forall w', w_fs w' = <[t := File b None]> (w_fs w) -> Q tt w') -> tot e (f_write t b) w Q.
  Proof using He Tne.
    intros Hr Ht Hp HQ. unfold f_write. destruct (proj1 (proj2 Hr) t Ht) as [R|(? & ? & R)]; pose proof (Tne t Ht);
    (eapply tot_fs_step; [|exact HQ]; unfold op_write; by rewrite fs_get_nonroot, Hp, R by done).
  Qed.
  Lemma tot_write_buf t b w (Q : unit -> world -> Prop) : room (w_fs w) -> T t ->
    (forall w', room (w_fs w') -> w_fs w' !! t = Some (File b None) -> frame (eq t) (w_fs w) (w_fs w') -> Q tt w') ->
    tot e (write_buf t b) w Q.
  Proof using He Tne Tanti Dup.
    intros Hr Ht HQ. unfold write_buf. apply tot_bind, tot_create_path; [done|done|]. intros w1 R1 P1 F1.
    apply tot_put; [done|done|done|]. intros w2 E2. apply HQ; rewrite E2; [by apply room_put|by rewrite lookup_insert|].
    intros p Hp. rewrite lookup_insert_ne by done. apply F1. tauto.
  Qed.
  (** renaming a file *)
  Lemma tot_rename s t b m w (Q : unit -> world -> Prop) : room (w_fs w) -> T s -> T t -> s <> t ->
    w_fs w !! s = Some (File b m) -> parent_is_dir (w_fs w) t = true ->
    (forall w', room (w_fs w') -> w_fs w' !! t = Some (File b m) -> w_fs w' !! s = None ->
       frame (fun p => p = s \/ p = t) (w_fs w) (w_fs w') -> Q tt w') ->
    tot e (f_rename s t) w Q.
  Proof using He Tne Tanti.
    intros Hr Hs Ht Hst Es Hp HQ. unfold f_rename. pose proof (Tne s Hs). pose proof (Tne t Ht).
    pose proof (proj1 (proj2 Hr) t Ht) as R.
    assert (Hr' : room (delete s (w_fs w))).
    { eapply room_sub; [|eapply (wf_rmf s); [apply Hr|done|exact Es|done]|exact Hr].
      intros p nd [_ ?]%lookup_delete_Some. done. }
    assert (Hp' : parent_is_dir (delete s (w_fs w)) t = true).
    { apply parent_is_dir_spec in Hp as [_ Hp]. apply parent_is_dir_spec. split; [done|].
      destruct (removelast t) as [|x r] eqn:Er; [done|]. cbn [fs_get] in *. rewrite lookup_delete_ne; [done|]. intros Ex. subst s. congruence. }
    apply (tot_fs_step _ _ [] (<[t := File b m]> (delete s (w_fs w)))).
    - unfold op_rename. destruct s as [|x s']; [done|]. rewrite !fs_get_nonroot, Es, Hp by done.
      by destruct R as [->|(? & ? & ->)].
    - intros w' E'. apply HQ; rewrite E'.
      + by apply room_put.
      + by rewrite lookup_insert.
      + rewrite lookup_insert_ne by done. apply lookup_delete.
      + intros p Hpp. left. rewrite lookup_insert_ne, lookup_delete_ne by naive_solver. done.
  Qed.
  Lemma exists_at (f : fs) p b m : p <> [] -> f !! p = Some (File b m) -> fs_exists f p = true.
  Proof using. intros Hne E. unfold fs_exists, fs_stat. by rewrite fs_get_nonroot, E. Qed.
  Lemma tot_move_file src dst rel b m w (Q : unit -> world -> Prop) :
    let s := path_join src rel in let t := path_join dst rel in
    room (w_fs w) -> T s -> T t -> s <> t -> w_fs w !! s = Some (File b m) ->
    (forall w', room (w_fs w') -> w_fs w' !! t = Some (File b m) -> w_fs w' !! s = None ->
       frame (fun p => p = s \/ p = t) (w_fs w) (w_fs w') -> Q tt w') ->
    tot e (move_file src dst rel) w Q.
  Proof using He Tne Tanti Dup.
    intros s t Hr Hs Ht Hst Es HQ. unfold move_file. cbv zeta. fold s t.
    apply tot_bind, tot_create_path; [done|done|]. intros w1 R1 P1 F1.
    assert (E1 : w_fs w1 !! s = Some (File b m)) by (eapply frame_file; eauto).
    apply tot_bind, tot_exists. rewrite (exists_at _ s b m) by eauto. cbn [negb].
    apply tot_bind, tot_catch_ok, (tot_rename s t b m); [done..|]. intros w2 R2 E2 N2 F2. apply tot_ret, HQ; [done|done|done|].
    eapply frame_trans; [eapply frame_weaken; [|exact F1]; done|exact F2].
  Qed.

  (** a file that has been deleted leaves more room *)
  Lemma room_rm_ok : (forall p, rmf_ok room p) /\ (forall P, rmd_ok room P).
  Proof using.
    split.
    - intros p f nd H1 Hne E Hd. eapply room_sub; [|eapply (wf_rmf p); [apply H1|done..]|exact H1].
      intros q nd' [_ ?]%lookup_delete_Some. done.
    - intros P f q H1 HP Hne E Hc. eapply room_sub; [|apply (wf_rmd P f q); [apply H1|done..]|exact H1].
      intros q' nd' [_ ?]%lookup_delete_Some. done.
  Qed.
  (** removing a file and the directories that are empty then *)
  Lemma tot_remove p b m w (Q : unit -> world -> Prop) : room (w_fs w) -> p <> [] -> w_fs w !! p = Some (File b m) ->
    (forall w', room (w_fs w') -> mods (fun q => q = p) (fun q => below q p /\ q <> []) (w_fs w) (w_fs w') ->
       (forall q nd, w_fs w' !! q = Some nd -> w_fs w !! q = Some nd) -> Q tt w') ->
    tot e (remove_file_and_empty_parent_dirs p) w Q.
  Proof using He.
    intros Hr Hne E HQ.
    assert (Hok : tot e (remove_file_and_empty_parent_dirs p) w (fun _ _ => True)).
    { unfold remove_file_and_empty_parent_dirs. destruct (reverse p) as [|x rp] eqn:Erp.
      { by apply (f_equal reverse) in Erp; rewrite reverse_involutive in Erp. }
      cbn [remove_up]. rewrite <- Erp, reverse_involutive. apply tot_bind.
      eexists _, w. split; [reflexivity|].
      assert (fs_is_file (w_fs w) p = true) as ->.
      { unfold fs_is_file, fs_stat. by rewrite fs_get_nonroot, E. }
      apply tot_bind. apply (tot_fs_step _ _ [] (delete p (w_fs w))).
      { unfold op_remove_file. by rewrite fs_get_nonroot, E. }
      intros w1 E1. apply tot_bind, tot_catch. eapply wpt_conseq.
      - apply (w_remove_dirs e (fun _ => True) (fun _ => True) rp w1); [done|done|done|].
        intros q Hq Hqne. rewrite E1.
        assert (Hb : below q p).
        { rewrite <- (reverse_involutive p), Erp, reverse_cons. by apply below_snoc. }
        rewrite lookup_delete_ne; [eapply wf_below; [apply Hr|exact E|done|done]|]. intros ->. by apply below_irrefl in Hb.
      - done.
      - intros r w2 (_ & Hnp & _). destruct r; [by apply tot_ret|by apply tot_ret|done]. }
    set (I := fun g => room g /\ forall q nd, g !! q = Some nd -> w_fs w !! q = Some nd).
    eapply tot_conseq; [eapply tot_wpt; [exact Hok|]; eapply (w_remove_path e I (fun _ => True) p w
      (fun r w' => r = Ok tt -> I (w_fs w') /\ mods (fun q => q = p) (fun q => below q p /\ q <> []) (w_fs w) (w_fs w')))|].
    - by split.
    - apply Hr.
    - by eapply exists_at.
    - intros f nd [H1 H2] H3 H4 H5. split; [by eapply (proj1 room_rm_ok)|]. intros q nd' [_ ?]%lookup_delete_Some. auto.
    - intros f q [H1 H2] H3 H4 H5 H6. split; [by apply (proj2 room_rm_ok (fun _ => True))|]. intros q' nd' [_ ?]%lookup_delete_Some. auto.
    - done.
    - done.
    - intros w' H1 H2 _ _. done.
    - intros [] w' [_ H]. destruct (H eq_refl) as [[H1 H2] H3]. by apply HQ.
  Qed.
End room.
