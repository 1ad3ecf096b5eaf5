(** * Invariants across the file operations of file_ops.rs and fetch.rs *)
From Verif Require Export Keeps ModsProofs.

(** [b'] is an initial part of [b] *)
Definition str_pre (b' b : string) : Prop := exists r, b' +:+ r = b.

Lemma str_pre_refl b : str_pre b b.
Proof. exists "". induction b as [|a b IH]; [done|].
  change (String a (b +:+ "") = String a b). by rewrite IH. Qed.
Lemma strict_prefixes_pre b b' : b' ∈ strict_prefixes b -> str_pre b' b.
Proof.
  revert b'. induction b as [|a b IH]; intros b'; cbn; [by rewrite elem_of_nil|].
  rewrite elem_of_cons, elem_of_list_fmap. intros [->|(c & -> & Hc)].
  - by exists (String a b).
  - destruct (IH _ Hc) as [r <-]. by exists r.
Qed.

(** ** Closure conditions *)
Definition mk_ok (I : fs -> Prop) (P : path -> Prop) : Prop :=
  forall f q, I f -> P q -> q <> [] -> f !! q = None -> parent_is_dir f q = true ->
    I (<[q := Dir]> f).
Definition wr_ok (I : fs -> Prop) (p : path) (b : string) : Prop :=
  forall f b', I f -> str_pre b' b -> p <> [] ->
    (f !! p = None \/ exists c t, f !! p = Some (File c t)) ->
    parent_is_dir f p = true -> I (<[p := File b' None]> f).
Definition mv_ok (I : fs -> Prop) (o t : path) : Prop :=
  forall f b m, I f -> o <> [] -> t <> [] -> f !! o = Some (File b m) -> f !! t <> Some Dir ->
    parent_is_dir f t = true -> I (<[t := File b m]> (delete o f)).
Definition rmf_ok (I : fs -> Prop) (p : path) : Prop :=
  forall f nd, I f -> p <> [] -> f !! p = Some nd -> nd <> Dir -> I (delete p f).
Definition rmd_ok (I : fs -> Prop) (P : path -> Prop) : Prop :=
  forall f q, I f -> P q -> q <> [] -> f !! q = Some Dir -> has_children f q = false ->
    I (delete q f).

Lemma parent_is_dir_nonroot f p : parent_is_dir f p = true -> p <> [].
Proof. by destruct p. Qed.

Section ops.
  Context (e : env).

  Lemma w_mkdir (I : fs -> Prop) (P : path -> Prop) p w (Q : res unit -> world -> Prop) :
    I (w_fs w) -> mk_ok I P -> P p \/ p = [] ->
    (forall r w', I (w_fs w') -> r <> Panic -> Q r w') ->
    wpt e (on_fs I) (f_mkdir p) w Q.
  Proof.
    intros HI Hmk HP HQ. unfold f_mkdir.
    assert (Hop : forall mids fin, op_mkdir p (w_fs w) = Some (mids, fin) -> mids = [] /\ I fin).
    { intros mids fin E. unfold op_mkdir in E.
      destruct (fs_get (w_fs w) p) as [[| |]|] eqn:G; try done.
      - by injection E as <- <-.
      - destruct (parent_is_dir (w_fs w) p) eqn:Hpd; [|done]. injection E as <- <-.
        assert (Hne : p <> []) by (intros ->; done).
        rewrite fs_get_nonroot in G by done. split; [done|].
        apply (Hmk _ p); auto. by destruct HP. }
    apply wpt_fs_inv; auto.
    - intros mids fin E. destruct (Hop _ _ E) as (-> & H). auto.
    - intros w' mids fin E <-. destruct (Hop _ _ E) as (-> & H). by apply HQ.
  Qed.

  Lemma w_create_dir_all (I : fs -> Prop) (P : path -> Prop) p w (Q : res unit -> world -> Prop) :
    I (w_fs w) -> mk_ok I P -> (forall q, q `prefix_of` p -> q <> [] -> P q) ->
    (forall r w', I (w_fs w') -> r <> Panic -> Q r w') ->
    wpt e (on_fs I) (create_dir_all p) w Q.
  Proof.
    intros HI Hmk HP HQ. unfold create_dir_all.
    apply (wpt_for_each _ _ _ _ _
      (fun l w' => I (w_fs w') /\ Forall (fun q => q ∈ inits_from [] p) l)).
    - split; [done|]. apply Forall_forall. auto.
    - intros a l' w' (H1 & H3). apply Forall_cons in H3 as [Ha H3].
      pose proof (inits_from_prefix _ _ _ Ha) as [_ Hpre]. cbn in Hpre.
      pose proof (inits_from_last _ _ _ Ha) as Hne.
      eapply w_mkdir; [exact H1|exact Hmk|eauto|].
      intros [[]|x|] w'' Hw Hok; [done|by apply HQ|done].
    - intros w' (H1 & _). by apply HQ.
  Qed.

  Lemma path_parent_spec p q : path_parent p = Some q <-> p <> [] /\ q = removelast p.
  Proof.
    destruct p as [|c p]; cbn; [split; [done|by intros []]|]. split.
    - intros H. injection H as <-. done.
    - intros [_ ->]. done.
  Qed.

  Lemma below_parent p q : p <> [] -> q `prefix_of` removelast p -> below q p.
  Proof. intros. split; [by apply removelast_prefix|by apply removelast_strict]. Qed.

  Lemma w_create_path_for_file (I : fs -> Prop) (P : path -> Prop) p w (Q : res unit -> world -> Prop) :
    I (w_fs w) -> mk_ok I P -> (forall q, below q p -> q <> [] -> P q) ->
    (forall r w', I (w_fs w') -> r <> Panic -> Q r w') ->
    wpt e (on_fs I) (create_path_for_file p) w Q.
  Proof.
    intros HI Hmk HP HQ. unfold create_path_for_file. apply wpt_bind, wpt_of_option.
    - intros dir [Hne ->]%path_parent_spec.
      eapply w_create_dir_all; eauto. intros q Hq. apply HP. by apply below_parent.
    - intros _. by apply HQ.
  Qed.

  Definition can_write (f : fs) (p : path) : Prop :=
    p <> [] /\ parent_is_dir f p = true /\ f !! p <> Some Dir.

  Lemma op_write_spec (I : fs -> Prop) p b f mids fin :
    op_write p b f = Some (mids, fin) -> I f -> (can_write f p -> wr_ok I p b) ->
    Forall I mids /\ I fin /\ fin = <[p := File b None]> f /\ can_write f p.
  Proof.
    intros E HI Hwr0. unfold op_write in E.
    assert (Hp : p <> []) by (intros ->; done).
    rewrite fs_get_nonroot in E by done.
    destruct (parent_is_dir f p) eqn:Hpd.
    2: { destruct (f !! p) as [[| |]|]; done. }
    assert (Hst : f !! p = None \/ exists c t, f !! p = Some (File c t)).
    { destruct (f !! p) as [[| |]|]; try done; eauto. }
    assert (Hcw : can_write f p).
    { split; [done|]. split; [done|]. destruct Hst as [->|(c & t & ->)]; done. }
    specialize (Hwr0 Hcw) as Hwr.
    assert (Some ((fun b' => <[p := File b' None]> f) <$> strict_prefixes b,
                  <[p := File b None]> f) = Some (mids, fin)) as E2.
    { destruct (f !! p) as [[| |]|]; done. }
    injection E2 as <- <-. split; [|split; [|split; [done|done]]].
    - apply Forall_fmap, Forall_forall. intros b' Hb'. apply Hwr; auto. by apply strict_prefixes_pre.
    - apply Hwr; auto. apply str_pre_refl.
  Qed.

  Lemma w_write (I : fs -> Prop) p b w (Q : res unit -> world -> Prop) :
    I (w_fs w) -> wr_ok I p b ->
    (forall x w', I (w_fs w') -> Q (Err x) w') ->
    (forall w', I (w_fs w') -> w_fs w' = <[p := File b None]> (w_fs w) -> Q (Ok tt) w') ->
    wpt e (on_fs I) (f_write p b) w Q.
  Proof.
    intros HI Hwr HE HQ. unfold f_write. apply wpt_fs_inv; auto.
    - intros mids fin E. edestruct (op_write_spec I) as (? & ? & _); eauto.
    - intros w' mids fin E <-. edestruct (op_write_spec I) as (? & ? & ? & _); eauto.
  Qed.

  Lemma w_copy (I : fs -> Prop) o t b w (Q : res unit -> world -> Prop) :
    I (w_fs w) -> op_read (w_fs w) o = Some b -> (can_write (w_fs w) t -> wr_ok I t b) ->
    (forall x w', I (w_fs w') -> Q (Err x) w') ->
    (forall w', I (w_fs w') -> w_fs w' = <[t := File b None]> (w_fs w) -> can_write (w_fs w) t -> Q (Ok tt) w') ->
    wpt e (on_fs I) (f_copy o t) w Q.
  Proof.
    intros HI Hr Hwr HE HQ. unfold f_copy.
    assert (Hop : forall mids fin, op_copy o t (w_fs w) = Some (mids, fin) -> op_write t b (w_fs w) = Some (mids, fin)).
    { intros mids fin. unfold op_copy. by rewrite Hr. }
    apply wpt_fs_inv; auto.
    - intros mids fin E%Hop. edestruct (op_write_spec I) as (? & ? & _); eauto.
    - intros w' mids fin E%Hop <-. edestruct (op_write_spec I) as (? & ? & ? & ?); eauto.
  Qed.

  Lemma w_write_buf (I : fs -> Prop) (P : path -> Prop) p b w (Q : res unit -> world -> Prop) :
    I (w_fs w) -> mk_ok I P -> (forall q, below q p -> q <> [] -> P q) -> wr_ok I p b ->
    (forall x w', I (w_fs w') -> Q (Err x) w') ->
    (forall w', I (w_fs w') -> w_fs w' !! p = Some (File b None) -> Q (Ok tt) w') ->
    wpt e (on_fs I) (write_buf p b) w Q.
  Proof.
    intros HI Hmk HP Hwr HE HQ. unfold write_buf. apply wpt_bind.
    eapply w_create_path_for_file; eauto.
    intros [[]|x|] w' HI' Hr; [|by apply HE|done].
    apply w_write; auto. intros w'' H1 H2. apply HQ; auto. rewrite H2. apply lookup_insert.
  Qed.

  (** renaming a regular file *)
  Lemma w_rename_file (I : fs -> Prop) o t b m w (Q : res unit -> world -> Prop) :
    I (w_fs w) -> mv_ok I o t -> w_fs w !! o = Some (File b m) -> o <> [] ->
    (forall x w', w_fs w' = w_fs w -> (can_write (w_fs w) t -> exists n, e_fault e n ORename <> None) -> Q (Err x) w') ->
    (forall w', I (w_fs w') -> w_fs w' = <[t := File b m]> (delete o (w_fs w)) -> Q (Ok tt) w') ->
    wpt e (on_fs I) (f_rename o t) w Q.
  Proof.
    intros HI Hmv Ho Hone HE HQ. unfold f_rename.
    assert (Hop : match op_rename o t (w_fs w) with
                  | Some (mids, fin) => mids = [] /\ I fin /\ fin = <[t := File b m]> (delete o (w_fs w))
                  | None => ~ (t <> [] /\ parent_is_dir (w_fs w) t = true /\ w_fs w !! t <> Some Dir)
                  end).
    { unfold op_rename. destruct o as [|o0 o']; [done|]. cbn [fs_get]. rewrite Ho.
      destruct (parent_is_dir (w_fs w) t) eqn:Hpd.
      - pose proof (parent_is_dir_nonroot _ _ Hpd) as Ht. rewrite (fs_get_nonroot _ t) by done.
        destruct (w_fs w !! t) as [[| |]|] eqn:Et; [| | |].
        2: { by intros (? & ? & ?). }
        all: split; [done|]; split; [|done]; apply Hmv; auto; congruence.
      - intros (? & ? & ?). done. }
    destruct (op_rename o t (w_fs w)) as [[mids fin]|] eqn:E.
    - destruct Hop as (-> & HI' & ->). apply wpt_fs_step; [by rewrite E|].
      intros mids fin E'. rewrite E in E'. injection E' as <- <-. split; [|split].
      + constructor; [done|constructor].
      + apply HQ; [|]; rewrite push_fs_snoc; done.
      + intros j Hj. apply HE; [by rewrite take_nil|]. intros _. exists (w_n w). congruence.
    - apply wpt_fs_step; [|by rewrite E].
      intros _. apply HE; [done|]. intros H. by destruct Hop.
  Qed.

  Lemma w_remove_file (I : fs -> Prop) p w (Q : res unit -> world -> Prop) :
    I (w_fs w) -> rmf_ok I p ->
    (forall x w', w_fs w' = w_fs w -> Q (Err x) w') ->
    (forall w', I (w_fs w') -> w_fs w' = delete p (w_fs w) -> (exists nd, w_fs w !! p = Some nd /\ nd <> Dir) -> Q (Ok tt) w') ->
    wpt e (on_fs I) (f_remove_file p) w Q.
  Proof.
    intros HI Hrm HE HQ. unfold f_remove_file.
    assert (Hop : match op_remove_file p (w_fs w) with
                  | Some (mids, fin) => mids = [] /\ I fin /\ fin = delete p (w_fs w) /\
                                        (exists nd, w_fs w !! p = Some nd /\ nd <> Dir)
                  | None => True
                  end).
    { unfold op_remove_file. destruct p as [|c p]; [done|]. cbn [fs_get].
      destruct (w_fs w !! (c :: p)) as [[| |]|] eqn:E; [|done| |done];
        (split; [done|]; split; [by eapply Hrm; [done|done|exact E|done]|]; split; [done|]; eexists; split; [done|done]). }
    destruct (op_remove_file p (w_fs w)) as [[mids fin]|] eqn:E.
    - destruct Hop as (-> & HI' & -> & Hnd). apply wpt_fs_step; [by rewrite E|].
      intros mids fin E'. rewrite E in E'. injection E' as <- <-. split; [|split].
      + constructor; [done|constructor].
      + apply HQ; rewrite ?push_fs_snoc; done.
      + intros j Hj. apply HE. by rewrite take_nil.
    - apply wpt_fs_step; [|by rewrite E]. intros _. by apply HE.
  Qed.

  Lemma w_remove_dir (I : fs -> Prop) (P : path -> Prop) p w (Q : res unit -> world -> Prop) :
    I (w_fs w) -> rmd_ok I P -> P p ->
    (forall x w', w_fs w' = w_fs w -> Q (Err x) w') ->
    (forall w', I (w_fs w') -> w_fs w' = delete p (w_fs w) -> w_fs w !! p = Some Dir -> Q (Ok tt) w') ->
    wpt e (on_fs I) (f_remove_dir p) w Q.
  Proof.
    intros HI Hrm HP HE HQ. unfold f_remove_dir.
    assert (Hop : match op_remove_dir p (w_fs w) with
                  | Some (mids, fin) => mids = [] /\ I fin /\ fin = delete p (w_fs w) /\ w_fs w !! p = Some Dir
                  | None => True
                  end).
    { unfold op_remove_dir. destruct p as [|c p]; [done|]. cbn [fs_get].
      destruct (w_fs w !! (c :: p)) as [[| |]|] eqn:E; try done.
      destruct (has_children (w_fs w) (c :: p)) eqn:Hc; [done|].
      split; [done|]. split; [|done]. by apply (Hrm _ (c :: p)). }
    destruct (op_remove_dir p (w_fs w)) as [[mids fin]|] eqn:E.
    - destruct Hop as (-> & HI' & -> & Hnd). apply wpt_fs_step; [by rewrite E|].
      intros mids fin E'. rewrite E in E'. injection E' as <- <-. split; [|split].
      + constructor; [done|constructor].
      + apply HQ; rewrite ?push_fs_snoc; done.
      + intros j Hj. apply HE. by rewrite take_nil.
    - apply wpt_fs_step; [|by rewrite E]. intros _. by apply HE.
  Qed.

  (** ** [move_file] of a regular file *)
  Definition cp_ok (I : fs -> Prop) (o t : path) (b : string) : Prop :=
    (exists n, e_fault e n ORename <> None) -> wr_ok I t b /\ rmf_ok I o.

  Lemma w_move_file (I : fs -> Prop) (P : path -> Prop) src dst rel b m w (Q : res unit -> world -> Prop) :
    let o := path_join src rel in
    let t := path_join dst rel in
    I (w_fs w) -> mk_ok I P -> (forall q, below q t -> q <> [] -> P q) ->
    o <> [] -> w_fs w !! o = Some (File b m) -> o <> t ->
    mv_ok I o t -> cp_ok I o t b ->
    (forall x w', I (w_fs w') -> Q (Err x) w') ->
    (forall w', I (w_fs w') -> w_fs w' !! o = None ->
                (exists m', w_fs w' !! t = Some (File b m')) ->
                mods (fun q => q = o \/ q = t) (fun q => below q t) (w_fs w) (w_fs w') -> Q (Ok tt) w') ->
    wpt e (on_fs I) (move_file src dst rel) w Q.
  Proof.
    intros o t HI Hmk HP Hone Ho Hot Hmv Hcp HE HQ. unfold move_file. fold o t.
    set (I' := fun g => I g /\ mods (fun _ => False) (fun q => below q t) (w_fs w) g).
    assert (HI' : I' (w_fs w)) by (split; [done|apply mods_refl]).
    assert (Hmk' : mk_ok I' (fun q => P q /\ below q t)).
    { intros f q [H1 H2] [H3 H4] Hq Hn Hpd. split; [by apply (Hmk _ q)|]. apply mods_mkdir; auto. }
    apply wpt_bind. eapply wpt_conseq;
      [eapply (w_create_path_for_file I' _ t w); [exact HI'|exact Hmk'| |]| |].
    - intros q Hq Hne. split; [by apply HP|done].
    - intros r w' Hw' Hnp. exact (conj Hw' Hnp).
    - intros []; cbn; auto. by intros [].
    - intros [[]|x|] w' [[Hw1 Hw2] Hnp]; [|by apply HE|done].
      assert (Ho' : w_fs w' !! o = Some (File b m)).
      { eapply mods_file; [exact Hw2| |done|exact Ho]. auto. }
      assert (Hw2' : mods (fun q => q = o \/ q = t) (fun q => below q t) (w_fs w) (w_fs w')).
      { eapply mods_weaken; [| |exact Hw2]; cbn; [done|auto]. }
      apply wpt_bind, wpt_exists.
      assert (Hex : fs_exists (w_fs w') o = true).
      { unfold fs_exists, fs_stat. rewrite fs_get_nonroot by done. by rewrite Ho'. }
      rewrite Hex. cbn. apply wpt_bind, wpt_catch.
      eapply w_rename_file; [exact Hw1|exact Hmv|exact Ho'|done| |].
      + intros x w'' Hfs Hfault. 
        assert (Hread : op_read (w_fs w'') o = Some b).
        { unfold op_read, fs_stat. rewrite Hfs, fs_get_nonroot, Ho' by done. done. }
        apply wpt_bind. apply w_copy with (b := b); [by rewrite Hfs|done| | |].
        * intros Hcw. rewrite Hfs in Hcw. apply Hcp. auto.
        * intros x' w3 H3. by apply HE.
        * intros w3 H3 E3 Hcw. rewrite Hfs in Hcw, E3. destruct (Hcp (Hfault Hcw)) as [_ Hrm].
          apply w_remove_file with (I := I); [done|done| |].
          -- intros x' w4 E4. apply HE. by rewrite E4.
          -- intros w4 H4 E4 _. apply HQ; auto.
             ++ rewrite E4. apply lookup_delete.
             ++ exists None. rewrite E4, E3, lookup_delete_ne by done. apply lookup_insert.
             ++ rewrite E4, E3. apply mods_delete; [auto|]. apply mods_insert; [auto|]. done.
      + intros w'' Hw'' E. apply wpt_ret. apply HQ; auto.
        * rewrite E, lookup_insert_ne by done. apply lookup_delete.
        * exists m. rewrite E. apply lookup_insert.
        * rewrite E. apply mods_insert; [auto|]. apply mods_delete; [auto|]. done.
  Qed.
End ops.
