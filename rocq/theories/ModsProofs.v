(** * Which paths the operations touch *)
From Verif Require Export Wp FileOps.

(** [mods S D f g]: going from [f] to [g], paths in [S] may have changed in any
    way, paths in [D] may have been created or removed as directories, and
    nothing else changed. *)
Definition mods (S D : path -> Prop) (f g : fs) : Prop :=
  forall p, g !! p = f !! p \/ S p \/
    (D p /\ (f !! p = None \/ f !! p = Some Dir) /\ (g !! p = None \/ g !! p = Some Dir)).

Lemma mods_refl S D f : mods S D f f.
Proof. intros p. by left. Qed.
Lemma mods_trans S D f g h : mods S D f g -> mods S D g h -> mods S D f h.
Proof.
  intros H1 H2 p. destruct (H1 p) as [E1|[?|(HD & HF & HG)]], (H2 p) as [E2|[?|(HD2 & HG2 & HH)]];
    auto; rewrite ?E2, ?E1 in *; auto 6.
Qed.
Lemma mods_weaken (S D S' D' : path -> Prop) f g :
  (forall p, S p -> S' p) -> (forall p, D p -> D' p \/ S' p) -> mods S D f g -> mods S' D' f g.
Proof. intros HS HD H p. destruct (H p) as [?|[?|(Hd & ? & ?)]]; auto. destruct (HD p Hd); auto. Qed.

Lemma mods_insert (S D : path -> Prop) f g p nd :
  S p -> mods S D f g -> mods S D f (<[p := nd]> g).
Proof.
  intros Hp H q. destruct (decide (q = p)) as [->|ne]; [auto|].
  rewrite lookup_insert_ne by congruence. apply H.
Qed.
Lemma mods_delete (S D : path -> Prop) f g p :
  S p -> mods S D f g -> mods S D f (delete p g).
Proof.
  intros Hp H q. destruct (decide (q = p)) as [->|ne]; [auto|].
  rewrite lookup_delete_ne by congruence. apply H.
Qed.
Lemma mods_mkdir (S D : path -> Prop) f g p :
  D p \/ S p -> g !! p = None -> mods S D f g -> mods S D f (<[p := Dir]> g).
Proof.
  intros Hp Hg H q. destruct (decide (q = p)) as [->|ne].
  - rewrite lookup_insert. destruct Hp as [Hp|Hp]; auto. destruct (H p) as [E|[?|(?&?&?)]]; auto 10.
    rewrite E in Hg. right. right. auto.
  - rewrite lookup_insert_ne by congruence. apply H.
Qed.
Lemma mods_rmdir (S D : path -> Prop) f g p :
  D p \/ S p -> g !! p = Some Dir -> mods S D f g -> mods S D f (delete p g).
Proof.
  intros Hp Hg H q. destruct (decide (q = p)) as [->|ne].
  - rewrite lookup_delete. destruct Hp as [Hp|Hp]; auto. destruct (H p) as [E|[?|(?&?&?)]]; auto 10.
    rewrite E in Hg. right. right. auto.
  - rewrite lookup_delete_ne by congruence. apply H.
Qed.

(** files and links outside [S] stay *)
Lemma mods_file S D f g p nd :
  mods S D f g -> ~ S p -> nd <> Dir -> f !! p = Some nd -> g !! p = Some nd.
Proof.
  intros H HS Hnd Hf. destruct (H p) as [E|[?|(?&[?|?]&?)]]; congruence || contradiction.
Qed.
Lemma mods_file_rev S D f g p nd :
  mods S D f g -> ~ S p -> nd <> Dir -> g !! p = Some nd -> f !! p = Some nd.
Proof.
  intros H HS Hnd Hf. destruct (H p) as [E|[?|(?&?&[?|?])]]; congruence || contradiction.
Qed.
Lemma mods_same S D f g p : mods S D f g -> ~ S p -> ~ D p -> g !! p = f !! p.
Proof. intros H HS HD. destruct (H p) as [E|[?|(?&?&?)]]; auto; contradiction. Qed.

Lemma fs_get_nonroot f p : p <> [] -> fs_get f p = f !! p.
Proof. destruct p; [done|reflexivity]. Qed.

(** ** Writing *)
Section with_env.
  Context (e : env).

  Lemma mkdir_mods S D f0 w p (Q : res unit -> world -> Prop) :
    mods S D f0 (w_fs w) -> D p \/ S p \/ p = [] ->
    (forall r w', mods S D f0 (w_fs w') ->
       (r = Ok tt -> mods (fun _ => False) (fun q => q = p) (w_fs w) (w_fs w') /\
                     fs_get (w_fs w') p = Some Dir) ->
       Q r w') ->
    wpt e (on_fs (mods S D f0)) (f_mkdir p) w Q.
  Proof.
    intros Hm Hp HQ. unfold f_mkdir.
    assert (Hop : forall mids fin, op_mkdir p (w_fs w) = Some (mids, fin) ->
              mids = [] /\ mods S D f0 fin /\
              mods (fun _ => False) (fun q => q = p) (w_fs w) fin /\ fs_get fin p = Some Dir).
    { intros mids fin E. unfold op_mkdir in E.
      destruct (fs_get (w_fs w) p) as [[| |]|] eqn:G; try done.
      - injection E as <- <-. split; [done|]. split; [done|]. split; [apply mods_refl|done].
      - destruct (parent_is_dir (w_fs w) p); [|done]. injection E as <- <-.
        assert (Hne : p <> []) by (intros ->; done).
        rewrite fs_get_nonroot in G by done.
        split; [done|]. split; [|split].
        + apply mods_mkdir; [|done|done]. destruct Hp as [?|[?|?]]; auto; done.
        + apply mods_mkdir; auto. apply mods_refl.
        + rewrite fs_get_nonroot by done. apply lookup_insert. }
    apply wpt_fs_inv; auto.
    - intros mids fin E. destruct (Hop _ _ E) as (-> & H & _). auto.
    - intros w' H. apply HQ; auto. done.
    - intros w' mids fin E <-. destruct (Hop _ _ E) as (-> & H1 & H2 & H3).
      apply HQ; auto.
  Qed.

  Lemma inits_from_prefix acc p q : q ∈ inits_from acc p -> acc `prefix_of` q /\ q `prefix_of` (acc ++ p).
  Proof.
    revert acc. induction p as [|c p IH]; intros acc; cbn; [by rewrite elem_of_nil|].
    rewrite elem_of_cons. intros [->|H].
    - split; [by exists [c]|]. exists p. by rewrite <- app_assoc.
    - apply IH in H as [H1 H2]. rewrite <- app_assoc in H2. split; [|exact H2].
      transitivity (acc ++ [c]); [by exists [c]|exact H1].
  Qed.
  Lemma inits_from_last acc p q : q ∈ inits_from acc p -> q <> [].
  Proof.
    revert acc. induction p as [|c p IH]; intros acc; cbn; [by rewrite elem_of_nil|].
    rewrite elem_of_cons. intros [->|H]; [by destruct acc|]. eauto.
  Qed.

  Lemma create_dir_all_mods S D f0 w p (Q : res unit -> world -> Prop) :
    mods S D f0 (w_fs w) -> (forall q, q `prefix_of` p -> q <> [] -> D q \/ S q) ->
    (forall r w', mods S D f0 (w_fs w') ->
       (r = Ok tt -> mods (fun _ => False) (fun q => q `prefix_of` p) (w_fs w) (w_fs w') ) ->
       Q r w') ->
    wpt e (on_fs (mods S D f0)) (create_dir_all p) w Q.
  Proof.
    intros Hm Hp HQ. unfold create_dir_all.
    apply (wpt_for_each _ _ _ _ _
      (fun l w' => mods S D f0 (w_fs w') /\
                   mods (fun _ => False) (fun q => q `prefix_of` p) (w_fs w) (w_fs w') /\
                   Forall (fun q => q ∈ inits_from [] p) l)).
    - split; [done|]. split; [apply mods_refl|]. apply Forall_forall. auto.
    - intros a l' w' (H1 & H2 & H3). apply Forall_cons in H3 as [Ha H3].
      pose proof (inits_from_prefix _ _ _ Ha) as [_ Hpre]. cbn in Hpre.
      pose proof (inits_from_last _ _ _ Ha) as Hne.
      eapply mkdir_mods; [exact H1| |].
      + destruct (Hp a Hpre Hne); auto.
      + intros r w'' Hw Hok. destruct r as [[]|x|].
        * split; [done|]. split; [|done]. destruct (Hok eq_refl) as [Hok' _].
          eapply mods_trans; [exact H2|]. eapply mods_weaken; [| |exact Hok']; cbn; auto.
          intros q ->. auto.
        * apply HQ; auto. done.
        * apply HQ; auto. done.
    - intros w' (H1 & H2 & _). apply HQ; auto.
  Qed.

  Lemma removelast_prefix (p q : path) : q `prefix_of` removelast p -> q `prefix_of` p.
  Proof.
    intros [k Hk]. destruct p as [|c p]; [exists k; done|].
    pose proof (app_removelast_last "" (l := c :: p) ltac:(done)) as E.
    rewrite E, Hk, <- app_assoc. by eexists.
  Qed.

  Lemma removelast_strict (p q : path) : p <> [] -> q `prefix_of` removelast p -> q <> p.
  Proof.
    intros Hp Hq ->. apply prefix_length in Hq.
    pose proof (app_removelast_last "" Hp) as E.
    apply (f_equal length) in E. rewrite app_length in E. cbn in E. lia.
  Qed.

  Lemma strict_prefixes_map (p : path) b (f : fs) (I : fs -> Prop) :
    (forall b', I (<[p := File b' None]> f)) ->
    Forall I ((fun b' => <[p := File b' None]> f) <$> strict_prefixes b).
  Proof. intros H. apply Forall_fmap. apply Forall_forall. intros b' _. apply H. Qed.

  Lemma write_mods S D f0 w p b (Q : res unit -> world -> Prop) :
    mods S D f0 (w_fs w) -> S p ->
    (forall r w', mods S D f0 (w_fs w') ->
       (r = Ok tt -> w_fs w' = <[p := File b None]> (w_fs w)) -> Q r w') ->
    wpt e (on_fs (mods S D f0)) (f_write p b) w Q.
  Proof.
    intros Hm Hp HQ. unfold f_write.
    assert (Hop : forall mids fin, op_write p b (w_fs w) = Some (mids, fin) ->
       Forall (mods S D f0) mids /\ mods S D f0 fin /\ fin = <[p := File b None]> (w_fs w)).
    { intros mids fin E. unfold op_write in E.
      assert (Some ((fun b' => <[p := File b' None]> (w_fs w)) <$> strict_prefixes b,
                    <[p := File b None]> (w_fs w)) = Some (mids, fin)) as E2.
      { destruct (fs_get (w_fs w) p) as [[| |]|]; try done; destruct (parent_is_dir _ _); done. }
      injection E2 as <- <-. split; [|split; [|done]].
      - apply strict_prefixes_map. intros. by apply mods_insert.
      - by apply mods_insert. }
    apply wpt_fs_inv; auto.
    - intros mids fin E. destruct (Hop _ _ E) as (? & ? & _). auto.
    - intros w' H. apply HQ; auto. done.
    - intros w' mids fin E <-. destruct (Hop _ _ E) as (? & H & Hf). apply HQ; auto.
  Qed.

  (** [write_buf p b]: touches [p], and makes missing directories above it. *)
  Lemma write_buf_mods S D f0 w p b (Q : res unit -> world -> Prop) :
    mods S D f0 (w_fs w) -> S p -> (forall q, below q p -> q <> [] -> D q \/ S q) ->
    (forall r w', mods S D f0 (w_fs w') ->
       (r = Ok tt -> mods (eq p) (fun q => below q p) (w_fs w) (w_fs w') /\
                     w_fs w' !! p = Some (File b None)) -> Q r w') ->
    wpt e (on_fs (mods S D f0)) (write_buf p b) w Q.
  Proof.
    intros Hm Hp Hpre HQ. unfold write_buf, create_path_for_file.
    apply wpt_bind, wpt_bind, wpt_of_option.
    - intros dir Hdir. assert (p <> [] /\ dir = removelast p) as [Hne ->].
      { destruct p; [done|]. cbn in Hdir. split; [done|]. by injection Hdir. }
      assert (Hbel : forall q, q `prefix_of` removelast p -> below q p).
      { intros q Hq. split; [by apply removelast_prefix|by apply removelast_strict]. }
      apply create_dir_all_mods; auto.
      intros r w' H1 H2. destruct r as [[]|x|].
      + apply write_mods; auto. intros r w'' H3 H4. apply HQ; auto.
        intros ->. specialize (H2 eq_refl). specialize (H4 eq_refl). rewrite H4.
        split; [|by rewrite lookup_insert]. apply mods_insert; [done|].
        eapply mods_weaken; [| |exact H2]; cbn; auto.
        intros q []. 
      + apply HQ; auto. done.
      + apply HQ; auto. done.
    - intros _. apply HQ; auto. done.
  Qed.
End with_env.
