(** * What runs leave behind is not in the way of later runs *)
From Coq Require Import ZifyN ZifyNat ZifyBool.
From Verif Require Export WayGen.
From Verif Require Import Live FsWf.

Section way.
  (** [T]: the places of files, [D]: the places of directories; the link
      [current] and the file it is prepared in are none of them; [L]: what may
      be in the directories of revisions besides *)
  Context (c : config) (base name : string) (e : env) (T D L : path -> Prop).
  Context (Tne : forall t, T t -> t <> []) (Tanti : forall t, T t -> ~ dirs T D t).
  Context (Drev : forall r, D (rev_path c r)).
  Context (Tcur : ~ T (rsync_current c)) (Dcur : ~ dirs T D (rsync_current c)).
  Context (Ttmp : ~ T (link_tmp c)) (Dtmp : ~ dirs T D (link_tmp c)).

  (** the directories of revisions contain nothing but files in the places of
      files, and the directories for them *)
  Definition tidy (g : fs) : Prop := forall r p nd, under (rev_path c r) p -> g !! p = Some nd ->
    L p \/ match nd with File _ _ => T p | Dir => dirs T D p | Link _ => False end.
  Definition way (g : fs) : Prop := room T D g /\ (g !! rsync_current c <> Some Dir /\ tidy g) /\ tmp_fine c g.

  Lemma way_wf g : way g -> wf g.
  Proof using. by intros [[? _] _]. Qed.
  Lemma rev_not_T r : ~ T (rev_path c r).
  Proof using Tanti Drev. intros H. apply (Tanti _ H). right. apply Drev. Qed.
  Lemma rev_ne_tmp r : rev_path c r <> link_tmp c.
  Proof using Dtmp Drev. intros E. apply Dtmp. rewrite <- E. right. apply Drev. Qed.
  Lemma rev_ne_cur r : rev_path c r <> rsync_current c.
  Proof using Dcur Drev. intros E. apply Dcur. rewrite <- E. right. apply Drev. Qed.

  Lemma tidy_insert g q nd : tidy g -> match nd with File _ _ => T q | Dir => dirs T D q | Link _ => forall r, ~ under (rev_path c r) q end ->
    tidy (<[q := nd]> g).
  Proof using.
    intros Hg Hnd r p nd' Hp [[<- <-]|[_ E]]%lookup_insert_Some; [|by eapply Hg]. right.
    destruct nd; [done..|]. by destruct (Hnd r).
  Qed.
  Lemma tidy_sub g h : tidy g -> (forall p nd, h !! p = Some nd -> g !! p = Some nd) -> tidy h.
  Proof using. intros Hg Hs r p nd Hp E. eapply Hg; [exact Hp|by apply Hs]. Qed.
  Lemma not_in_rev s r : (forall r, dir_name r <> s) -> ~ under (rev_path c r) (c_rsync_dir c ++ [s]).
  Proof using.
    intros Hs. rewrite rev_path_eq. intros Hp%prefix_app_inv%prefix_cons_inv_1. by eapply Hs.
  Qed.
  Lemma tmp_not_in_rev r : ~ under (rev_path c r) (link_tmp c).
  Proof using. rewrite link_tmp_eq. apply not_in_rev. intros r'. apply rev_dir_name. Qed.
  Lemma cur_not_in_rev r : ~ under (rev_path c r) (rsync_current c).
  Proof using. rewrite rsync_current_eq. apply not_in_rev. intros r'. apply rev_dir_name. Qed.

  Lemma way_mk : mk_ok way (dirs T D).
  Proof using Tanti Dcur Dtmp.
    intros g q (H1 & [H2 Hti] & H3) Hq Hne Hn Hp. split; [by apply room_mk|].
    assert (Hqc : q <> rsync_current c) by (by intros ->). assert (Hqt : q <> link_tmp c) by (by intros ->).
    split; [split; [by rewrite lookup_insert_ne|by apply tidy_insert]|]. unfold tmp_fine, file_or_none. rewrite lookup_insert_ne by done.
    destruct H3 as [H3|(r & H3 & H4)]; [by left|]. right. exists r. split; [done|].
    destruct (decide (q = rev_path c r)) as [->|]; [apply lookup_insert|by rewrite lookup_insert_ne].
  Qed.
  Lemma way_put g t b m : way g -> T t -> parent_is_dir g t = true -> way (<[t := File b m]> g).
  Proof using Tne Tanti Drev Tcur Ttmp.
    intros (H1 & [H2 Hti] & H3) Ht Hp. split; [by apply room_put|].
    assert (Hqc : t <> rsync_current c) by (by intros ->). assert (Hqt : t <> link_tmp c) by (by intros ->).
    split; [split; [by rewrite lookup_insert_ne|by apply tidy_insert]|]. unfold tmp_fine, file_or_none. rewrite lookup_insert_ne by done.
    destruct H3 as [H3|(r & H3 & H4)]; [by left|]. right. exists r. split; [done|].
    rewrite lookup_insert_ne; [done|]. intros ->. by apply (rev_not_T r).
  Qed.
  Lemma way_del g p : way g -> wf (delete p g) -> (forall r, p <> rev_path c r) -> way (delete p g).
  Proof using.
    intros (H1 & [H2 Hti] & H3) Hw Hr. split; [eapply room_sub; [|done|exact H1]; by intros q nd [_ ?]%lookup_delete_Some|].
    split; [split; [by intros [_ ?]%lookup_delete_Some|eapply tidy_sub; [exact Hti|]; by intros q nd [_ ?]%lookup_delete_Some]|]. unfold tmp_fine, file_or_none.
    destruct (decide (p = link_tmp c)) as [->|Hp]; [left; left; apply lookup_delete|].
    rewrite lookup_delete_ne by done. destruct H3 as [H3|(r & H3 & H4)]; [by left|]. right. exists r. split; [done|].
    by rewrite lookup_delete_ne.
  Qed.
  (** what the step needs to know about the tree that only shrinks *)
  Definition way' (g : fs) : Prop := way g /\ g !! link_tmp c = None.
  Lemma way'_sub f g : way' f -> wf g -> g ⊆ f -> way' g.
  Proof using.
    intros [(H1 & [H2 Hti] & H3) H4] Hw Hs.
    assert (Hsub : forall p nd, g !! p = Some nd -> f !! p = Some nd) by (intros; by eapply lookup_weaken).
    assert (Ht : g !! link_tmp c = None) by (by eapply lookup_weaken_None).
    split; [|done]. split; [by eapply room_sub|]. split; [split; [intros E; by apply H2, Hsub|by eapply tidy_sub]|]. left. by left.
  Qed.
  Lemma way_link g r : way g -> g !! rev_path c r = Some Dir -> parent_is_dir g (link_tmp c) = true -> g !! link_tmp c = None ->
    way (<[link_tmp c := Link (dir_name r)]> g).
  Proof using Ttmp Dtmp Drev.
    intros (H1 & [H2 Hti] & H3) Hr Hp Hn. destruct (link_tmp_ne c) as (Ht & Hcu & Htc).
    destruct H1 as (R1 & R2 & R3). split; [split; [|split]|split; [split|]].
    - apply wf_other_insert; try done. by rewrite Hn.
    - intros t HT. unfold file_or_none. rewrite lookup_insert_ne by (by intros <-). by apply R2.
    - intros q Hq Hne. unfold dir_or_none. rewrite lookup_insert_ne by (by intros <-). by apply R3.
    - by rewrite lookup_insert_ne.
    - apply tidy_insert; [done|]. intros r'. apply tmp_not_in_rev.
    - right. exists r. rewrite lookup_insert. split; [done|]. rewrite lookup_insert_ne; [done|]. intros E. by apply (rev_ne_tmp r).
  Qed.
  Lemma w_way_symlink r w : way (w_fs w) -> w_fs w !! rev_path c r = Some Dir ->
    wpt e (on_fs way) (symlink_current r c) w (fun x w' => way (w_fs w') /\ (x = Ok tt -> way' (w_fs w'))).
  Proof using Ttmp Dtmp Drev Tcur Dcur.
    intros HI Hr. destruct (link_tmp_ne c) as (Ht & Hcu & Htc). unfold symlink_current. cbv zeta. fold (link_tmp c).
    wp1. wp1. wp1.
    eapply wpt_post with (Q := fun x w1 => way (w_fs w1) /\ w_fs w1 !! rev_path c r = Some Dir).
    { wp1; [|done].
      assert (Hk : keeps e (fun g => way g /\ g !! rev_path c r = Some Dir) (f_remove_file (link_tmp c))).
      { unfold f_remove_file. apply keeps_step. intros g mids fin [Hg Hgr] E. unfold op_remove_file in E.
        rewrite fs_get_nonroot in E by done.
        assert (Hgo : forall nd, g !! link_tmp c = Some nd -> nd <> Dir -> way (delete (link_tmp c) g) /\ delete (link_tmp c) g !! rev_path c r = Some Dir).
        { intros nd End Hnd. split.
          - apply way_del; [done|by eapply (wf_rmf (link_tmp c)); [apply way_wf|..]|]. intros r' Ex. by apply (rev_ne_tmp r').
          - rewrite lookup_delete_ne; [done|]. intros Ex. by apply (rev_ne_tmp r). }
        destruct (g !! link_tmp c) as [[| |]|] eqn:El; try done; injection E as <- <-; (split; [constructor|]); by eapply Hgo. }
      eapply wpt_conseq; [apply Hk; done| |done]. by intros []; cbn; auto; intros []. }
    intros [[]|x|] w1 [HI1 Hr1]; [|done..]. wp1.
    eapply wpt_post with (Q := fun x w2 => way (w_fs w2) /\ (x = Ok tt -> w_fs w2 !! link_tmp c = Some (Link (dir_name r)))).
    { unfold f_symlink. apply wpt_fs_inv; [done| |by intros|].
      - intros mids fin E. unfold op_symlink in E. rewrite fs_get_nonroot in E by done.
        destruct (w_fs w1 !! link_tmp c) eqn:El; [done|]. destruct (parent_is_dir _ _) eqn:Hp; [|done]. injection E as <- <-.
        split; [constructor|]. by apply way_link.
      - intros w2 mids fin E <-. unfold op_symlink in E. rewrite fs_get_nonroot in E by done.
        destruct (w_fs w1 !! link_tmp c) eqn:El; [done|]. destruct (parent_is_dir _ _) eqn:Hp; [|done]. injection E as <- Ef.
        rewrite <- Ef. split; [by apply way_link|]. intros _. apply lookup_insert. }
    intros [[]|x|] w2 [HI2 Hl2]; [|done..]. specialize (Hl2 eq_refl).
    assert (Hop : forall mids fin, op_rename (link_tmp c) (rsync_current c) (w_fs w2) = Some (mids, fin) -> mids = [] /\ way' fin).
    { intros mids fin E. unfold op_rename in E. rewrite (fs_get_nonroot _ (rsync_current c)) in E by done.
      destruct (link_tmp c) as [|t0 t'] eqn:Et; [done|]. rewrite <- Et in *.
      rewrite fs_get_nonroot in E by done. rewrite Hl2 in E. destruct (parent_is_dir (w_fs w2) (rsync_current c)) eqn:Hp; [|done].
      assert (Hfin : mids = [] /\ fin = <[rsync_current c := Link (dir_name r)]> (delete (link_tmp c) (w_fs w2)) /\ w_fs w2 !! rsync_current c <> Some Dir).
      { destruct (w_fs w2 !! rsync_current c) as [[| |]|]; try done; injection E as <- <-; done. }
      destruct Hfin as (-> & -> & Hnd). split; [done|].
      assert (Hdel : way (delete (link_tmp c) (w_fs w2))).
      { apply way_del; [done|eapply (wf_rmf (link_tmp c)); [by apply way_wf|done|exact Hl2|done]|]. intros r' Ex. by apply (rev_ne_tmp r'). }
      destruct Hdel as ((R1 & R2 & R3) & [H2 Hti] & H3). split; [split; [split; [|split]|split; [split|]]|].
      - apply wf_other_insert; [done|done| |by rewrite lookup_delete_ne by done].
        apply parent_is_dir_spec in Hp as [_ Hp]. apply parent_is_dir_spec. split; [done|].
        destruct (removelast (rsync_current c)) as [|s q] eqn:El; [done|]. cbn [fs_get] in *.
        rewrite lookup_delete_ne; [done|]. intros Ex. rewrite Ex in Hl2. congruence.
      - intros t HT. unfold file_or_none. rewrite lookup_insert_ne by (by intros <-). by apply R2.
      - intros q Hq Hne. unfold dir_or_none. rewrite lookup_insert_ne by (by intros <-). by apply R3.
      - by rewrite lookup_insert.
      - apply tidy_insert; [done|]. intros r'. apply cur_not_in_rev.
      - left. left. rewrite lookup_insert_ne by done. apply lookup_delete.
      - rewrite lookup_insert_ne by done. apply lookup_delete. }
    unfold f_rename. apply wpt_fs_inv; [done| |by intros|].
    - intros mids fin E. destruct (Hop _ _ E) as [-> [H _]]. by split.
    - intros w3 mids fin E <-. destruct (Hop _ _ E) as [_ H]. split; [apply H|done].
  Qed.
End way.

(** ** A run *)
Section run.
  Context (c : config) (base name : string) (e : env) (f0 : fs) (T D L : path -> Prop).
  Context (Hs : sane c base name e f0) (Hh : honest_run c e f0).
  Context (Tne : forall t, T t -> t <> []) (Tanti : forall t, T t -> ~ dirs T D t).
  Context (Dup : forall d d', D d -> below d' d -> D d') (Drev : forall r, D (rev_path c r)).
  Context (Tcur : ~ T (rsync_current c)) (Dcur : ~ dirs T D (rsync_current c)).
  Context (Ttmp : ~ T (link_tmp c)) (Dtmp : ~ dirs T D (link_tmp c)).
  Context (Hsym : use_symlinks c = true).
  Context (Tlist : forall p, p ∈ [staging_dir c ++ [name]; notif_path c name; notif_tmp c name; rrdp_state_path c; rsync_state_path c] -> T p).
  Context (Trefs : forall n0 u h rel, offers c e f0 n0 -> (u, h) ∈ refs n0 -> u = base +:+ rel -> T (staging_path c rel) /\ T (public_path c rel)).
  Context (Tbook : forall st p, starts_from c base name f0 st -> booked c st p -> T p).
  Context (Tobj : forall n0 b u o, offers c e f0 n0 -> x_hash (e_ext e) b = n_snap_hash n0 -> (u, o) ∈ (x_snapshot (e_ext e) b).1 ->
     T (object_path (c_include_host c) (rev_path c (mkRev (n_session n0) (n_serial n0))) u)).
  Notation way := (way c T D L).

  Theorem way_instants : way f0 -> forall g, g ∈ instants c e f0 -> way g.
  Proof using All.
    apply (WayGen.way_instants c base name e f0 T D way (way' c T D L)); try done.
    - by intros g [? _].
    - by apply way_mk.
    - intros g t b m. by apply way_put.
    - intros g p. by apply way_del.
    - by intros g [? _].
    - intros f g. by apply way'_sub.
    - intros r rs w. rewrite Hsym. by apply w_way_symlink.
  Qed.
End run.
