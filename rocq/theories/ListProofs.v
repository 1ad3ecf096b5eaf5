(** * Sorted lists *)
From Coq Require Import ZifyN ZifyNat ZifyBool Sorting.Sorted.
From Verif Require Export ValidatorProofs.

Lemma StronglySorted_app {A} (R : A -> A -> Prop) l l' :
  StronglySorted R (l ++ l') <->
  StronglySorted R l /\ StronglySorted R l' /\ (forall a b, a ∈ l -> b ∈ l' -> R a b).
Proof.
  induction l as [|x l IH]; cbn.
  - split; [|by intros (_ & ? & _)]. intros H. split; [constructor|]. split; [done|]. intros a b Ha. by apply elem_of_nil in Ha.
  - split.
    + intros H. apply StronglySorted_inv in H as [H1 H2]. apply IH in H1 as (H3 & H4 & H5).
      apply Forall_app in H2 as [H6 H7]. split; [by constructor|]. split; [done|].
      intros a b [->|Ha]%elem_of_cons Hb; [|auto]. by rewrite Forall_forall in H7; apply H7.
    + intros (H1 & H2 & H3). apply StronglySorted_inv in H1 as [H4 H5]. constructor.
      * apply IH. split; [done|]. split; [done|]. intros a b Ha. apply H3. by constructor.
      * apply Forall_app. split; [done|]. apply Forall_forall. intros b Hb. apply H3; [constructor|done].
Qed.
Lemma StronglySorted_reverse {A} (R : A -> A -> Prop) l :
  StronglySorted R l -> StronglySorted (fun a b => R b a) (reverse l).
Proof.
  induction 1 as [|x l Hl IH Hx]; [constructor|]. rewrite reverse_cons. apply StronglySorted_app.
  split; [done|]. split; [repeat constructor|]. intros a b Ha Hb%elem_of_list_singleton. subst b.
  rewrite elem_of_reverse in Ha. by rewrite Forall_forall in Hx; apply Hx.
Qed.
Lemma StronglySorted_weaken {A} (R R' : A -> A -> Prop) l :
  (forall a b, R a b -> R' a b) -> StronglySorted R l -> StronglySorted R' l.
Proof. intros H. induction 1 as [|x l Hl IH Hx]; constructor; [done|]. eapply Forall_impl; [exact Hx|]. auto. Qed.

Section sort.
  Context {A : Type} (key : A -> N).
  Lemma insert_by_elem x y l : y ∈ insert_by key x l <-> y = x \/ y ∈ l.
  Proof. rewrite (insert_by_perm key x l). by rewrite elem_of_cons. Qed.
  Lemma sort_by_key_sorted l : StronglySorted (fun a b => (key a <= key b)%N) (sort_by_key key l).
  Proof.
    induction l as [|x l IH]; cbn; [constructor|].
    induction IH as [|y l' Hl IH' Hy]; cbn; [repeat constructor|].
    destruct (N.leb_spec (key x) (key y)).
    - constructor; [by constructor|]. constructor; [done|]. eapply Forall_impl; [exact Hy|]. cbn. lia.
    - constructor; [done|]. apply Forall_forall. intros z [->|Hz]%insert_by_elem; [lia|].
      by rewrite Forall_forall in Hy; apply Hy.
  Qed.
  (** sorting does nothing to a sorted list *)
  Lemma sort_by_key_id l : StronglySorted (fun a b => (key a <= key b)%N) l -> sort_by_key key l = l.
  Proof.
    induction 1 as [|x l Hl IH Hx]; cbn; [done|]. rewrite IH. destruct l as [|y l]; cbn; [done|].
    apply Forall_cons in Hx as [Hx _]. by destruct (N.leb_spec (key x) (key y)); [|lia].
  Qed.
  (** a strictly sorted list is determined by its elements *)
  Lemma sorted_unique l l' :
    StronglySorted (fun a b => (key a < key b)%N) l -> StronglySorted (fun a b => (key a <= key b)%N) l' ->
    l ≡ₚ l' -> l = l'.
  Proof.
    intros H. revert l'. induction H as [|x l Hl IH Hx]; intros l' Hl' P.
    { apply Permutation_nil_l in P. done. }
    destruct l' as [|y l']; [by apply Permutation_nil_r in P|].
    apply StronglySorted_inv in Hl' as [Hl' Hy].
    assert (x = y) as ->.
    { assert (Hxy : x ∈ y :: l') by (rewrite <- P; constructor).
      assert (Hyx : y ∈ x :: l) by (rewrite P; constructor).
      apply elem_of_cons in Hxy as [->|Hxy]; [done|]. apply elem_of_cons in Hyx as [->|Hyx]; [done|].
      rewrite Forall_forall in Hx, Hy. specialize (Hx _ Hyx). specialize (Hy _ Hxy). lia. }
    f_equal. apply IH; [done|]. by apply Permutation_cons_inv in P.
  Qed.
End sort.
