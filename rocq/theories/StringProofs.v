(** * Lemmas about the string functions *)
From Coq Require Import ZifyN ZifyNat ZifyBool.
From Verif Require Export JsonProofs PathProofs Types.

Lemma strip_prefix_spec p s r : strip_prefix p s = Some r <-> s = p +:+ r.
Proof.
  revert s. induction p as [|a p IH]; intros s; cbn [strip_prefix].
  - rewrite sapp_nil_l. split; congruence.
  - destruct s as [|b s]; [split; [done|]; rewrite sapp_cons; done|].
    rewrite sapp_cons. destruct (Ascii.eqb a b) eqn:E.
    + apply Ascii.eqb_eq in E as ->. rewrite IH. split; [by intros ->|]. intros H. by injection H.
    + apply Ascii.eqb_neq in E. split; [done|]. intros H. by injection H.
Qed.
Lemma strip_prefix_app p r : strip_prefix p (p +:+ r) = Some r.
Proof. by apply strip_prefix_spec. Qed.
Lemma strip_prefix_none p s : strip_prefix p s = None <-> forall r, s <> p +:+ r.
Proof.
  split.
  - intros H r ->. by rewrite strip_prefix_app in H.
  - intros H. destruct (strip_prefix p s) as [r|] eqn:E; [|done].
    apply strip_prefix_spec in E. by apply H in E.
Qed.

Lemma ends_with_spec suf s : ends_with suf s = true <-> exists r, s = r +:+ suf.
Proof.
  revert suf. induction s as [|a s IH]; intros suf; cbn [ends_with].
  - destruct (String.eqb "" suf) eqn:E.
    + apply String.eqb_eq in E as <-. split; [|done]. intros _. by exists "".
    + split; [done|]. intros [r Hr]. symmetry in Hr. apply sapp_eq_nil in Hr as [_ ->]. done.
  - destruct (String.eqb (String a s) suf) eqn:E.
    + apply String.eqb_eq in E as <-. split; [|done]. intros _. by exists "".
    + rewrite IH. apply String.eqb_neq in E. split.
      * intros [r ->]. by exists (String a r).
      * intros [r Hr]. destruct r as [|b r]; [by rewrite sapp_nil_l in Hr|].
        rewrite sapp_cons in Hr. injection Hr as -> ->. by exists r.
Qed.

Lemma split_on_app a s t :
  exists l c, split_on a s = l ++ [c] /\
    split_on a (s +:+ t) = match split_on a t with [] => l ++ [c] | d :: m => l ++ (c +:+ d) :: m end.
Proof.
  pose proof (split_on_nonempty a t) as Hne.
  induction s as [|b s IH].
  - exists [], "". split; [done|]. rewrite sapp_nil_l. by destruct (split_on a t).
  - destruct IH as (l & c & E1 & E2). rewrite sapp_cons. cbn [split_on].
    destruct (Ascii.eqb b a).
    + exists ("" :: l), c. rewrite E1, E2. split; [done|]. by destruct (split_on a t).
    + rewrite E1, E2. destruct l as [|h l]; cbn.
      * exists [], (String b c). split; [done|]. by destruct (split_on a t).
      * exists (String b h :: l), c. split; [done|]. by destruct (split_on a t).
Qed.
Lemma split_on_sep a s t : split_on a (s +:+ String a t) = split_on a s ++ split_on a t.
Proof.
  destruct (split_on_app a s (String a t)) as (l & c & E1 & E2). rewrite E2, E1.
  cbn [split_on]. rewrite Ascii.eqb_refl. rewrite sapp_nil_r. by rewrite <- app_assoc.
Qed.
Lemma comps_sep s t : comps (s +:+ String slash t) = comps s ++ comps t.
Proof. unfold comps. by rewrite split_on_sep, filter_app. Qed.
Lemma path_of_comps s : path_of s = foldl push_comp [] (comps s).
Proof. unfold path_of, path_join. by destruct (starts_with_slash s). Qed.
Lemma path_of_sep s t : file_name t -> path_of (s +:+ String slash t) = path_of s ++ [t].
Proof.
  intros Ht. rewrite !path_of_comps, comps_sep, foldl_app.
  rewrite (comps_clean t) by by apply file_name_clean.
  rewrite foldl_push by by apply file_name_clean. f_equal.
  by destruct Ht as (_ & _ & _ & ->).
Qed.

Lemma rsplit_once_spec a s l r : rsplit_once a s = Some (l, r) <->
  s = l +:+ String a r /\ split_on a r = [r].
Proof.
  revert l r. induction s as [|b s IH]; intros l r; cbn [rsplit_once].
  - split; [done|]. intros [H _]. symmetry in H. by apply sapp_eq_nil in H as [_ H].
  - destruct (rsplit_once a s) as [[l' r']|] eqn:E.
    + destruct (IH l' r') as [[H1 H2] _]; [done|]. split.
      * intros H. injection H as <- <-. by rewrite H1, sapp_cons.
      * intros [H3 H4]. destruct l as [|c l].
        { rewrite sapp_nil_l in H3. injection H3 as -> ->. exfalso.
          rewrite H1 in H4. rewrite split_on_sep in H4.
          apply (f_equal length) in H4. rewrite app_length in H4. cbn in H4.
          pose proof (split_on_nonempty a l'). pose proof (split_on_nonempty a r').
          destruct (split_on a l'), (split_on a r'); cbn in H4; try done; lia. }
        rewrite sapp_cons in H3. injection H3 as -> H3.
        assert (Some (l', r') = Some (l, r)) as E' by (apply IH; done).
        by injection E' as -> ->.
    + assert (Hno : forall l r, ~ (s = l +:+ String a r /\ split_on a r = [r])).
      { intros l0 r0 H. apply IH in H. done. }
      assert (Hs : split_on a s = [s]).
      { clear -E. induction s as [|c s IH]; [done|]. cbn [rsplit_once] in E.
        destruct (rsplit_once a s) as [[]|]; [done|]. cbn [split_on].
        destruct (Ascii.eqb c a); [done|]. by rewrite IH. }
      destruct (Ascii.eqb b a) eqn:Eb.
      * apply Ascii.eqb_eq in Eb as ->. split.
        { intros H. injection H as <- <-. done. }
        intros [H1 H2]. destruct l as [|c l].
        { rewrite sapp_nil_l in H1. by injection H1 as ->. }
        rewrite sapp_cons in H1. injection H1 as _ H1. exfalso. by apply (Hno l r).
      * apply Ascii.eqb_neq in Eb. split; [done|]. intros [H1 H2]. destruct l as [|c l].
        { rewrite sapp_nil_l in H1. by injection H1 as -> _. }
        rewrite sapp_cons in H1. injection H1 as _ H1. exfalso. by apply (Hno l r).
Qed.
