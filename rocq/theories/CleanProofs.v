(** * Cleaning leaves no directory newly empty *)
From Coq Require Import ZifyN ZifyNat ZifyBool.
From Verif Require Export Tracks HistoryProofs.

Definition inhabited (f : fs) (q : path) : Prop := exists r nd, f !! r = Some nd /\ below q r.
Lemma inhabited_spec f q : has_children f q = true <-> inhabited f q.
Proof.
  split.
  - intros H. unfold has_children in H. apply existsb_exists in H as ([r nd] & Hin & Hb).
    apply elem_of_list_In, elem_of_map_to_list in Hin. apply bool_decide_eq_true in Hb. by exists r, nd.
  - intros (r & nd & H1 & H2). apply not_false_iff_true. intros H. rewrite has_children_false in H. by apply (H r nd).
Qed.
(** no directory of [g] but perhaps [x] has lost all it contained in [f0] *)
Definition tidy (f0 g : fs) (x : option path) : Prop :=
  forall q, q <> [] -> x <> Some q -> g !! q = Some Dir -> inhabited f0 q -> inhabited g q.

Lemma tidy_delete f0 g (p : path) : wf g -> p <> [] -> is_Some (g !! p) ->
  tidy f0 g (Some p) -> tidy f0 (delete p g) (Some (removelast p)).
Proof.
  intros Hwf Hp [nd Hnd] Ht q Hq Hqp E Hi. apply lookup_delete_Some in E as [Hne E].
  destruct (Ht q Hq) as (r & nd' & Hr & Hb); [congruence|done|done|].
  destruct (decide (r = p)) as [->|Hrp].
  - exists (removelast p), Dir.
    assert (Hbp : below (removelast p) p) by (by apply removelast_below).
    assert (Hq' : below q (removelast p)).
    { destruct (path_snoc _ Hp) as (p' & a & ->). rewrite List.removelast_last in *.
      split; [|congruence]. apply below_snoc in Hb. done. }
    assert (Hpn : removelast p <> []).
    { intros E0. rewrite E0 in Hq'. destruct Hq' as [H1 H2]. by apply prefix_nil_inv in H1. }
    split; [|done]. rewrite lookup_delete_ne.
    + by eapply (wf_below g).
    + intros E0. rewrite <- E0 in Hbp at 1. by apply below_irrefl in Hbp.
  - exists r, nd'. by rewrite lookup_delete_ne.
Qed.

Definition no_rm_fault (e : env) : Prop := forall n, e_fault e n ORemoveFile = None /\ e_fault e n ORemoveDir = None.

Lemma push_one f w : w_fs (push_fs ([] ++ [f]) w) = f.
Proof. done. Qed.

Section tidy.
  Context (e : env) (f0 : fs) (Hnf : no_rm_fault e).

  Lemma w_remove_up rp w : wf (w_fs w) -> tidy f0 (w_fs w) (Some (reverse rp)) ->
    wpt e anyev (remove_up rp) w (fun _ w' => wf (w_fs w') /\ tidy f0 (w_fs w') None).
  Proof using Hnf.
    revert w. induction rp as [|a rp IH]; intros w Hwf Ht.
    - cbn [remove_up]. apply wpt_bind, wpt_is_file. cbn [fs_is_file fs_stat fs_get reverse rev_append].
      apply wpt_bind, wpt_bind, wpt_is_dir. cbn. apply wpt_fs_step.
      + intros _. split; [done|]. intros q Hq _. apply Ht; [done|]. intros E. by injection E as <-.
      + intros mids fin E. done.
    - cbn [remove_up]. set (p := reverse (a :: rp)) in *.
      assert (Hne : p <> []) by (unfold p; rewrite reverse_cons; by destruct (reverse rp)).
      assert (Hrl : removelast p = reverse rp) by (unfold p; by rewrite reverse_cons, List.removelast_last).
      assert (Hstep : forall w', w_fs w' = delete p (w_fs w) -> is_Some (w_fs w !! p) ->
                (forall nd r, w_fs w !! r = Some nd -> ~ below p r) ->
                wpt e anyev (_ ← catch (remove_up rp); mret tt) w' (fun _ w'' => wf (w_fs w'') /\ tidy f0 (w_fs w'') None)).
      { intros w' E Hs Hc. apply wpt_bind, wpt_catch. eapply wpt_post; [apply IH|].
        - rewrite E. apply wf_delete; [done|]. intros r nd Hr Er.
          destruct (decide (r = [])) as [->|]; [done|]. exfalso. apply (Hc _ _ Hr). rewrite <- Er. by apply removelast_below.
        - rewrite E, <- Hrl. by apply tidy_delete.
        - intros [[]|x|] w'' H; try done; by apply wpt_ret. }
      assert (Hkeep : w_fs w !! p <> Some Dir \/ inhabited (w_fs w) p -> tidy f0 (w_fs w) None).
      { intros H q Hq _ E Hi. destruct (decide (q = p)) as [->|Hqp]; [by destruct H|]. apply Ht; try done. congruence. }
      apply wpt_bind, wpt_is_file. destruct (fs_is_file (w_fs w) p) eqn:Hf.
      + apply wpt_bind. unfold f_remove_file.
        assert (Hnd : exists nd, w_fs w !! p = Some nd /\ nd <> Dir).
        { unfold fs_is_file, fs_stat in Hf. rewrite fs_get_nonroot in Hf by done.
          destruct (w_fs w !! p) as [[| |]|]; try done; by eexists. }
        destruct Hnd as (nd & Hnd & Hndd).
        apply wpt_fs_step.
        * intros _. split; [done|]. apply Hkeep. left. congruence.
        * intros mids fin E.
          assert (mids = [] /\ fin = delete p (w_fs w)) as [-> ->].
          { unfold op_remove_file in E. rewrite fs_get_nonroot, Hnd in E by done. destruct nd; try done; by injection E as <- <-. }
          split; [by repeat constructor|]. split.
          -- apply Hstep; [done|by eexists|]. intros nd' r Hr Hb.
             assert (w_fs w !! p = Some Dir) by (by eapply (wf_below (w_fs w))). congruence.
          -- intros j Hj. destruct (Hnf (w_n w)) as [H _]. congruence.
      + apply wpt_bind, wpt_bind, wpt_is_dir. destruct (fs_is_dir (w_fs w) p) eqn:Hd.
        * unfold f_remove_dir. destruct (op_remove_dir p (w_fs w)) as [[mids fin]|] eqn:E.
          -- assert (mids = [] /\ fin = delete p (w_fs w) /\ w_fs w !! p = Some Dir /\ has_children (w_fs w) p = false)
               as (-> & -> & Hdir & Hch).
             { unfold op_remove_dir in E. destruct p as [|b p']; [done|]. rewrite fs_get_nonroot in E by done.
               destruct (w_fs w !! (b :: p')) as [[| |]|]; try done. destruct (has_children _ _) eqn:Hc; [done|].
               by injection E as <- <-. }
             apply wpt_fs_step; [by rewrite E|]. intros mids fin E'. rewrite E in E'. injection E' as <- <-.
             split; [by repeat constructor|]. split.
             ++ apply Hstep; [done|by eexists|]. intros nd' r Hr. rewrite has_children_false in Hch. by eapply Hch.
             ++ intros j Hj. destruct (Hnf (w_n w)) as [_ H]. congruence.
          -- apply wpt_fs_step; [|by rewrite E]. intros _. split; [done|]. apply Hkeep.
             unfold op_remove_dir in E. destruct p as [|b p']; [done|]. rewrite fs_get_nonroot in E by done.
             destruct (w_fs w !! (b :: p')) as [[| |]|] eqn:El; try (by left). right.
             destruct (has_children (w_fs w) (b :: p')) eqn:Hc; [|done]. by apply inhabited_spec.
        * apply wpt_ret. apply wpt_bind, wpt_catch. eapply wpt_post; [apply IH|].
          -- done.
          -- intros q Hq _ E Hi. apply Hkeep; try done. left.
             unfold fs_is_dir, fs_stat in Hd. rewrite fs_get_nonroot in Hd by done. destruct (w_fs w !! p) as [[| |]|]; done.
          -- intros [[]|x|] w'' H; try done; by apply wpt_ret.
  Qed.

  Lemma w_clean_tidy c st w : wf (w_fs w) -> tidy f0 (w_fs w) None ->
    wpt e anyev (clean st c) w (fun _ w' => tidy f0 (w_fs w') None).
  Proof using Hnf.
    intros Hwf Ht. unfold clean. wp1. wp1; [done|]. wp1.
    apply (wpt_for_each _ _ _ _ _ (fun _ w' => wf (w_fs w') /\ tidy f0 (w_fs w') None)).
    - done.
    - intros d l w' [Hw1 Hw2]. wp1. wp1. apply wpt_when; intros Hx; [|done].
      eapply wpt_post; [apply w_remove_up; [done|]|].
      + intros q Hq _. by apply Hw2.
      + intros [[]|x|] w'' [? ?]; done.
    - intros w' [_ H]. wp1. done.
  Qed.
End tidy.
