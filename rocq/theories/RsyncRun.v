(** * The rsync tree during a run *)
From Coq Require Import ZifyN ZifyNat ZifyBool.
From Verif Require Export ReadBack.
From Verif Require Import FsWf.

Section run.
  Context (c : config) (base name : string) (e : env) (f : fs) (Hs : sane c base name e f).
  Let Hc : cfg_ok c base name := sn_cfg _ _ _ _ _ Hs.
  Notation yp := (rsync_state_path c).

  (** the paths only the rsync step touches *)
  Definition rsync_own (p : path) : Prop := under (c_rsync_dir c) p \/ p = yp.
  Lemma own_apart p : rsync_own p -> apart p (staging_dir c) /\ (forall rel, apart p (public_path c rel)) /\
    apart p (notif_path c name) /\ apart p (notif_tmp c name) /\ apart p (rrdp_state_path c).
  Proof using Hc.
    assert (H : forall d, apart d (c_rsync_dir c) -> apart yp d -> rsync_own p -> apart p d).
    { intros d H1 H2 [Hu| ->]; [|done]. eapply apart_sub_l; [by apply apart_sym|done]. }
    intros Hp. assert (HR : apart p (c_rrdp_dir c)).
    { apply H; [apply (ck_r_y _ _ _ Hc)|apply (ck_yp_r _ _ _ Hc)|done]. }
    split; [|split; [|split; [|split]]].
    - apply H; [apply (ck_s_y _ _ _ Hc)| |done]. rewrite rsync_state_eq, staging_eq. by apply apart_names.
    - intros rel. eapply apart_sub; [exact HR|apply under_app].
    - eapply apart_sub; [exact HR|apply under_app].
    - eapply apart_sub; [exact HR|apply under_app].
    - apply H; [apply (ck_sp_y _ _ _ Hc)| |done]. apply apart_sym, apart_sp_yp.
  Qed.

  Lemma own_before p st n0 n sg f1 v st' f2 cb st2 f3 : rsync_own p ->
    at_rsync c base name e f st n0 n sg f1 v st' f2 cb st2 f3 -> f3 !! p = f !! p.
  Proof using Hs.
    intros Hp Ha. destruct (own_apart p Hp) as (H1 & H2 & _).
    eapply (clean_path_ c base name e f Hs p H1); [|apply Ha|apply Ha]. auto.
  Qed.
  Lemma own_after p st n0 n sg f1 v st' f2 cb st2 f3 f4 doc g : rsync_own p ->
    at_notify c base name e f st n0 n sg f1 v st' f2 cb st2 f3 f4 -> notifying c name doc f4 g -> g !! p = f4 !! p.
  Proof using Hs.
    intros Hp Ha Hn. destruct (own_apart p Hp) as (_ & _ & H1 & H2 & _). by apply (notify_same c name doc f4 g p).
  Qed.
  Lemma own_save p txt f5 g : rsync_own p -> saving c txt f5 g -> g !! p = f5 !! p.
  Proof using Hs.
    intros Hp Hn. destruct (own_apart p Hp) as (_ & _ & _ & _ & H1). by apply (save_same c txt f5 g p).
  Qed.

  (** Every instant: the rsync tree is untouched, or as at a point of the rsync
      step. *)
  Lemma rsync_instant g : g ∈ instants c e f ->
    (forall p, rsync_own p -> g !! p = f !! p) \/
    exists st n0 n sg f1 v st' f2 cb st2 f3 g', at_rsync c base name e f st n0 n sg f1 v st' f2 cb st2 f3 /\
      rsync_enabled c = true /\ rsync_mid c e st2 f3 g' /\ (forall p, rsync_own p -> g !! p = g' !! p).
  Proof using Hs.
    intros Hg. apply (instant_phase c base name e f Hs) in Hg.
    assert (HF : forall g, front_phase c base name e f g -> (forall p, rsync_own p -> g !! p = f !! p) \/
      exists st n0 n sg f1 v st' f2 cb st2 f3, at_rsync c base name e f st n0 n sg f1 v st' f2 cb st2 f3 /\
      rsync_enabled c = true /\ rsync_mid c e st2 f3 g).
    { clear g Hg. intros g [H|st n0 n sg f1 H1 H2 _|st n0 n sg f1 v st' f2 cb H1 H2 H3|st n0 n sg f1 v st' f2 cb st2 f3 H1 H2 H3].
      - left. intros p Hp. destruct (own_apart p Hp) as (Hp1 & _). apply (stage_same c f g p H); [by apply (apart_out _ _ Hp1)|].
        intros Hb. destruct (apart_out _ _ Hp1) as [_ H']. by apply (H' (staging_dir c) (under_refl _)).
      - left. intros p Hp. destruct (own_apart p Hp) as (Hp1 & Hp2 & _). eapply (move_path c base name e f Hs p Hp1); [|done|done]. auto.
      - left. intros p Hp. destruct (own_apart p Hp) as (Hp1 & Hp2 & _). eapply (clean_path_ c base name e f Hs p Hp1); [|done|done]. auto.
      - destruct H3 as [->|[H3 H4]].
        + left. intros p Hp. by eapply own_before.
        + right. by exists st, n0, n, sg, f1, v, st', f2, cb, st2, f3. }
    assert (HN : forall g g' : fs, (forall p, rsync_own p -> g' !! p = g !! p) -> front_phase c base name e f g ->
       (forall p, rsync_own p -> g' !! p = f !! p) \/
       exists st n0 n sg f1 v st' f2 cb st2 f3 g2, at_rsync c base name e f st n0 n sg f1 v st' f2 cb st2 f3 /\
      rsync_enabled c = true /\ rsync_mid c e st2 f3 g2 /\ (forall p, rsync_own p -> g' !! p = g2 !! p)).
    { intros g1 g2 He H. destruct (HF _ H) as [H'|(st & n0 & n & sg & f1 & v & st' & f2 & cb & st2 & f3 & H1 & H2 & H3)].
      - left. intros p Hp. rewrite He by done. by apply H'.
      - right. by exists st, n0, n, sg, f1, v, st', f2, cb, st2, f3, g1. }
    destruct Hg as [H|st0 n0 n sg f1 v st' f2 cb st2 f3 f4 n' H1 _ H2|st0 n0 n sg f1 v st' f2 cb st2 f3 f4 n' f5 H1 H2].
    - by eapply (HN g).
    - eapply (HN f4); [|by eapply notify_front]. intros p Hp. by eapply own_after.
    - destruct H1 as [H1 Hn Ht Hf]. eapply (HN f4); [|by eapply notify_front]. intros p Hp.
      rewrite (own_save p _ _ _ Hp H2). by eapply own_after.
  Qed.

  (** After a completed run: nothing changed, or a completed rsync step. *)
  Lemma rsync_completed w : run c e f = (Ok tt, w) -> rsync_enabled c = true ->
    w_fs w = f \/
    exists st n0 n sg f1 v st' f2 cb st2 f3 snap rs g1 b els g2 g3 rs1 cy g4 f4 n' f5,
      at_save c base name e f st n0 n sg f1 v st' f2 cb st2 f3 f4 n' f5 /\ saving c (state_text st2) f5 (w_fs w) /\
      rsync_done c e st2 f3 snap rs g1 b els g2 g3 rs1 cy g4 f4 /\
      (forall p, rsync_own p -> w_fs w !! p = f4 !! p) /\ (forall p, rsync_own p -> f3 !! p = f !! p).
  Proof using Hs.
    intros E Hr. destruct (ok_run c base name e f Hs w E) as [[H _]|(st & n0 & n & sg & f1 & v & st' & f2 & cb & st2 & f3 & f4 & n' & f5 & H1 & H2 & _)].
    - by left.
    - right. pose proof (as_notify _ _ _ _ _ _ _ _ _ _ _ _ _ _ _ _ _ _ _ H1) as Hn.
      destruct (an_step _ _ _ _ _ _ _ _ _ _ _ _ _ _ _ _ _ Hn Hr) as (snap & rs & g1 & b & els & g2 & g3 & rs1 & cy & g4 & Hd).
      exists st, n0, n, sg, f1, v, st', f2, cb, st2, f3, snap, rs, g1, b, els, g2, g3, rs1, cy, g4, f4, n', f5.
      split; [done|]. split; [done|]. split; [done|]. split.
      + intros p Hp. rewrite (own_save p _ _ _ Hp H2). eapply own_after; [done|exact Hn|apply H1].
      + intros p Hp. eapply own_before; [done|apply Hn].
  Qed.
End run.

(** ** Paths of the rsync tree *)
Lemma rev_dir_name r : dir_name r <> "current" /\ dir_name r <> "current.tmp".
Proof. split; unfold dir_name; intros E; cbn in E; discriminate. Qed.
Lemma revs_apart c r r' : r <> r' -> apart (rev_path c r) (rev_path c r').
Proof. intros H. rewrite !rev_path_eq. apply apart_names. intros E. by apply H, dir_name_inj. Qed.
Lemma rev_current_apart c r : apart (rev_path c r) (rsync_current c).
Proof. rewrite rev_path_eq, rsync_current_eq. apply apart_names. apply rev_dir_name. Qed.
Lemma rev_tmp_apart c r : apart (rev_path c r) (link_tmp c).
Proof. rewrite rev_path_eq, link_tmp_eq. apply apart_names. apply rev_dir_name. Qed.
