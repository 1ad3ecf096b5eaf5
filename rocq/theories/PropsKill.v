(** * What a kill leaves behind (C16) *)
From Verif Require Import ReadBack PropsSource PropsHistory DemoRun Refuted.
From Verif Require Import FsWf.

(** no run gets anywhere on this tree, whatever its options and circumstances *)
Definition unusable (c : config) (g : fs) : Prop :=
  forall c' e', same_state_dir c c' -> (exists x, (run c' e' g).1 = Err x) /\ instants c' e' g = [g].
(** a run can begin: it finds out in which state the mirror is *)
Definition usable (c : config) (base name : string) (g : fs) : Prop := exists st, starts_from c base name g st.
(** both trees say the same about the state of the mirror *)
Definition same_record (c : config) (base name : string) (f g : fs) : Prop :=
  forall st, starts_from c base name g st <-> starts_from c base name f st.

Lemma torn_unusable c g : torn c g -> unusable c g.
Proof.
  intros (st & b & r & _ & E & Er & Hne) c' e' Hs. apply (C04_bad_state c' e' g b).
  - unfold rrdp_state_path. rewrite <- Hs. exact (proj1 (read_file_at _ _ _ _ (state_path_ne c) E)).
  - by eapply state_prefix.
Qed.
(** A tree with any history can be continued, or will never be usable again. *)
Theorem C16_history P c base name f : cfg_ok c base name -> mirror P c base name f ->
  usable c base name f \/ unusable c f.
Proof. intros Hc Hm. destruct (mirror_readable _ _ _ _ _ Hc Hm) as [H|H]; [by left|right; by apply torn_unusable]. Qed.

(** Wherever a run is killed: the record of the state is as before; or it is the
    new one, and the new notification is there; or the new notification is there
    and the record cannot be used. *)
Theorem C16_kill c base name e f g : setting c base name e f -> g ∈ instants c e f ->
  same_record c base name f g \/
  exists n, g !! notif_path c name = Some (File (x_write_notif (e_ext e) n) None) /\
    (shows c base name (e_ext e) g n \/ unusable c g).
Proof.
  intros Hset Hg. pose proof (setting_sane _ _ _ _ _ Hset) as Hs.
  pose proof (se_cfg _ _ _ _ _ Hset) as Hc. pose proof (se_mirror _ _ _ _ _ Hset) as Hm.
  assert (Hsame : g !! rrdp_state_path c = f !! rrdp_state_path c -> same_record c base name f g).
  { intros E st. assert (Hl : forall t, f !! rrdp_state_path c <> Some (Link t)) by by apply (mirror_own _ _ _ _ _ Hc Hm).
    split; intros H.
    - by apply (starts_plain c base name f g).
    - apply (starts_plain c base name g f); [by symmetry| |done]. intros t. rewrite E. apply Hl. }
  destruct (instant_phase c base name e f Hs g Hg)
    as [H|st0 n0 n sg f1 v st' f2 cb st2 f3 f4 n' H1 _ H2|st0 n0 n sg f1 v st' f2 cb st2 f3 f4 n' f5 H1 H2].
  - left. apply Hsame. by eapply front_sp.
  - left. apply Hsame. by eapply notify_sp.
  - destruct (sv_file _ _ _ _ H2) as [E|(b & E & Hb)].
    + left. apply Hsame. rewrite E. destruct H1 as [H1 Hn Ht Hf]. by eapply notify_sp.
    + right. exists n'. split; [rewrite (save_N c base name Hc _ _ _ H2); apply H1|].
      assert (Hcl : clean_state st2).
      { destruct H1 as [H1 Hn Ht Hf]. eapply good_clean_state; [done|by eapply save_good|]. eapply save_check; [exact H1|].
        eapply setting_check; [done|].
        apply (am_start _ _ _ _ _ _ _ _ _ _ (ac_move _ _ _ _ _ _ _ _ _ _ _ _ _ (ar_clean _ _ _ _ _ _ _ _ _ _ _ _ _ _ _ _ (an_rsync _ _ _ _ _ _ _ _ _ _ _ _ _ _ _ _ _ H1)))). }
      destruct (str_pre_split _ _ Hb) as [->|(r & Er & Hne)]; [left|right].
      * split; [rewrite (save_N c base name Hc _ _ _ H2); apply H1|]. exists (norm_state st2). split; [by apply text_starts|].
        destruct (as_notif _ _ _ _ _ _ _ _ _ _ _ _ _ _ _ _ _ _ _ H1) as (s & Es & ->). by exists s.
      * apply torn_unusable. by exists st2, b, r.
Qed.
(** a kill during the last write *)
Example C16_applies : setting demo_config base name (env3 1) (tree3 1) /\
  torn3 ∈ instants demo_config (env3 1) (tree3 1).
Proof. split; [apply setting3; lia|apply killed_instant]. Qed.
Print Assumptions C16_history.
Print Assumptions C16_kill.
