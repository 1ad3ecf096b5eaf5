(** * Saved states can be read back *)
From Verif Require Export RunDone.
From Verif Require Import FsWf.

Lemma clean_check_norm v : clean_check v -> clean_check (norm_validator <$> v).
Proof. by destruct v. Qed.
Lemma save_check c base name e f st n0 n sg f1 v st' f2 cb st2 f3 f4 :
  at_notify c base name e f st n0 n sg f1 v st' f2 cb st2 f3 f4 ->
  clean_check (st_validator st) -> clean_check (st_validator st2).
Proof.
  intros [[A1 _ A3 _ _] _] H. rewrite A3. cbn.
  rewrite (mg_validator _ _ _ _ (ac_merged _ _ _ _ _ _ _ _ _ _ _ _ _ A1)). cbn.
  by apply (proj1 (ac_check _ _ _ _ _ _ _ _ _ _ _ _ _ A1)).
Qed.
Lemma save_usual c base name e f st n0 n sg f1 v st' f2 cb st2 f3 f4 :
  at_notify c base name e f st n0 n sg f1 v st' f2 cb st2 f3 f4 ->
  usual_check c (st_validator st) -> usual_check c (st_validator st2).
Proof.
  intros [[A1 _ A3 _ _] _] H. rewrite A3. cbn.
  rewrite (mg_validator _ _ _ _ (ac_merged _ _ _ _ _ _ _ _ _ _ _ _ _ A1)). cbn.
  by apply (proj2 (ac_check _ _ _ _ _ _ _ _ _ _ _ _ _ A1)).
Qed.
Lemma usual_norm c v : usual_check c v -> usual_check c (norm_validator <$> v).
Proof. by destruct v. Qed.
Lemma good_clean_state c base name st : cfg_ok c base name -> good_state c base name st ->
  clean_check (st_validator st) -> clean_state st.
Proof. intros Hc Hg Hv. destruct (good_clean c base name Hc st Hg) as [H1 H2]. by split. Qed.

Section run.
  Context (c : config) (base name : string) (e : env) (f : fs) (Hs : sane c base name e f).
  Let Hc : cfg_ok c base name := sn_cfg _ _ _ _ _ Hs.
  Notation sp := (rrdp_state_path c).

  (** The state file at an instant of a run: as before, or the beginning of
      (or all of) the text of a new state that reads back. *)
  Definition state_file_at (g : fs) : Prop :=
    g !! sp = f !! sp \/
    exists st b, good_state c base name st /\ clean_state st /\ g !! sp = Some (File b None) /\ str_pre b (state_text st).
  Lemma instant_state_file g :
    (forall st, starts_from c base name f st -> clean_check (st_validator st)) -> g ∈ instants c e f -> state_file_at g.
  Proof using Hs.
    intros Hcl Hg. apply (instant_phase c base name e f Hs) in Hg.
    destruct Hg as [H|st0 n0 n sg f1 v st' f2 cb st2 f3 f4 n' H1 _ H2|st0 n0 n sg f1 v st' f2 cb st2 f3 f4 n' f5 H1 H2].
    - left. by eapply front_sp.
    - left. by eapply notify_sp.
    - destruct H1 as [H1 Hn Ht Hf]. destruct (sv_file _ _ _ _ H2) as [E|(b & E & Hb)].
      + left. rewrite E. by eapply notify_sp.
      + right. exists st2, b. pose proof (save_good c base name e f Hs _ _ _ _ _ _ _ _ _ _ _ _ H1) as Hg2.
        split; [done|]. split; [|done]. eapply good_clean_state; [done..|]. eapply save_check; [exact H1|]. apply Hcl.
        apply (am_start _ _ _ _ _ _ _ _ _ _ (ac_move _ _ _ _ _ _ _ _ _ _ _ _ _ (ar_clean _ _ _ _ _ _ _ _ _ _ _ _ _ _ _ _ (an_rsync _ _ _ _ _ _ _ _ _ _ _ _ _ _ _ _ _ H1)))).
  Qed.
  Lemma done_state_file w :
    (forall st, starts_from c base name f st -> clean_check (st_validator st)) -> run c e f = (Ok tt, w) ->
    w_fs w = f \/ exists st, good_state c base name st /\ clean_state st /\ w_fs w !! sp = Some (File (state_text st) None).
  Proof using Hs.
    intros Hcl E. destruct (run_story c base name e f Hs _ w E)
      as [[_ H]|(st & n0 & n & sg & f1 & v & st' & f2 & cb & st2 & f3 & f4 & n' & H1 & H2 & _ & H)].
    - left. by apply H.
    - right. destruct (H eq_refl) as (f5 & H3 & H4 & H5). exists st2.
      pose proof (save_good c base name e f Hs _ _ _ _ _ _ _ _ _ _ _ _ H1) as Hg. split; [done|]. split; [|done].
      eapply good_clean_state; [done..|]. eapply save_check; [exact H1|]. apply Hcl.
      apply (am_start _ _ _ _ _ _ _ _ _ _ (ac_move _ _ _ _ _ _ _ _ _ _ _ _ _ (ar_clean _ _ _ _ _ _ _ _ _ _ _ _ _ _ _ _ (an_rsync _ _ _ _ _ _ _ _ _ _ _ _ _ _ _ _ _ H1)))).
  Qed.
End run.

Lemma text_starts c base name g st : clean_state st -> g !! rrdp_state_path c = Some (File (state_text st) None) ->
  starts_from c base name g (norm_state st).
Proof.
  intros Hst E. destruct (read_file_at _ _ _ _ (state_path_ne c) E) as [Hr Hx]. left. split; [done|].
  exists (state_text st). split; [done|]. by apply state_roundtrip.
Qed.
Lemma prefix_starts c base name g st b st' : clean_state st -> g !! rrdp_state_path c = Some (File b None) ->
  str_pre b (state_text st) -> starts_from c base name g st' -> b = state_text st /\ st' = norm_state st.
Proof.
  intros Hst E Hb [[_ (b' & Hr' & Hp)]|[Hx _]].
  - destruct (read_file_at _ _ _ _ (state_path_ne c) E) as [Hr _]. rewrite Hr in Hr'. injection Hr' as <-.
    destruct (str_pre_split _ _ Hb) as [->|(r & Er & Hne)].
    + rewrite state_roundtrip in Hp by done. by injection Hp as <-.
    + by rewrite (state_prefix _ _ _ Er Hne) in Hp.
  - destruct (read_file_at _ _ _ _ (state_path_ne c) E) as [_ Hex]. congruence.
Qed.

(** every recorded state of a history has a well-formed validator *)
Lemma mirror_check P c base name f st : cfg_ok c base name -> mirror P c base name f ->
  starts_from c base name f st -> clean_check (st_validator st).
Proof.
  intros Hc Hm. revert st. induction Hm as [f Hwf E|f c' e g Hm IH Hsp Hw HP Hg|f g Hm IH Hwf Ho]; intros st Hst.
  - destruct Hst as [[Hex _]|[_ ->]]; [|done].
    unfold fs_exists, fs_stat in Hex. rewrite fs_get_nonroot in Hex by apply state_path_ne. by rewrite E in Hex.
  - pose proof (mirror_sane _ _ _ _ _ _ _ Hc Hm Hsp Hw) as Hs.
    assert (Hcl : forall st, starts_from c' base name f st -> clean_check (st_validator st)).
    { intros st' Hst'. apply IH. by apply (places_starts c c' base name Hsp). }
    apply (places_starts c c' base name Hsp) in Hst.
    destruct (instant_state_file c' base name e f Hs g Hcl Hg) as [E|(st2 & b & _ & Hc2 & E & Hb)].
    + apply Hcl. by eapply start_plain.
    + destruct (prefix_starts c' base name g st2 b st Hc2 E Hb Hst) as [_ ->]. cbn. apply clean_check_norm. apply Hc2.
  - apply IH. eapply starts_plain; [|by apply (mirror_own _ _ _ _ _ Hc Hm)|exact Hst]. apply Ho. apply owned_sp.
Qed.
Lemma setting_check c base name e f st : setting c base name e f -> starts_from c base name f st ->
  clean_check (st_validator st).
Proof. intros [Hc Hm _]. by eapply mirror_check. Qed.

(** The state file at any time in a history: one that can be read, or no file,
    or a strict prefix of one that could be read. *)
Definition torn (c : config) (f : fs) : Prop :=
  exists st b r, clean_state st /\ f !! rrdp_state_path c = Some (File b None) /\ state_text st = b +:+ r /\ r <> "".
Lemma mirror_readable P c base name f : cfg_ok c base name -> mirror P c base name f ->
  (exists st, starts_from c base name f st) \/ torn c f.
Proof.
  intros Hc Hm. induction Hm as [f Hwf E|f c' e g Hm IH Hsp Hw HP Hg|f g Hm IH Hwf Ho].
  - left. exists (first_state c base name). right. split; [|done].
    unfold fs_exists, fs_stat. rewrite fs_get_nonroot by apply state_path_ne. by rewrite E.
  - pose proof (mirror_sane _ _ _ _ _ _ _ Hc Hm Hsp Hw) as Hs.
    destruct (instant_state_file c' base name e f Hs g) as [E|(st2 & b & _ & Hc2 & E & Hb)]; [|done| |].
    + intros st' Hst'. eapply (mirror_check P c base name f st' Hc Hm). by apply (places_starts c c' base name Hsp).
    + rewrite (places_sp c c' Hsp) in E. destruct IH as [[st Hst]|(st & b & r & H1 & H2 & H3)].
      * left. exists st. eapply starts_plain; [by symmetry| |exact Hst].
        intros t. rewrite E. by apply (mirror_own _ _ _ _ _ Hc Hm).
      * right. exists st, b, r. by rewrite E.
    + rewrite (places_sp c c' Hsp) in E. destruct (str_pre_split _ _ Hb) as [->|(r & Er & Hne)].
      * left. exists (norm_state st2). by apply text_starts.
      * right. by exists st2, b, r.
  - pose proof (Ho _ (owned_sp c)) as E. destruct IH as [[st Hst]|(st & b & r & H1 & H2 & H3)].
    + left. exists st. eapply starts_plain; [by symmetry| |exact Hst].
      intros t. rewrite E. by apply (mirror_own _ _ _ _ _ Hc Hm).
    + right. exists st, b, r. by rewrite E.
Qed.

(** every recorded validator of a history is one that krill-sync sets up for
    this configuration *)
Lemma mirror_usual P c base name f st : cfg_ok c base name -> mirror P c base name f ->
  starts_from c base name f st -> usual_check c (st_validator st).
Proof.
  intros Hc Hm. revert st. induction Hm as [f Hwf E|f c' e g Hm IH Hsp Hw HP Hg|f g Hm IH Hwf Ho]; intros st Hst.
  - destruct Hst as [[Hex _]|[_ ->]]; [|done].
    unfold fs_exists, fs_stat in Hex. rewrite fs_get_nonroot in Hex by apply state_path_ne. by rewrite E in Hex.
  - pose proof (mirror_sane _ _ _ _ _ _ _ Hc Hm Hsp Hw) as Hs.
    assert (Hcl : forall st, starts_from c' base name f st -> clean_check (st_validator st)).
    { intros st' Hst'. eapply (mirror_check P c base name f st' Hc Hm). by apply (places_starts c c' base name Hsp). }
    assert (Hus : forall st, starts_from c' base name f st -> usual_check c' (st_validator st)).
    { intros st' Hst'. apply (places_starts c c' base name Hsp) in Hst'. apply IH in Hst'.
      destruct Hsp as (E1 & E2 & _). unfold usual_check, usual_validator, staging_dir in *. by rewrite E1, E2. }
    apply (places_starts c c' base name Hsp) in Hst.
    assert (Hst' : usual_check c' (st_validator st)).
    { apply (instant_phase c' base name e f Hs) in Hg.
      destruct Hg as [H|st0 n0 n sg f1 v st' f2 cb st2 f3 f4 n' H1 _ H2|st0 n0 n sg f1 v st' f2 cb st2 f3 f4 n' f5 H1 H2].
      - apply Hus. eapply (start_plain c' base name e f Hs g); [|exact Hst]. eapply (front_sp c' base name (sn_cfg _ _ _ _ _ Hs) e f Hs); exact H.
      - apply Hus. eapply (start_plain c' base name e f Hs g); [|exact Hst]. eapply (notify_sp c' base name (sn_cfg _ _ _ _ _ Hs) e f Hs); eassumption.
      - destruct H1 as [H1 Hn Ht Hf]. destruct (sv_file _ _ _ _ H2) as [E|(b & E & Hb)].
        + apply Hus. eapply (start_plain c' base name e f Hs g); [|exact Hst]. rewrite E. eapply (notify_sp c' base name (sn_cfg _ _ _ _ _ Hs) e f Hs); eassumption.
        + assert (Hst0 : starts_from c' base name f st0).
          { apply (am_start _ _ _ _ _ _ _ _ _ _ (ac_move _ _ _ _ _ _ _ _ _ _ _ _ _ (ar_clean _ _ _ _ _ _ _ _ _ _ _ _ _ _ _ _ (an_rsync _ _ _ _ _ _ _ _ _ _ _ _ _ _ _ _ _ H1)))). }
          assert (Hc2 : clean_state st2).
          { eapply good_clean_state; [by apply Hs|by eapply (save_good c' base name e f Hs)|]. eapply save_check; [exact H1|]. by apply Hcl. }
          destruct (prefix_starts c' base name g st2 b st Hc2 E Hb Hst) as [_ ->]. cbn. apply usual_norm.
          eapply save_usual; [exact H1|]. by apply Hus. }
    destruct Hsp as (E1 & E2 & _). unfold usual_check, usual_validator, staging_dir in *. by rewrite E1, E2 in Hst'.
  - apply IH. eapply starts_plain; [|by apply (mirror_own _ _ _ _ _ Hc Hm)|exact Hst]. apply Ho. apply owned_sp.
Qed.
Lemma setting_usual c base name e f st : setting c base name e f -> starts_from c base name f st ->
  usual_check c (st_validator st).
Proof. intros [Hc Hm _]. by eapply mirror_usual. Qed.
