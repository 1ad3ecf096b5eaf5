(** * Looking at single paths through a run *)
From Coq Require Import ZifyN ZifyNat ZifyBool.
From Verif Require Export RunMaster.

(** the file or link at a path, if there is one *)
Definition view (g : fs) (p : path) : option node :=
  match g !! p with Some Dir => None | o => o end.
Lemma view_file g p b m : view g p = Some (File b m) <-> g !! p = Some (File b m).
Proof. unfold view. destruct (g !! p) as [[| |]|]; split; congruence. Qed.
Lemma view_link g p t : view g p = Some (Link t) <-> g !! p = Some (Link t).
Proof. unfold view. destruct (g !! p) as [[| |]|]; split; congruence. Qed.
Lemma view_eq f g p : g !! p = f !! p -> view g p = view f p.
Proof. unfold view. by intros ->. Qed.
Lemma view_mods S D f g p : mods S D f g -> ~ S p -> view g p = view f p.
Proof.
  intros H HS. unfold view. destruct (H p) as [->|[?|(_ & [-> | ->] & [-> | ->])]]; done.
Qed.
Lemma view_sub f g p : g ⊆ f -> view g p = None \/ view g p = view f p.
Proof.
  intros H. unfold view. destruct (g !! p) as [nd|] eqn:E; [|by left]. right.
  by rewrite (lookup_weaken g f p nd E H).
Qed.
Lemma published_view x c f g en : view g (public_path c en.1) = view f (public_path c en.1) ->
  published x c f en -> published x c g en.
Proof.
  intros E (b & m & H & Hh). exists b, m. split; [|done]. apply view_file. rewrite E. by apply view_file.
Qed.
Lemma str_pre_split t b : str_pre t b -> t = b \/ exists r, b = t +:+ r /\ r <> "".
Proof. intros [r <-]. destruct r as [|a r]; [left; by rewrite sapp_nil_r|]. right. by eexists. Qed.

(** reading the state of a tree with a plain state file *)
Lemma exists_plain (f g : fs) p : g !! p = f !! p -> (forall t, f !! p <> Some (Link t)) -> fs_exists g p = fs_exists f p.
Proof.
  intros E Hl. unfold fs_exists, fs_stat. destruct p as [|a p]; [done|]. cbn [fs_get]. rewrite E.
  destruct (f !! (a :: p)) as [[| |t]|]; try done. by destruct (Hl t).
Qed.
Lemma read_plain (f g : fs) p : g !! p = f !! p -> (forall t, f !! p <> Some (Link t)) -> op_read g p = op_read f p.
Proof.
  intros E Hl. unfold op_read, fs_stat. destruct p as [|a p]; [done|]. cbn [fs_get]. rewrite E.
  destruct (f !! (a :: p)) as [[| |t]|]; try done. by destruct (Hl t).
Qed.
Lemma starts_plain c base name f g st : g !! rrdp_state_path c = f !! rrdp_state_path c ->
  (forall t, f !! rrdp_state_path c <> Some (Link t)) -> starts_from c base name g st -> starts_from c base name f st.
Proof.
  intros E Hl. unfold starts_from, recorded. rewrite (exists_plain f g _ E Hl), (read_plain f g _ E Hl). done.
Qed.
Lemma state_path_ne c : rrdp_state_path c <> [].
Proof. rewrite rrdp_state_eq. by destruct (c_state_dir c). Qed.
Lemma read_file_at (f : fs) p b m : p <> [] -> f !! p = Some (File b m) -> op_read f p = Some b /\ fs_exists f p = true.
Proof.
  intros Hp E. unfold fs_exists, op_read, fs_stat. rewrite fs_get_nonroot by done. by rewrite E.
Qed.

Section view.
  Context (c : config) (base name : string) (Hc : cfg_ok c base name).
  Notation sp := (rrdp_state_path c).
  Notation yp := (rsync_state_path c).
  Notation N := (notif_path c name).
  Notation tmp := (notif_tmp c name).

  (** ** paths that a phase leaves alone *)
  Lemma stage_same f0 g p : stage_tree c f0 g -> ~ under (staging_dir c) p -> ~ below p (staging_dir c) -> g !! p = f0 !! p.
  Proof using. intros [[_ H] _] H1 H2. destruct (H p) as [?|[?|(?&_)]]; done. Qed.
  Lemma stage_view f0 g p : stage_tree c f0 g -> ~ under (staging_dir c) p -> view g p = view f0 p.
  Proof using.
    intros [[_ H] _] H1. destruct (H p) as [?|[?|(_ & E1 & E2)]]; [done|by apply view_eq|]. unfold view. by rewrite E1, E2.
  Qed.
  Lemma inside_same A f g p : inside A f g -> ~ A p -> ~ anc A p -> g !! p = f !! p.
  Proof using. intros [_ H] H1 H2. by apply (mods_same _ _ _ _ _ H). Qed.
  Lemma inside_view A f g p : inside A f g -> ~ A p -> view g p = view f p.
  Proof using. intros [_ H] H1. by apply (view_mods _ _ _ _ _ H). Qed.

  (** a path apart from a tree is not in it, nor above any of it *)
  Lemma apart_out d p : apart p d -> ~ under d p /\ forall q, under d q -> ~ below p q.
  Proof using.
    intros H. split; [intros Hu; by apply (apart_disjoint p d p H (under_refl p))|].
    intros q Hq Hb. apply below_under in Hb. by apply (apart_disjoint p d q H).
  Qed.

  Lemma rsync_same f g p : apart p (c_rsync_dir c) -> apart p yp -> inside (rsync_area c) f g -> g !! p = f !! p.
  Proof using.
    intros H1 H2 HI. destruct (apart_out _ _ H1) as [H3 H4]. apply (inside_same _ _ _ _ HI).
    - intros [?| ->]; [done|]. by apply apart_neq in H2.
    - intros (q & [Hq| ->] & Hb); [by apply (H4 q)|]. apply below_under in Hb. by destruct H2.
  Qed.
  Lemma move_same sg f g p : apart p (staging_dir c) -> (forall en, en ∈ staged_entries sg -> apart p (public_path c en.1)) ->
    inside (move_area c sg) f g -> g !! p = f !! p.
  Proof using.
    intros H1 H2 HI. destruct (apart_out _ _ H1) as [H3 H4]. apply (inside_same _ _ _ _ HI).
    - intros [?|(rel & h & Hin & Hu)]; [done|]. by apply (apart_out _ _ (H2 _ Hin)).
    - intros (q & [Hq|(rel & h & Hin & Hu)] & Hb); [by apply (H4 q)|].
      destruct (apart_out _ _ (H2 _ Hin)) as [_ H5]. by apply (H5 q).
  Qed.
  Lemma clean_same st cb f g p : (forall d, d ∈ st_deprecated st -> apart p (dp_path d)) ->
    cleaning st cb f g -> g !! p = f !! p.
  Proof using.
    intros H [_ _ Hm]. apply (mods_same _ _ _ _ _ Hm).
    - intros (d & Hd & _ & ->). by apply (apart_neq _ _ (H _ Hd)).
    - intros (q & (d & Hd & _ & ->) & Hb). apply below_under in Hb. by destruct (H _ Hd).
  Qed.
  Lemma notify_same doc f g p : apart p N -> apart p tmp -> notifying c name doc f g -> g !! p = f !! p.
  Proof using.
    intros H1 H2 [_ Hm _]. apply (mods_same _ _ _ _ _ Hm).
    - intros [->| ->]; [by apply apart_neq in H2|by apply apart_neq in H1].
    - intros Hb. apply below_under in Hb. by destruct H2.
  Qed.
  Lemma save_same txt f g p : apart p sp -> saving c txt f g -> g !! p = f !! p.
  Proof using.
    intros H [_ Hm _]. apply (mods_same _ _ _ _ _ Hm).
    - intros <-. by apply apart_neq in H.
    - intros Hb. apply below_under in Hb. by destruct H.
  Qed.

  Lemma apart_sub d d' p : apart p d -> under d d' -> apart p d'.
  Proof using.
    intros H [k ->]. apply apart_sym, apart_app, apart_sym, H.
  Qed.
  Lemma apart_sub_l d d' p : apart d p -> under d d' -> apart d' p.
  Proof using. intros H [k ->]. by apply apart_app. Qed.

  Context (e : env) (f0 : fs) (Hs : sane c base name e f0).

  (** ** a path that only the last step may touch *)
  Section quiet_path.
    Context (p : path) (Hp1 : apart p (staging_dir c)) (Hp2 : forall rel, good_rel name rel -> apart p (public_path c rel))
            (Hp3 : apart p (c_rsync_dir c)) (Hp4 : apart p yp).

    Lemma move_path st n0 n sg f1 g : at_move c base name e f0 st n0 n sg f1 -> inside (move_area c sg) f1 g ->
      g !! p = f0 !! p.
    Proof using Hs Hp1 Hp2.
      intros Ha HI. rewrite (move_same sg f1 g p); [|done| |done].
      - apply (stage_same f0); [apply Ha|by apply (apart_out _ _ Hp1)|]. intros Hb.
        destruct (apart_out _ _ Hp1) as [_ H]. by apply (H (staging_dir c) (under_refl _)).
      - intros en Hin. apply Hp2. by eapply staged_good.
    Qed.
    Lemma clean_path_ st n0 n sg f1 v st' f2 cb g :
      at_clean c base name e f0 st n0 n sg f1 v st' f2 -> cleaning st' cb f2 g -> g !! p = f0 !! p.
    Proof using Hs Hp1 Hp2.
      intros Ha HC. rewrite (clean_same st' cb f2 g p); [| |done].
      - eapply move_path; apply Ha.
      - intros d Hd. destruct (gs_deprecated _ _ _ _ (merged_good c base name e f0 Hs _ _ _ _ _ _ _ _ Ha) _ Hd)
          as (rel & Hr & ->). by apply Hp2.
    Qed.
    Lemma rsync_path st n0 n sg f1 v st' f2 cb st2 f3 g :
      at_rsync c base name e f0 st n0 n sg f1 v st' f2 cb st2 f3 -> inside (rsync_area c) f3 g -> g !! p = f0 !! p.
    Proof using Hs Hp1 Hp2 Hp3 Hp4.
      intros Ha HI. rewrite (rsync_same f3 g p) by done. eapply clean_path_; apply Ha.
    Qed.
    Lemma front_path g : front_phase c base name e f0 g -> g !! p = f0 !! p.
    Proof using Hs Hp1 Hp2 Hp3 Hp4.
      intros [H|st n0 n sg f1 H1 H2 _|st n0 n sg f1 v st' f2 cb H1 H2 H3|st n0 n sg f1 v st' f2 cb st2 f3 H1 H2].
      - apply (stage_same f0); [done|by apply (apart_out _ _ Hp1)|]. intros Hb.
        destruct (apart_out _ _ Hp1) as [_ H']. by apply (H' (staging_dir c) (under_refl _)).
      - by eapply move_path.
      - by eapply clean_path_.
      - by eapply rsync_path.
    Qed.
    Lemma notify_path st n0 n sg f1 v st' f2 cb st2 f3 f4 :
      at_notify c base name e f0 st n0 n sg f1 v st' f2 cb st2 f3 f4 -> f4 !! p = f0 !! p.
    Proof using Hs Hp1 Hp2 Hp3 Hp4. intros [H1 H2]. by eapply rsync_path. Qed.
  End quiet_path.

  Lemma sp_quiet : apart sp (staging_dir c) /\ (forall rel, apart sp (public_path c rel)) /\
    apart sp (c_rsync_dir c) /\ apart sp yp /\ apart sp N /\ apart sp tmp.
  Proof using Hc.
    assert (Hr : apart sp (c_rrdp_dir c)) by apply (ck_sp_r _ _ _ Hc).
    split; [apply apart_sym, apart_s_sp|]. split; [intros rel; eapply apart_sub; [exact Hr|apply under_app]|].
    split; [apply (ck_sp_y _ _ _ Hc)|]. split; [apply apart_sp_yp|].
    split; (eapply apart_sub; [exact Hr|apply under_app]).
  Qed.
  Lemma N_quiet : apart N (staging_dir c) /\ (forall rel, good_rel name rel -> apart N (public_path c rel)) /\
    apart N (c_rsync_dir c) /\ apart N yp /\ apart N sp.
  Proof using Hc.
    assert (HN : under (c_rrdp_dir c) N) by apply under_app.
    split; [eapply apart_sub_l; [apply apart_sym, (ck_s_r _ _ _ Hc)|done]|].
    split; [intros rel Hr; apply apart_sym; by apply (good_rel_apart c name rel)|].
    split; [eapply apart_sub_l; [apply (ck_r_y _ _ _ Hc)|done]|].
    split; (eapply apart_sub_l; [apply apart_sym|done]); [apply (ck_yp_r _ _ _ Hc)|apply (ck_sp_r _ _ _ Hc)].
  Qed.
  Lemma front_sp g : front_phase c base name e f0 g -> g !! sp = f0 !! sp.
  Proof using Hc Hs. destruct sp_quiet as (H1 & H2 & H3 & H4 & _). apply front_path; auto. Qed.
  Lemma front_N g : front_phase c base name e f0 g -> g !! N = f0 !! N.
  Proof using Hc Hs. destruct N_quiet as (H1 & H2 & H3 & H4 & _). apply front_path; auto. Qed.
  Lemma notify_sp st n0 n sg f1 v st' f2 cb st2 f3 f4 doc g :
    at_notify c base name e f0 st n0 n sg f1 v st' f2 cb st2 f3 f4 -> notifying c name doc f4 g -> g !! sp = f0 !! sp.
  Proof using Hc Hs.
    intros Ha Hn. destruct sp_quiet as (H1 & H2 & H3 & H4 & H5 & H6). rewrite (notify_same doc f4 g) by done.
    eapply notify_path; eauto.
  Qed.
  Lemma save_N txt f g : saving c txt f g -> g !! N = f !! N.
  Proof using Hc. intros H. destruct N_quiet as (_ & _ & _ & _ & H5). by eapply save_same. Qed.

  (** ** The state file *)
  Lemma good_clean st : good_state c base name st ->
    clean_path (mp_dir (st_map st)) /\ Forall (fun d => clean_path (dp_path d)) (st_deprecated st).
  Proof using Hc.
    intros Hg. split; [rewrite (gs_map _ _ _ _ Hg); apply (ck_rrdp _ _ _ Hc)|]. apply Forall_forall. intros d Hd.
    destruct (gs_deprecated _ _ _ _ Hg _ Hd) as (rel & (Hr & _) & ->). unfold public_path, clean_path.
    apply Forall_app. split; [apply (ck_rrdp _ _ _ Hc)|done].
  Qed.
  Lemma save_good st n0 n sg f1 v st' f2 cb st2 f3 f4 :
    at_notify c base name e f0 st n0 n sg f1 v st' f2 cb st2 f3 f4 -> good_state c base name st2.
  Proof using Hs. intros [[H1 _ H2 _ _] _]. eapply good_cleaned; [|exact H2]. by eapply merged_good. Qed.

  (** what a saved (or partly saved) state file is read as *)
  Lemma saved_state (f g : fs) st2 st : good_state c base name st2 ->
    f !! sp = f0 !! sp -> saving c (state_text st2) f g -> starts_from c base name g st ->
    starts_from c base name f0 st \/ exists v, st = set_validator st2 v.
  Proof using Hc Hs.
    intros Hg Ef [_ _ [E|(b & E & Hb)]] Hst.
    - left. eapply starts_plain; [by rewrite E|apply (sn_tree _ _ _ _ _ Hs)|done].
    - right. destruct (read_file_at g sp b None (state_path_ne c) E) as [Hr Hx].
      destruct Hst as [[_ (b' & Hb' & Hp)]|[Hf _]]; [|congruence].
      rewrite Hr in Hb'. injection Hb' as <-.
      destruct (str_pre_split _ _ Hb) as [->|(r & Er & Hne)].
      + destruct (good_clean _ Hg) as [H1 H2]. by eapply state_parse_core.
      + rewrite (state_prefix _ _ _ Er Hne) in Hp. done.
  Qed.
  Lemma start_plain g st : g !! sp = f0 !! sp -> starts_from c base name g st -> starts_from c base name f0 st.
  Proof using Hs. intros E. apply starts_plain; [done|apply (sn_tree _ _ _ _ _ Hs)]. Qed.
End view.

Section instants.
  Context (c : config) (base name : string) (e : env) (f0 : fs) (Hs : sane c base name e f0).
  Let Hc : cfg_ok c base name := sn_cfg _ _ _ _ _ Hs.
  Notation sp := (rrdp_state_path c).
  Notation N := (notif_path c name).
  Notation tmp := (notif_tmp c name).

  Lemma stage_wf g : stage_tree c f0 g -> wf g.
  Proof using. intros [[? _] _]. done. Qed.
  Lemma phase_wf g : phase c base name e f0 g -> wf g.
  Proof using.
    intros [H|st n0 n sg f1 v st' f2 cb st2 f3 f4 n' _ _ H|st n0 n sg f1 v st' f2 cb st2 f3 f4 n' f5 _ H].
    - destruct H as [H|st n0 n sg f1 H1 H2 _|st n0 n sg f1 v st' f2 cb H1 H2 H3|st n0 n sg f1 v st' f2 cb st2 f3 H1 H2].
      + by apply stage_wf.
      + apply H2.
      + apply H3.
      + apply H2.
    - apply H.
    - apply H.
  Qed.

  (** *** the state a later run would start from *)
  Lemma phase_state g st : phase c base name e f0 g -> starts_from c base name g st ->
    starts_from c base name f0 st \/
    exists st0 n0 n sg f1 v st' f2 cb st2 f3 f4 n' f5 v',
      at_save c base name e f0 st0 n0 n sg f1 v st' f2 cb st2 f3 f4 n' f5 /\
      saving c (state_text st2) f5 g /\ st = set_validator st2 v'.
  Proof using Hs.
    intros [H|st0 n0 n sg f1 v st' f2 cb st2 f3 f4 n' H1 _ H2|st0 n0 n sg f1 v st' f2 cb st2 f3 f4 n' f5 H1 H2] Hst.
    - left. eapply (start_plain c base name e f0 Hs); [|exact Hst]. by eapply front_sp.
    - left. eapply (start_plain c base name e f0 Hs); [|exact Hst]. by eapply notify_sp.
    - destruct (saved_state c base name Hc e f0 Hs f5 g st2 st) as [H|[v' H]]; try done.
      + eapply save_good; [exact Hs|apply H1].
      + eapply notify_sp; [done|exact Hs|apply H1|apply H1].
      + by left.
      + right. by do 15 eexists.
  Qed.

  Lemma phase_own g : phase c base name e f0 g -> own_tree c base name g.
  Proof using Hs.
    intros Hp. split; [by apply phase_wf|]. split.
    - assert (Hl : forall t, f0 !! sp <> Some (Link t)) by apply (sn_tree _ _ _ _ _ Hs).
      destruct Hp as [H|st0 n0 n sg f1 v st' f2 cb st2 f3 f4 n' H1 _ H2|st0 n0 n sg f1 v st' f2 cb st2 f3 f4 n' f5 H1 H2].
      + intros t. by rewrite (front_sp c base name Hc e f0 Hs g H).
      + intros t. by rewrite (notify_sp c base name Hc e f0 Hs _ _ _ _ _ _ _ _ _ _ _ _ _ g H1 H2).
      + intros t. destruct H2 as [_ _ [E|(b & E & _)]]; rewrite E; [|done]. destruct H1 as [H1 _ H2 _].
        by rewrite (notify_sp c base name Hc e f0 Hs _ _ _ _ _ _ _ _ _ _ _ _ _ f5 H1 H2).
    - intros st (b & Hb & Hst). destruct (phase_state g st Hp) as [H|(st0 & n0 & n & sg & f1 & v & st' & f2 & cb & st2 & f3 & f4 & n' & f5 & v' & H1 & _ & ->)].
      + left. split; [|by exists b]. unfold op_read in Hb. unfold fs_exists. by destruct (fs_stat g sp).
      + by eapply start_good.
      + apply good_set_validator. eapply save_good; [exact Hs|apply H1].
  Qed.

  (** *** the frame *)
  Lemma phase_frame g : phase c base name e f0 g -> inside (owned c) f0 g.
  Proof using Hs.
    intros Hp. split; [by apply phase_wf|].
    assert (Hst : forall g, stage_tree c f0 g -> mods (owned c) (anc (owned c)) f0 g).
    { intros g' [H%so_inside _]. destruct H as [_ H]. eapply mods_weaken; [| |exact H].
      - intros p Hu. by left.
      - intros p (q & Hq & Hb). left. exists q. split; [by left|done]. }
    assert (Hmv : forall st n0 n sg f1 g, at_move c base name e f0 st n0 n sg f1 -> inside (move_area c sg) f1 g ->
      mods (owned c) (anc (owned c)) f0 g).
    { intros st n0 n sg f1 g' H1 [_ H2]. eapply mods_trans; [apply Hst, H1|]. eapply mods_weaken; [| |exact H2].
      - intros p [Hu|(rel & h & _ & Hu)]; [by left|]. right. left. eapply under_trans; [apply public_under|exact Hu].
      - intros p (q & [Hu|(rel & h & _ & Hu)] & Hb); left; exists q; (split; [|done]); [by left|].
        right. left. eapply under_trans; [apply public_under|exact Hu]. }
    assert (Hcl : forall st n0 n sg f1 v st' f2 cb g, at_clean c base name e f0 st n0 n sg f1 v st' f2 ->
      cleaning st' cb f2 g -> mods (owned c) (anc (owned c)) f0 g).
    { intros st n0 n sg f1 v st' f2 cb g' H1 [_ _ H2]. eapply mods_trans; [eapply Hmv; apply H1|].
      pose proof (merged_good c base name e f0 Hs _ _ _ _ _ _ _ _ H1) as Hg.
      assert (Hx : forall p, expired st' cb p -> owned c p).
      { intros p (d & Hd & _ & ->). destruct (gs_deprecated _ _ _ _ Hg _ Hd) as (rel & _ & ->).
        right. left. apply public_under. }
      eapply mods_weaken; [| |exact H2]; [done|]. intros p (q & Hq & Hb). left. exists q. auto. }
    assert (Hry : forall st n0 n sg f1 v st' f2 cb st2 f3 g, at_rsync c base name e f0 st n0 n sg f1 v st' f2 cb st2 f3 ->
      inside (rsync_area c) f3 g -> mods (owned c) (anc (owned c)) f0 g).
    { intros st n0 n sg f1 v st' f2 cb st2 f3 g' H1 [_ H2]. eapply mods_trans; [eapply Hcl; apply H1|].
      assert (Hx : forall p, rsync_area c p -> owned c p) by (unfold rsync_area, owned; tauto).
      eapply mods_weaken; [| |exact H2]; [done|]. intros p (q & Hq & Hb). left. exists q. auto. }
    assert (Hno : forall st n0 n sg f1 v st' f2 cb st2 f3 f4 doc g,
      at_notify c base name e f0 st n0 n sg f1 v st' f2 cb st2 f3 f4 -> notifying c name doc f4 g ->
      mods (owned c) (anc (owned c)) f0 g).
    { intros st n0 n sg f1 v st' f2 cb st2 f3 f4 doc g' [H1 H1'] [_ H2 _]. eapply mods_trans; [eapply Hry; [exact H1|exact H1']|].
      eapply mods_weaken; [| |exact H2].
      - intros p [->| ->]; right; left; apply under_app.
      - intros p Hb. left. exists tmp. split; [right; left; apply under_app|done]. }
    destruct Hp as [[H|st n0 n sg f1 H1 H2 _|st n0 n sg f1 v st' f2 cb H1 H2 H3|st n0 n sg f1 v st' f2 cb st2 f3 H1 H2]
      |st n0 n sg f1 v st' f2 cb st2 f3 f4 n' H1 _ H2|st n0 n sg f1 v st' f2 cb st2 f3 f4 n' f5 H1 H2]; eauto.
    destruct H1 as [H1 _ H1' _]. eapply mods_trans; [eapply Hno; [exact H1|exact H1']|]. destruct H2 as [_ H2 _].
    eapply mods_weaken; [| |exact H2].
    - intros p <-. unfold owned. tauto.
    - intros p Hb. left. exists sp. split; [|done]. unfold owned. tauto.
  Qed.
End instants.
