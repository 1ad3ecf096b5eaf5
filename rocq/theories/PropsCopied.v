(** * Copies instead of renames: when C01 still holds *)
From Verif Require Import CodecProofs JsonProofs PropsHistory PropsServed PropsRun DemoRun Refuted.
From Verif Require Import HistoryProofs FsWf.

(** After a completed run that changed anything, the served notification lists
    only files of the recorded state, provided that no two notifications have the
    same text. *)
Theorem C01_settled c base name e f w :
  setting c base name e f -> (forall n n', x_write_notif (e_ext e) n = x_write_notif (e_ext e) n' -> n = n') ->
  run c e f = (Ok tt, w) -> w_fs w <> f -> settled c base name (e_ext e) (w_fs w).
Proof.
  intros Hs Hinj Hr Hch. destruct (C06_shows c base name e f w Hs Hr Hch) as (n0 & E0 & st & Hst & Hn).
  intros n E. exists st. split; [done|]. rewrite E0 in E. injection E as E%Hinj. subst n.
  intros u h Hin. rewrite (refs_of base st n0 Hn) in Hin. apply elem_of_list_fmap in Hin as ([rel h'] & [= -> ->] & Hin).
  by exists rel.
Qed.
Local Arguments j_uuid : simpl never.
Local Arguments as_uuid : simpl never.
Local Arguments j_N : simpl never.
Local Arguments as_N : simpl never.
Local Arguments j_list : simpl never.
Local Arguments as_list : simpl never.
Lemma demo_write_inj n n' : x_write_notif safe_ext n = x_write_notif safe_ext n' -> n = n'.
Proof.
  assert (H : forall m, doc Demo.as_notif (x_write_notif safe_ext m) = Some m).
  { intros m. change (x_write_notif safe_ext m) with (json_text (j_notif m)). unfold doc. rewrite json_roundtrip. cbn [mbind option_bind].
    unfold Demo.as_notif, j_notif. cbn [as_obj mbind option_bind]. unfold field. cbn. rewrite as_uuid_j, as_N_j. cbn.
    assert (as_list as_di (j_list j_di (n_deltas m)) = Some (id <$> n_deltas m)) as ->.
    { apply as_list_j. intros [s u h] _. unfold as_di, j_di. cbn. by rewrite as_N_j. }
    rewrite list_fmap_id. by destruct m. }
  intros E. pose proof (H n) as H1. rewrite E, H in H1. by injection H1.
Qed.

(** Renaming fails in the first [k] steps (the staging directory is on another
    file system), and works after that (for the notification). *)
Definition copy_env (i k : nat) : env :=
  with_fault (env3 i) (fun n op => match op with ORename => if (n <? k)%nat then Some 0 else None | _ => None end).
Lemma copy_patient i k : i <= 2 -> patient demo_config (copy_env i k).
Proof. intros Hi a b. cbn. lia. Qed.
Lemma copy_follows i k f g : i <= 2 ->
  follows demo_config base name safe_ext src3 (pred i) f \/ follows demo_config base name safe_ext src3 i f ->
  settled demo_config base name safe_ext f -> g ∈ instants demo_config (copy_env i k) f ->
  follows demo_config base name safe_ext src3 i g.
Proof.
  intros Hi Hf Hset Hg. assert (Hf' : exists j, j <= i /\ follows demo_config base name safe_ext src3 j f).
  { destruct Hf as [Hf|Hf]; [exists (pred i); split; [lia|done]|by exists i]. }
  destruct Hf' as (j & Hj & Hf').
  eapply (fo_run _ _ _ _ _ j i _ demo_config (copy_env i k)); [exact Hf'|done|done|done| | | | | |done].
  - exact (serve_no_304 (docs3 i) 0).
  - by intros _.
  - by apply copy_patient.
  - done.
  - intros n Ho. change (offers demo_config (env3 i) f n) in Ho. apply env3_offers in Ho as ->; [|done]. by exists i.
Qed.
Lemma settled3 i : 1 <= i -> i <= 2 -> settled demo_config base name safe_ext (tree3 i).
Proof.
  intros H1 H2. destruct (ran_changed3 (pred i)) as (w & Hr & Hch); [lia|].
  pose proof (C01_settled demo_config base name (env3 (pred i)) (tree3 (pred i)) w (setting3 (pred i) ltac:(lia)) demo_write_inj Hr Hch) as H.
  destruct i as [|i]; [lia|]. cbn [pred] in *. cbn [tree3]. unfold after. by rewrite Hr.
Qed.
(** there is a strict beginning of [t] at this path *)
Definition partly (g : fs) (rel t : string) : bool :=
  match g !! public_path demo_config rel with
  | Some (File b _) => match strip_prefix b t with Some (String _ _) => true | _ => false end
  | _ => false
  end.
Lemma partly_ok g rel t : partly g rel t = true -> exists b m rest,
  g !! public_path demo_config rel = Some (File b m) /\ rest <> "" /\ b +:+ rest = t.
Proof.
  unfold partly. destruct (g !! public_path demo_config rel) as [[b m| |]|]; [|done..].
  destruct (strip_prefix b t) as [[|a r]|] eqn:E; [done| |done]. intros _. apply strip_prefix_spec in E. exists b, m, (String a r). done.
Qed.
Lemma ok_b_ok c e f : ok_b (run c e f) = true -> exists w, run c e f = (Ok tt, w).
Proof. unfold ok_b. destruct (run c e f) as [[[]| |] w]; [by exists w|done|done]. Qed.
Definition copied_check : bool :=
  ok_b (run demo_config (copy_env 2 30) (tree3 2)) &&
  partly (killed_when demo_config (copy_env 2 30) (tree3 2) (fun g => partly g (snap_rel uuid_B 1) (snap_doc uuid_B 1)))
    (snap_rel uuid_B 1) (snap_doc uuid_B 1).
(** The third run with copies: it completes, and at every instant of it C01 holds. *)
Example C01_copied : may_copy (copy_env 2 30) /\ settled demo_config base name safe_ext (tree3 2) /\
  (exists w, run demo_config (copy_env 2 30) (tree3 2) = (Ok tt, w)) /\
  (forall g, g ∈ instants demo_config (copy_env 2 30) (tree3 2) -> follows demo_config base name safe_ext src3 2 g) /\
  exists g b m rest, g ∈ instants demo_config (copy_env 2 30) (tree3 2) /\
    g !! public_path demo_config (snap_rel uuid_B 1) = Some (File b m) /\ rest <> "" /\ b +:+ rest = snap_doc uuid_B 1.
Proof.
  split; [exists 0; discriminate|]. split; [apply settled3; lia|].
  assert (H : copied_check = true) by vme. apply andb_true_iff in H as [H1 H2].
  split; [exact (ok_b_ok _ _ _ H1)|]. split.
  - intros g Hg. exact (copy_follows 2 30 (tree3 2) g (le_n 2) (or_introl (follows3 2 (le_S _ _ (le_n 2)))) (settled3 2 (le_S _ _ (le_n 1)) (le_n 2)) Hg).
  - destruct (partly_ok _ _ _ H2) as (b & m & rest & E).
    exists (killed_when demo_config (copy_env 2 30) (tree3 2) (fun g => partly g (snap_rel uuid_B 1) (snap_doc uuid_B 1))), b, m, rest.
    exact (conj (killed_instant _ _ _ _) E).
Qed.
(** So do the hypotheses of C03_copied *)
Example C03_copied_applies : setting demo_config base name (copy_env 2 30) (tree3 2) /\ honest_run demo_config (copy_env 2 30) (tree3 2).
Proof.
  destruct (setting3 2 (le_n 2)) as [H1 H2 [H3 H4]]. destruct (serve_honest 2 (le_n 2)) as (S1 & S2 & S3).
  split; [split; [exact H1|exact H2|split; [exact H3|exact H4]]|]. split; [exact S1|]. split; [exact S2|exact S3].
Qed.

(** Without that the claim is false.  The run before was killed after it
    published the notification and before it saved the state.  Now the files of
    that notification are fetched again, and copying overwrites them. *)
Definition n5 : notification :=
  mkNotif uuid_A 5 (base +:+ snap_rel uuid_A 5) (demo_hash (snap_doc uuid_A 5))
    ((fun i => mkDI i (base +:+ delta_rel uuid_A i) (demo_hash (delta_doc uuid_A i))) <$> [5; 4; 3]%N).
Definition dangling (g : fs) : bool :=
  match g !! notif_path demo_config name with Some (File b None) => String.eqb b (x_write_notif safe_ext n5) | _ => false end &&
  match g !! public_path demo_config (snap_rel uuid_A 5) with
  | Some (File b _) => negb (String.eqb (demo_hash b) (n_snap_hash n5)) | _ => false end.
Lemma dangling_ok g : dangling g = true ->
  g !! notif_path demo_config name = Some (File (x_write_notif safe_ext n5) None) /\
  exists b m, g !! public_path demo_config (snap_rel uuid_A 5) = Some (File b m) /\ x_hash safe_ext b <> n_snap_hash n5.
Proof.
  intros [H1 H2]%andb_true_iff. split.
  - destruct (g !! notif_path demo_config name) as [[b [|]| |]|]; try done. by apply String.eqb_eq in H1 as ->.
  - destruct (g !! public_path demo_config (snap_rel uuid_A 5)) as [[b m| |]|]; try done. exists b, m. split; [done|].
    by apply negb_true_iff, String.eqb_neq in H2.
Qed.
Lemma instant_follows i g : i <= 2 -> g ∈ instants demo_config (env3 i) (tree3 i) -> follows demo_config base name safe_ext src3 i g.
Proof.
  intros Hi Hg. eapply (fo_run _ _ _ _ _ (pred i) i _ demo_config (env3 i)); [apply (follows3 i); lia|done|done|done| | | | | |exact Hg].
  - apply serve_no_304.
  - intros H. by apply serve_no_copy in H.
  - apply serve_patient; cbn; lia.
  - lia.
  - intros n ->%env3_offers; [|lia]. exists i. split; [lia|]. done.
Qed.
Lemma lost_follows : follows demo_config base name safe_ext src3 1 lost3.
Proof. exact (instant_follows 1 lost3 (le_S _ _ (le_n 1)) (killed_after_instant _ _ _ _)). Qed.
Theorem C01_copied_refuted : exists e f g n u h rel b m,
  follows demo_config base name safe_ext src3 1 f /\ e_ext e = safe_ext /\ no_bad_304 e /\ patient demo_config e /\
  (forall n, offers demo_config e f n -> n = src3 1) /\
  g ∈ instants demo_config e f /\
  g !! notif_path demo_config name = Some (File (x_write_notif safe_ext n) None) /\
  (u, h) ∈ refs n /\ u = base +:+ rel /\ g !! public_path demo_config rel = Some (File b m) /\ x_hash safe_ext b <> h.
Proof.
  assert (H : dangling (killed_when demo_config (copy_env 1 60) lost3 dangling) = true) by vme.
  apply dangling_ok in H as (H1 & b & m & H2 & H3).
  exists (copy_env 1 60), lost3, (killed_when demo_config (copy_env 1 60) lost3 dangling), n5, (n_snap_uri n5), (n_snap_hash n5),
    (snap_rel uuid_A 5), b, m.
  split; [exact lost_follows|]. split; [exact eq_refl|]. split; [exact (serve_no_304 (docs3 1) 0)|].
  split; [exact (copy_patient 1 60 (le_S _ _ (le_n 1)))|].
  split; [intros n Ho; change (offers demo_config (env3 1) lost3 n) in Ho; exact (env3_offers 1 lost3 n (le_S _ _ (le_n 1)) Ho)|].
  split; [exact (killed_instant _ _ _ _)|]. split; [exact H1|]. split; [left|]. split; [exact eq_refl|]. split; [exact H2|exact H3].
Qed.
Print Assumptions C01_settled.
Print Assumptions C01_copied_refuted.
