(** * C88: the rsync tree of the next version is complete whatever happened to the last one *)
From Verif Require Import PropsRun RunDone DemoRun Refuted PropsSource PropsDamage FsWf PropsStateLost.
From Verif Require Import PropsRsync.

(** ** Theorems *)
Lemma damaged_sane c base name e f0 f :
  cfg_ok c base name -> damaged c base name f0 f -> good_world c base name e f -> sane c base name e f.
Proof. intros Hc [D1 D2 D3] [Hw1 Hw2]. split; [done| |done|done]. eapply own_else; [by eapply mirror_own|done|done]. Qed.

(** Others may have changed or removed anything but the RRDP state file. If the
    versions on offer are new to what is there, a run that completes and changes
    anything serves a tree with exactly the objects of the snapshot it publishes. *)
Theorem C88_rsync_tree c base name e f0 f w :
  cfg_ok c base name -> damaged c base name f0 f -> good_world c base name e f ->
  c_rsync_disable c = false -> new_revisions c e f -> run c e f = (Ok tt, w) ->
  w_fs w = f \/
  exists n rel b els root, snapshot_doc c base name e f n rel b els /\
    announces c name (e_ext e) (w_fs w) n /\
    (forall b' m, w_fs w !! public_path c rel = Some (File b' m) -> b' = b) /\
    serves c (w_fs w) root /\ holds_exactly c els (w_fs w) root.
Proof.
  intros Hc Hd Hw Hr%enabled Hn E. pose proof (damaged_sane c base name e f0 f Hc Hd Hw) as Hs.
  destruct (new_retried _ _ _ Hn) as [Hn1 Hn2].
  destruct (rsync_result c base name e f Hs w Hr Hn1 Hn2 E) as [H|(n & n' & rel & b & els & root & H1 & H2 & H3 & H4 & H5 & H6)]; [by left|right].
  exists n, rel, b, els, root. split; [by apply source_doc|]. split; [by exists n', None|]. split; [done|]. split; [done|].
  eapply new_exact; [|done]. apply Hn. by apply H1.
Qed.

(** If there is a directory for the version already, all objects are there, each
    with its own content, and any other file is one that was in that directory. *)
Theorem C88_leftovers c base name e f0 f w :
  cfg_ok c base name -> damaged c base name f0 f -> good_world c base name e f ->
  c_rsync_disable c = false -> retried_revisions c e f -> run c e f = (Ok tt, w) ->
  w_fs w = f \/
  exists n rel b els root, snapshot_doc c base name e f n rel b els /\
    announces c name (e_ext e) (w_fs w) n /\ serves c (w_fs w) root /\
    (forall q b', carries c els q b' -> exists m, w_fs w !! (root ++ q) = Some (File b' m)) /\
    (forall q b' m, w_fs w !! (root ++ q) = Some (File b' m) ->
       carries c els q b' \/ f !! (rev_dir c (revision_of n) ++ q) = Some (File b' m)).
Proof.
  intros Hc Hd Hw Hr%enabled [Hn1 Hn2] E. pose proof (damaged_sane c base name e f0 f Hc Hd Hw) as Hs.
  destruct (rsync_result c base name e f Hs w Hr Hn1 Hn2 E) as [H|(n & n' & rel & b & els & root & H1 & H2 & H3 & H4 & H5 & H6)]; [by left|right].
  exists n, rel, b, els, root. split; [by apply source_doc|]. split; [by exists n', None|]. split; [done|]. split.
  - intros q b' Hb'. destruct (H6 q) as [b2 m2 K1 K2 K3|K1 K2|K1 K2 K3]; [|by destruct (K1 b')|by destruct (K1 b')].
    exists m2. rewrite K2. do 2 f_equal. by eapply carries_unique.
  - intros q b' m Hq. specialize (H6 q). rewrite Hq in H6. destruct H6 as [b2 m2 K1 [= -> ->] K3|K1 K2|K1 K2 K3]; [by left|by right|done].
Qed.

(** ** Examples *)
(** serial 3 is served, and the object in its rsync tree is then removed *)
Definition gone_file : path := rev_dir demo_config rev3 ++ ["ca"; "3.roa"].
Definition gone : fs := delete gone_file (tree3 1).
Lemma gone_case : case_check demo_config (env3 1) gone rev3 rev5 ["ca"; "5.roa"] = true.
Proof. vme. Qed.
Definition file_b (o : option node) : bool := match o with Some (File _ _) => true | _ => false end.
Lemma gone_was : file_b (tree3 1 !! gone_file) = true.
Proof. vme. Qed.
Opaque run.
Lemma gone_damaged : damaged demo_config base name (tree3 1) gone.
Proof.
  pose proof gone_was as H. unfold gone. destruct (tree3 1 !! gone_file) as [[b m| |]|] eqn:E; try discriminate H.
  split; [apply mirror3; lia| |].
  - eapply wf_forget; [|exact E]. apply (mirror_own any_notif demo_config base name _ demo_cfg_ok (mirror3 1 ltac:(lia))).
  - apply lookup_delete_ne. apply (bool_decide_eq_true_1 _). vm_compute. reflexivity.
Qed.
(** The tree of serial 3 lacks its object; the next run serves that of serial 5. *)
Example C88_applies :
  cfg_ok demo_config base name /\ damaged demo_config base name (tree3 1) gone /\ good_world demo_config base name (env3 1) gone /\
  c_rsync_disable demo_config = false /\ new_revisions demo_config (env3 1) gone /\
  gone !! current_path demo_config = Some (Link (dir_name rev3)) /\ gone !! gone_file = None /\
  exists w, run demo_config (env3 1) gone = (Ok tt, w) /\
    w_fs w !! current_path demo_config = Some (Link (dir_name rev5)) /\
    exists b t, w_fs w !! (rev_dir demo_config rev5 ++ ["ca"; "5.roa"]) = Some (File b (Some t)).
Proof.
  destruct (case_ok _ _ _ _ _ _ gone_case) as (H1 & H2 & H3 & H4 & w & H5 & H6 & H7).
  split; [exact demo_cfg_ok|]. split; [exact gone_damaged|]. split; [exact (env3_good 1 gone (le_S _ _ (le_n 1)))|].
  split; [reflexivity|]. split.
  { split; [exact H1|]. intros n ->%env3_offers; [|lia]. exact (conj H2 H3). }
  split; [exact H4|]. split; [exact (lookup_delete _ _)|]. exists w. exact (conj H5 (conj H6 H7)).
Qed.
Transparent run.
Print Assumptions C88_rsync_tree.
Print Assumptions C88_leftovers.
