(** * The trace shows every tree *)
From Verif Require Export Keeps.

(** the last tree of a trace, or the tree before *)
Definition last_tree (l : list event) (f : fs) : fs := List.last (trees l) f.
(** [m] leaves the tree it has shown last *)
Definition tracks {A} (m : M A) : Prop := forall e w, exists l,
  w_trace (m e w).2 = w_trace w ++ l /\ w_fs (m e w).2 = last_tree l (w_fs w).

Lemma trees_app l l' : trees (l ++ l') = trees l ++ trees l'.
Proof. induction l as [|[] l IH]; cbn; by rewrite ?IH. Qed.
Lemma last_app_default {B} (l l' : list B) d : List.last (l ++ l') d = List.last l' (List.last l d).
Proof.
  destruct l' as [|b l'] using rev_ind; [by rewrite app_nil_r|].
  by rewrite app_assoc, !List.last_last.
Qed.
Lemma last_tree_app l l' f : last_tree (l ++ l') f = last_tree l' (last_tree l f).
Proof. unfold last_tree. by rewrite trees_app, last_app_default. Qed.
Lemma trees_fs l : trees (EvFs <$> l) = l.
Proof. induction l as [|f l IH]; cbn; by rewrite ?IH. Qed.

Lemma tracks_quiet {A} (m : M A) : (forall e I, keeps e I m) -> tracks m.
Proof.
  intros H e w. destruct (H e (fun g => g = w_fs w) w eq_refl) as (l & E & Hl & Hw). exists l. split; [done|].
  rewrite Hw. unfold last_tree. clear E Hw. assert (Forall (fun g => g = w_fs w) (trees l)) as Ht.
  { induction Hl as [|ev l Hev Hl IH]; [constructor|]. destruct ev; cbn in *; auto. }
  destruct (trees l) as [|g t] eqn:E; [done|]. clear E Hl. revert g Ht. induction t as [|g' t IH]; intros g Ht.
  - apply Forall_cons in Ht as [-> _]. done.
  - apply Forall_cons in Ht as [_ Ht]. by apply IH.
Qed.
Lemma tracks_bind {A B} (m : M A) (k : A -> M B) : tracks m -> (forall a, tracks (k a)) -> tracks (m ≫= k).
Proof.
  intros H1 H2 e w. destruct (H1 e w) as (l & E1 & E2). unfold mbind, M_bind. destruct (m e w) as [[a|x|] w'] eqn:E.
  - destruct (H2 a e w') as (l' & E1' & E2'). cbn in E1, E2. exists (l ++ l'). split.
    + rewrite E1', E1. by rewrite app_assoc.
    + rewrite E2', E2. by rewrite last_tree_app.
  - by exists l.
  - by exists l.
Qed.
Lemma tracks_catch {A} (m : M A) : tracks m -> tracks (catch m).
Proof.
  intros H e w. destruct (H e w) as (l & E1 & E2). exists l. unfold catch. destruct (m e w) as [[a|x|] w']; done.
Qed.
Lemma tracks_step k f : tracks (fs_step k f).
Proof.
  intros e w. unfold fs_step. destruct (f (w_fs w)) as [[mids fin]|].
  - destruct (e_fault e (w_n w) k) as [j|]; eexists; (split; [reflexivity|]); unfold last_tree; rewrite trees_fs; done.
  - eexists. split; [reflexivity|]. done.
Qed.
Lemma tracks_when b m : tracks m -> tracks (when_ b m).
Proof. intros H. destruct b; [done|]. apply tracks_quiet. intros. apply keeps_ret. Qed.
Lemma tracks_unless b m : tracks m -> tracks (unless_ b m).
Proof. intros H. destruct b; [|done]. apply tracks_quiet. intros. apply keeps_ret. Qed.
Lemma tracks_for_each {A} (l : list A) (f : A -> M unit) : (forall a, tracks (f a)) -> tracks (for_each l f).
Proof.
  intros H. induction l as [|a l IH]; cbn; [apply tracks_quiet; intros; apply keeps_ret|].
  apply tracks_bind; [done|]. intros []. done.
Qed.

Ltac tracks_step_tac :=
  intros; lazy beta;
  lazymatch goal with
  | |- tracks (match ?x with _ => _ end) => destruct x
  | |- tracks (let _ := _ in _) => cbv zeta
  | |- tracks _ => first [ solve [auto with tracks] | solve [apply tracks_quiet; intros; auto with quiet] |
    lazymatch goal with
    | |- tracks (mbind _ _) => apply tracks_bind
    | |- tracks (catch _) => apply tracks_catch
    | |- tracks (when_ _ _) => apply tracks_when
    | |- tracks (unless_ _ _) => apply tracks_unless
    | |- tracks (for_each _ _) => apply tracks_for_each
    | |- tracks (fs_step _ _) => apply tracks_step
    end ]
  end.
Create HintDb tracks discriminated.
Ltac tracks_tac := repeat tracks_step_tac.

Lemma t_create_dir_all p : tracks (create_dir_all p).
Proof. unfold create_dir_all, f_mkdir. tracks_tac. Qed.
#[export] Hint Resolve t_create_dir_all : tracks.
Lemma t_write_buf p b : tracks (write_buf p b).
Proof. unfold write_buf, create_path_for_file, f_write. tracks_tac. Qed.
#[export] Hint Resolve t_write_buf : tracks.
Lemma t_move_file a b r : tracks (move_file a b r).
Proof. unfold move_file, create_path_for_file, f_rename, f_copy, f_remove_file. tracks_tac. Qed.
Lemma t_remove_up rp : tracks (remove_up rp).
Proof. induction rp; cbn [remove_up]; unfold f_remove_file, f_remove_dir; tracks_tac. Qed.
#[export] Hint Resolve t_move_file t_remove_up : tracks.
Lemma t_fetch s h t o : tracks (fetch s h t o).
Proof. unfold fetch. tracks_tac. Qed.
#[export] Hint Resolve t_fetch : tracks.
Lemma t_retrieve_file f u h t : tracks (retrieve_file f u h t).
Proof. unfold retrieve_file. tracks_tac. Qed.
#[export] Hint Resolve t_retrieve_file : tracks.
Lemma t_snapshot_stage st n f c : tracks (snapshot_stage st n f c).
Proof. unfold snapshot_stage. tracks_tac. Qed.
Lemma t_deltas_stage st r f c l : tracks (deltas_stage st r f c l).
Proof. induction l; cbn [deltas_stage]; tracks_tac. Qed.
#[export] Hint Resolve t_snapshot_stage t_deltas_stage : tracks.
Lemma t_update_staged st c : tracks (update_staged st c).
Proof. unfold update_staged. tracks_tac. Qed.
Lemma t_clean st c : tracks (clean st c).
Proof. unfold clean, remove_file_and_empty_parent_dirs. tracks_tac. Qed.
#[export] Hint Resolve t_update_staged t_clean : tracks.
Lemma t_apply st sg c : tracks (apply_staged_changed st sg c).
Proof. unfold apply_staged_changed. tracks_tac. Qed.
Lemma t_publish b o u d : tracks (publish b o u d).
Proof. unfold publish, fix_since, f_set_mtime. tracks_tac. Qed.
#[export] Hint Resolve t_apply t_publish : tracks.
Lemma t_for_snapshot b o s : tracks (for_snapshot_path b o s).
Proof. unfold for_snapshot_path. tracks_tac. Qed.
Lemma t_clean_old s c : tracks (clean_old s c).
Proof. unfold clean_old, f_remove_dir_all. tracks_tac. Qed.
#[export] Hint Resolve t_for_snapshot t_clean_old : tracks.
Lemma t_rsync st c : tracks (update_from_rrdp_state st c).
Proof.
  unfold update_from_rrdp_state, create_out_path_if_missing, symlink_current, rename_new_revision, rsync_persist,
    f_rename, f_symlink, f_remove_file. tracks_tac.
Qed.
Lemma t_write_notification st d : tracks (write_notification st d).
Proof. unfold write_notification, f_rename. tracks_tac. Qed.
Lemma t_persist st p : tracks (persist st p).
Proof. unfold persist. tracks_tac. Qed.
#[export] Hint Resolve t_rsync t_write_notification t_persist : tracks.
Lemma t_process c : tracks (process c).
Proof. unfold process, publish_staged. tracks_tac. Qed.

(** The tree a run leaves is one of its instants: a completed run is a run
    killed after its last step. *)
Theorem after_instant c e f : after (run c e f) ∈ instants c e f.
Proof.
  destruct (t_process c e (resume f)) as (l & E1 & E2). unfold after, instants, run. cbn [resume w_trace app] in E1.
  rewrite E1, E2. cbn [w_fs resume]. unfold last_tree. clear.
  destruct (trees l) as [|g t]; [constructor|]. right.
  revert g. induction t as [|g' t IH]; intros g; [by left|]. right. apply IH.
Qed.
