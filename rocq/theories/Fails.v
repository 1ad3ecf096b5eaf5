(** * Which errors a program can end with *)
From Verif Require Export Process.

(** the program never panics, and ends with no error outside [P] *)
Definition fails (P : err -> Prop) {A} (m : M A) : Prop := forall e w,
  match (m e w).1 with Ok _ => True | Err x => P x | Panic => False end.

Section fails.
  Context (P : err -> Prop).
  Lemma fails_ret {A} (a : A) : fails P (mret a).
  Proof. done. Qed.
  Lemma fails_fail {A} x : P x -> fails P (@fail A x).
  Proof. by intros H e w. Qed.
  Lemma fails_getext : fails P getext.
  Proof. done. Qed.
  Lemma fails_of_option {A} x (o : option A) : P x -> fails P (of_option x o).
  Proof. intros H e w. by destruct o. Qed.
  Lemma fails_bind {A B} (m : M A) (k : A -> M B) : fails P m -> (forall a, fails P (k a)) -> fails P (m ≫= k).
  Proof.
    intros Hm Hk e w. specialize (Hm e w). unfold mbind, M_bind. destruct (m e w) as [[a|x|] w']; [|done..].
    apply Hk.
  Qed.
  Lemma fails_catch {A} (m : M A) : fails (fun _ => True) m -> fails P (catch m).
  Proof. intros Hm e w. specialize (Hm e w). unfold catch. by destruct (m e w) as [[a|x|] w']. Qed.
  Lemma fails_for_each {A} (l : list A) (f : A -> M unit) : (forall a, fails P (f a)) -> fails P (for_each l f).
  Proof. intros H. induction l as [|a l IH]; [done|]. cbn [for_each]. apply fails_bind; auto. Qed.
  Lemma fails_when b m : fails P m -> fails P (when_ b m).
  Proof. by destruct b. Qed.
  Lemma fails_unless b m : fails P m -> fails P (unless_ b m).
  Proof. by destruct b. Qed.
  Lemma fails_clock : fails P clock.
  Proof. done. Qed.
  Lemma fails_sleep s : fails P (sleep s).
  Proof. done. Qed.
  Lemma fails_exists p : fails P (f_exists p).
  Proof. done. Qed.
  Lemma fails_is_file p : fails P (f_is_file p).
  Proof. done. Qed.
  Lemma fails_is_dir p : fails P (f_is_dir p).
  Proof. done. Qed.
  Context (PI : P EIo).
  Lemma fails_fs_step k f : fails P (fs_step k f).
  Proof using PI. intros e w. unfold fs_step. destruct (f (w_fs w)) as [[m fin]|]; [|done]. by destruct (e_fault e (w_n w) k). Qed.
  Lemma fails_read p : fails P (f_read p).
  Proof using PI. intros e w. unfold f_read. destruct (op_read (w_fs w) p); [|done]. by destruct (e_fault e (w_n w) ORead). Qed.
End fails.

Ltac fails_tac :=
  repeat (

  match goal with
  | |- fails _ (mret _) => apply fails_ret
  | |- fails _ getext => apply fails_getext
  | |- fails _ clock => apply fails_clock
  | |- fails _ (sleep _) => apply fails_sleep
  | |- fails _ (f_exists _) => apply fails_exists
  | |- fails _ (f_is_file _) => apply fails_is_file
  | |- fails _ (f_is_dir _) => apply fails_is_dir
  | |- fails _ (fs_step _ _) => apply fails_fs_step; [done]
  | |- fails _ (f_read _) => apply fails_read; [done]
  | |- fails _ (fail _) => apply fails_fail; [done]
  | |- fails _ (of_option _ _) => apply fails_of_option; [done]
  | |- fails _ (when_ _ _) => apply fails_when
  | |- fails _ (unless_ _ _) => apply fails_unless
  | |- fails _ (catch _) => apply fails_catch
  | |- fails _ (for_each _ _) => apply fails_for_each; intros
  | |- fails _ (mbind _ _) => apply fails_bind; [|intros]
  | |- fails _ (match _ with _ => _ end) => case_match
  | H : fails _ ?m |- fails _ ?m => exact H
  end).

Section publishing.
  Context (P : err -> Prop) (PI : P EIo).
  Lemma fl_create_dir_all p : fails P (create_dir_all p).
  Proof using PI. unfold create_dir_all, f_mkdir. fails_tac. Qed.
  Lemma fl_write_buf p b : fails P (write_buf p b).
  Proof using PI. unfold write_buf, create_path_for_file, create_dir_all, f_mkdir, f_write. fails_tac. Qed.
  Lemma fl_remove_up rp : fails P (remove_up rp).
  Proof using PI.
    clear -PI. revert P PI. induction rp as [|c rp IH]; intros P PI; cbn [remove_up]; unfold f_remove_file, f_remove_dir; fails_tac.
    by apply IH.
  Qed.
  Context (PS : P ESourceMissing).
  Lemma fl_move_file src dst rel : fails P (move_file src dst rel).
  Proof using PI PS.
    unfold move_file, create_path_for_file, create_dir_all, f_mkdir, f_rename, f_copy, f_remove_file. cbv zeta. fails_tac.
  Qed.
  Lemma fl_deprecate_all l : fails P (deprecate_all l).
  Proof using. induction l; cbn [deprecate_all]; unfold deprecate_now, time_now; fails_tac. Qed.
  Lemma fl_clean st c : fails P (clean st c).
  Proof using PI. unfold clean, seconds_ago, time_now, remove_file_and_empty_parent_dirs. fails_tac. by apply fl_remove_up. Qed.
  Lemma fl_apply st sg c : fails P (apply_staged_changed st sg c).
  Proof using PI PS.
    unfold apply_staged_changed, deprecate_snapshot, deltas_deprecate_all, deltas_deprecate_before, deprecate_now, time_now.
    cbv zeta. fails_tac; try apply fl_move_file; try apply fl_deprecate_all; apply fl_clean.
  Qed.
  Context (PP : P EParseState) (PX : P ESnapshotXml).
  Lemma fl_rsync st c : fails P (update_from_rrdp_state st c).
  Proof using PI PP PX.
    unfold update_from_rrdp_state, rsync_recover, read_file, create_out_path_if_missing, for_snapshot_path, publish, fix_since,
      symlink_current, rename_new_revision, update_current, clean_old, rsync_persist, seconds_ago, time_now, read_file,
      f_remove_file, f_symlink, f_rename, f_remove_dir_all, f_set_mtime.
    cbv zeta. fails_tac; first [apply fl_create_dir_all|apply fl_write_buf|idtac].
  Qed.
  Context (PN : P ENoSnapshot) (PJ : P EJoin).
  Lemma fl_delta_infos m l : fails P (delta_infos m l).
  Proof using PJ. induction l; cbn [delta_infos]; unfold mp_uri; fails_tac. Qed.
  Lemma fl_notify st d : fails P (write_notification st d).
  Proof using PI PN PJ.
    unfold write_notification, make_notification_file, mp_uri, f_rename. cbv zeta.
    fails_tac; first [apply fl_delta_infos|apply fl_write_buf].
  Qed.
End publishing.

(** the errors that publishing can end with *)
Definition publishing_error (x : err) : Prop :=
  x ∈ [EIo; ESourceMissing; EParseState; ESnapshotXml; ENoSnapshot; EJoin].
Lemma fl_publish st sg c : fails publishing_error
  (st2 ← apply_staged_changed st sg c;
   when_ (rsync_enabled c) (update_from_rrdp_state st2 c) ;;
   write_notification st2 (c_notify_delay c) ;;
   persist st2 (rrdp_state_path c)).
Proof.
  assert (H : forall x, x ∈ [EIo; ESourceMissing; EParseState; ESnapshotXml; ENoSnapshot; EJoin] -> publishing_error x) by done.
  fails_tac; [apply fl_apply|apply fl_rsync|apply fl_notify|apply fl_write_buf]; apply H; set_solver.
Qed.
