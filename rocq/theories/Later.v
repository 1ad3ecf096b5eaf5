(** * A program in the middle of a longer one

    What a program does that starts after [d] calls have been made is what it does
    when it starts afresh with the rest of the answers. *)
From Verif Require Export Process.

(** the answers from the [d]th call on *)
Definition later (d : nat) (e : env) : env :=
  mkEnv (e_ext e) (fun k => e_http e (d + k)) (fun k => e_clock e (d + k)) (fun k => e_fault e (d + k))
    (fun k => e_script e (d + k)) (e_stack e).

Definition shifts {A} (m : M A) : Prop := forall e d f n t t', exists r f' n' l,
  m e (mkWorld f t (d + n)) = (r, mkWorld f' (t ++ l) (d + n')) /\ m (later d e) (mkWorld f t' n) = (r, mkWorld f' (t' ++ l) n').

Lemma shifts_pure {A} (r : ext -> fs -> res A) : shifts (fun e w => (r (e_ext e) (w_fs w), w)).
Proof. intros e d f n t t'. exists (r (e_ext e) f), f, n, []. by rewrite !app_nil_r. Qed.
Lemma shifts_ret {A} (a : A) : shifts (mret a).
Proof. exact (shifts_pure (fun _ _ => Ok a)). Qed.
Lemma shifts_fail {A} x : shifts (@fail A x).
Proof. exact (shifts_pure (fun _ _ => Err x)). Qed.
Lemma shifts_panic {A} : shifts (@panic A).
Proof. exact (shifts_pure (fun _ _ => Panic)). Qed.
Lemma shifts_getext : shifts getext.
Proof. exact (shifts_pure (fun x _ => Ok x)). Qed.
Lemma shifts_exists p : shifts (f_exists p).
Proof. exact (shifts_pure (fun _ f => Ok (fs_exists f p))). Qed.
Lemma shifts_is_file p : shifts (f_is_file p).
Proof. exact (shifts_pure (fun _ f => Ok (fs_is_file f p))). Qed.
Lemma shifts_is_dir p : shifts (f_is_dir p).
Proof. exact (shifts_pure (fun _ f => Ok (fs_is_dir f p))). Qed.
Lemma shifts_of_option {A} x (o : option A) : shifts (of_option x o).
Proof. destruct o; [apply shifts_ret|apply shifts_fail]. Qed.
Lemma shifts_bind {A B} (m : M A) (k : A -> M B) : shifts m -> (forall a, shifts (k a)) -> shifts (m ≫= k).
Proof.
  intros Hm Hk e d f n t t'. destruct (Hm e d f n t t') as (r & f1 & n1 & l & E1 & E2).
  unfold mbind, M_bind. rewrite E1, E2. destruct r as [a|x|].
  - destruct (Hk a e d f1 n1 (t ++ l) (t' ++ l)) as (r & f2 & n2 & l2 & E3 & E4). exists r, f2, n2, (l ++ l2).
    by rewrite E3, E4, !app_assoc.
  - by exists (Err x), f1, n1, l.
  - by exists Panic, f1, n1, l.
Qed.
Lemma shifts_catch {A} (m : M A) : shifts m -> shifts (catch m).
Proof.
  intros Hm e d f n t t'. destruct (Hm e d f n t t') as (r & f1 & n1 & l & E1 & E2).
  unfold catch. rewrite E1, E2. destruct r as [a|x|]; by eexists _, f1, n1, l.
Qed.
(** the programs that ask for the environment *)
Lemma shifts_asked {A} (k : env -> M A) : (forall e d, k (later d e) = k e) -> (forall e, shifts (k e)) -> shifts (ask ≫= k).
Proof. intros H Hk e d f n t t'. unfold mbind, M_bind, ask. rewrite H. apply Hk. Qed.
Lemma shifts_step k op : shifts (fs_step k op).
Proof.
  intros e d f n t t'. unfold fs_step. cbn [w_fs w_n later e_fault]. destruct (op f) as [[mids fin]|];
    [destruct (e_fault e (d + n) k)|]; unfold push_fs; cbn [w_fs w_n w_trace]; rewrite plus_n_Sm; by eexists _, _, _, _.
Qed.
Lemma shifts_read p : shifts (f_read p).
Proof.
  intros e d f n t t'. unfold f_read. cbn [w_fs w_n later e_fault]. destruct (op_read f p);
  [destruct (e_fault e (d + n) ORead)|]; unfold push_fs; cbn [w_fs w_n w_trace]; rewrite plus_n_Sm; by eexists _, _, _, _.
Qed.
Lemma shifts_clock : shifts clock.
Proof. intros e d f n t t'. unfold clock, push_ev. cbn [w_fs w_n w_trace later e_clock]. rewrite plus_n_Sm. by eexists _, _, _, [_]. Qed.
Lemma shifts_http u m g : shifts (http_get u m g).
Proof. intros e d f n t t'. unfold http_get, push_ev. cbn [w_fs w_n w_trace later e_http]. rewrite plus_n_Sm. by eexists _, _, _, [_]. Qed.
Lemma shifts_script p : shifts (run_script p).
Proof. intros e d f n t t'. unfold run_script, push_ev. cbn [w_fs w_n w_trace later e_script]. rewrite plus_n_Sm. by eexists _, _, _, [_]. Qed.
Lemma shifts_sleep s : shifts (sleep s).
Proof. intros e d f n t t'. unfold sleep, push_ev. cbn [w_fs w_n w_trace]. rewrite plus_n_Sm. by eexists _, _, _, [_]. Qed.
Lemma shifts_for_each {A} (l : list A) k : (forall a, shifts (k a)) -> shifts (for_each l k).
Proof. intros Hk. induction l as [|a l IH]; cbn [for_each]; [apply shifts_ret|]. apply shifts_bind; [apply Hk|]. by intros _. Qed.
Lemma shifts_fold {A B} (k : B -> A -> M B) l : (forall b a, shifts (k b a)) -> forall b, shifts (fold_m k b l).
Proof. intros Hk. induction l as [|a l IH]; intros b; cbn [fold_m]; [apply shifts_ret|]. apply shifts_bind; [apply Hk|]. auto. Qed.

Ltac shifts1 :=
  lazymatch goal with
  | |- shifts (mret _) => apply shifts_ret
  | |- shifts (fail _) => apply shifts_fail
  | |- shifts panic => apply shifts_panic
  | |- shifts getext => apply shifts_getext
  | |- shifts (f_exists _) => apply shifts_exists
  | |- shifts (f_is_file _) => apply shifts_is_file
  | |- shifts (f_is_dir _) => apply shifts_is_dir
  | |- shifts (of_option _ _) => apply shifts_of_option
  | |- shifts (ask ≫= _) => apply shifts_asked; [done|intros ?]
  | |- shifts (_ ≫= _) => apply shifts_bind; [|intros ?]
  | |- shifts (catch _) => apply shifts_catch
  | |- shifts (fs_step _ _) => apply shifts_step
  | |- shifts (f_read _) => apply shifts_read
  | |- shifts clock => apply shifts_clock
  | |- shifts (http_get _ _ _) => apply shifts_http
  | |- shifts (run_script _) => apply shifts_script
  | |- shifts (sleep _) => apply shifts_sleep
  | |- shifts (for_each _ _) => apply shifts_for_each; intros ?
  | |- shifts (fold_m _ _ _) => apply shifts_fold; first [intros [? ?] [? ?] | intros [? ?] ? | intros ? ?]
  | |- shifts (when_ ?b _) => destruct b; cbn [when_]
  | |- shifts (unless_ ?b _) => destruct b; cbn [unless_]
  | |- shifts (let '(_, _) := ?p in _) => destruct p
  | |- shifts (match ?x with _ => _ end) => destruct x
  end.
Ltac shiftss := repeat first [shifts1 | done | progress cbv zeta | solve [eauto with shifts]].
Create HintDb shifts.

Lemma shifts_create_dir_all p : shifts (create_dir_all p).
Proof. unfold create_dir_all, f_mkdir. shiftss. Qed.
Lemma shifts_create_path p : shifts (create_path_for_file p).
Proof. unfold create_path_for_file. shifts1; [shifts1|]. apply shifts_create_dir_all. Qed.
Lemma shifts_write_buf p b : shifts (write_buf p b).
Proof. unfold write_buf, f_write. shifts1; [apply shifts_create_path|shiftss]. Qed.
Global Hint Resolve shifts_create_dir_all shifts_create_path shifts_write_buf : shifts.
Lemma shifts_move_file a b r : shifts (move_file a b r).
Proof. unfold move_file, f_rename, f_copy, f_remove_file. shiftss. Qed.
Lemma shifts_remove_up rp : shifts (remove_up rp).
Proof. induction rp as [|a rp IH]; cbn [remove_up]; unfold f_remove_file, f_remove_dir; shiftss. Qed.
Lemma shifts_remove p : shifts (remove_file_and_empty_parent_dirs p).
Proof. apply shifts_remove_up. Qed.
Lemma shifts_read_file p : shifts (read_file p).
Proof. apply shifts_read. Qed.
Global Hint Resolve shifts_move_file shifts_remove shifts_read_file : shifts.

Lemma shifts_fetch_raw s g : shifts (fetch_raw s g).
Proof. unfold fetch_raw. shiftss. Qed.
Global Hint Resolve shifts_fetch_raw : shifts.
Lemma shifts_fetch s h g t : shifts (fetch s h g t).
Proof. unfold fetch. shiftss. Qed.
Lemma shifts_resolve f u : shifts (resolve_source f u).
Proof. unfold resolve_source, map_source, source_join. shiftss. Qed.
Lemma shifts_try r : shifts (try_into_data r).
Proof. unfold try_into_data. shiftss. Qed.
Lemma shifts_content r : shifts (notif_content r).
Proof. unfold notif_content. shiftss. Qed.
Global Hint Resolve shifts_fetch shifts_resolve shifts_try shifts_content : shifts.
Lemma shifts_read_notif f g : shifts (read_notification_file f g).
Proof. unfold read_notification_file. shiftss. Qed.
Lemma shifts_retrieve f u h t : shifts (retrieve_file f u h t).
Proof. unfold retrieve_file. shiftss. Qed.
Lemma shifts_read_bytes f u h : shifts (read_bytes f u h).
Proof. unfold read_bytes. shiftss. Qed.
Global Hint Resolve shifts_read_notif shifts_retrieve shifts_read_bytes : shifts.
Lemma shifts_read_delta f u h : shifts (read_delta_file f u h).
Proof. unfold read_delta_file. shiftss. Qed.
Lemma shifts_read_snapshot f u h : shifts (read_snapshot_file f u h).
Proof. unfold read_snapshot_file. shiftss. Qed.
Global Hint Resolve shifts_read_delta shifts_read_snapshot : shifts.
Lemma shifts_data_from_snapshot n g f w : shifts (data_from_snapshot n g f w).
Proof. unfold data_from_snapshot. shiftss. Qed.
Lemma shifts_apply_deltas f l : forall s o, shifts (apply_deltas f l s o).
Proof. induction l as [|d l IH]; intros s o; cbn [apply_deltas]; shiftss. Qed.
Global Hint Resolve shifts_data_from_snapshot shifts_apply_deltas : shifts.
Lemma shifts_new_repo f w : shifts (retrieve_new_repository f w).
Proof. unfold retrieve_new_repository. shiftss. Qed.
Lemma shifts_data_from_deltas n g d f w : shifts (data_from_deltas n g d f w).
Proof. unfold data_from_deltas. shiftss. Qed.
Global Hint Resolve shifts_new_repo shifts_data_from_deltas : shifts.
Lemma shifts_get_latest v u o w : shifts (get_latest v u o w).
Proof. unfold get_latest. shiftss. Qed.
Global Hint Resolve shifts_get_latest : shifts.
Lemma shifts_tree k : forall v rc i o w, shifts (validate_tree_at k v rc i o w).
Proof. induction k as [|k IH]; intros v rc i o w; cbn [validate_tree_at]; shiftss. Qed.
Lemma shifts_tal_validate t w : shifts (tal_validate_at t w).
Proof. unfold tal_validate_at. shiftss. Qed.
Global Hint Resolve shifts_tree shifts_tal_validate : shifts.
Lemma shifts_ta v t o w : shifts (validate_ta_at v t o w).
Proof. unfold validate_ta_at. shiftss. Qed.
Global Hint Resolve shifts_ta : shifts.
Lemma shifts_validate v o : shifts (validate v o).
Proof. unfold validate, validate_at. shiftss. Qed.
Lemma shifts_initialise v u : shifts (initialise_staging_data v u).
Proof. unfold initialise_staging_data. shiftss. Qed.
Global Hint Resolve shifts_validate shifts_initialise : shifts.
Lemma shifts_tal_parse a b s : shifts (tal_parse a b s).
Proof. unfold tal_parse. shiftss. Qed.
Global Hint Resolve shifts_tal_parse : shifts.
Lemma shifts_read_tals l : shifts (read_tals l).
Proof. induction l as [|p l IH]; cbn [read_tals]; shiftss. Qed.
Global Hint Resolve shifts_read_tals : shifts.
Lemma shifts_pre_validate st c : shifts (pre_validate st c).
Proof. unfold pre_validate, reconfigure_validator, create_validator. shiftss. Qed.
Lemma shifts_run_scripts l : forall b, shifts (run_scripts l b).
Proof. induction l as [|p l IH]; intros b; cbn [run_scripts]; shiftss. Qed.
Global Hint Resolve shifts_pre_validate shifts_run_scripts : shifts.
Lemma shifts_scripts c : shifts (pre_validate_scripts c).
Proof. unfold pre_validate_scripts. shiftss. Qed.
Lemma shifts_deprecate_now p : shifts (deprecate_now p).
Proof. unfold deprecate_now, time_now. shiftss. Qed.
Global Hint Resolve shifts_scripts shifts_deprecate_now : shifts.
Lemma shifts_deprecate_all l : shifts (deprecate_all l).
Proof. induction l as [|p l IH]; cbn [deprecate_all]; shiftss. Qed.
Global Hint Resolve shifts_deprecate_all : shifts.
Lemma shifts_clean st c : shifts (clean st c).
Proof. unfold clean, seconds_ago, time_now. shiftss. Qed.
Global Hint Resolve shifts_clean : shifts.
Lemma shifts_apply st sg c : shifts (apply_staged_changed st sg c).
Proof. unfold apply_staged_changed, deprecate_snapshot, deltas_deprecate_all, deltas_deprecate_before. shiftss. Qed.
Lemma shifts_mp_uri m r : shifts (mp_uri m r).
Proof. unfold mp_uri. shiftss. Qed.
Global Hint Resolve shifts_apply shifts_mp_uri : shifts.
Lemma shifts_delta_infos m l : shifts (delta_infos m l).
Proof. induction l as [|p l IH]; cbn [delta_infos]; shiftss. Qed.
Global Hint Resolve shifts_delta_infos : shifts.
Lemma shifts_write_notification st d : shifts (write_notification st d).
Proof. unfold write_notification, make_notification_file, f_rename. shiftss. Qed.
Lemma shifts_rsync st c : shifts (update_from_rrdp_state st c).
Proof.
  unfold update_from_rrdp_state, rsync_recover, create_out_path_if_missing, for_snapshot_path, publish, fix_since,
    symlink_current, rename_new_revision, update_current, clean_old, rsync_persist, seconds_ago, time_now,
    f_symlink, f_rename, f_remove_file, f_remove_dir_all, f_set_mtime. shiftss.
Qed.
Global Hint Resolve shifts_write_notification shifts_rsync : shifts.
Lemma shifts_persist st p : shifts (persist st p).
Proof. apply shifts_write_buf. Qed.
Global Hint Resolve shifts_persist : shifts.
Lemma shifts_deltas_stage st r f c l : shifts (deltas_stage st r f c l).
Proof. induction l as [|d l IH]; cbn [deltas_stage]; unfold mp_relative, time_now; shiftss. Qed.
Global Hint Resolve shifts_deltas_stage : shifts.
Lemma shifts_update_staged st c : shifts (update_staged st c).
Proof. unfold update_staged, notif_source_fetch, snapshot_stage, mp_relative, time_now. shiftss. Qed.
Global Hint Resolve shifts_update_staged : shifts.
Lemma shifts_publish_staged st sg c : shifts (publish_staged st sg c).
Proof. unfold publish_staged. shiftss. Qed.
Lemma shifts_load_state c : shifts (load_state c).
Proof. unfold load_state, recover, create, notif_source_build, mappings_build. shiftss. Qed.
Global Hint Resolve shifts_publish_staged shifts_load_state : shifts.
Lemma shifts_process c : shifts (process c).
Proof. unfold process. shiftss. Qed.
Global Hint Resolve shifts_process : shifts.
Lemma shifts_try_main c free : shifts (try_main c free).
Proof. unfold try_main, f_write. shiftss. Qed.
