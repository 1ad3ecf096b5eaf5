(** * What a program does does not depend on the trace so far *)
From Verif Require Export Process.

Definition blind {A} (m : M A) : Prop := forall e f n t t', exists r f' n' l,
  m e (mkWorld f t n) = (r, mkWorld f' (t ++ l) n') /\ m e (mkWorld f t' n) = (r, mkWorld f' (t' ++ l) n').

Lemma blind_pure {A} (r : env -> fs -> res A) : blind (fun e w => (r e (w_fs w), w)).
Proof. intros e f n t t'. exists (r e f), f, n, []. by rewrite !app_nil_r. Qed.
Lemma blind_ret {A} (a : A) : blind (mret a).
Proof. exact (blind_pure (fun _ _ => Ok a)). Qed.
Lemma blind_fail {A} x : blind (@fail A x).
Proof. exact (blind_pure (fun _ _ => Err x)). Qed.
Lemma blind_panic {A} : blind (@panic A).
Proof. exact (blind_pure (fun _ _ => Panic)). Qed.
Lemma blind_ask : blind ask.
Proof. exact (blind_pure (fun e _ => Ok e)). Qed.
Lemma blind_getext : blind getext.
Proof. exact (blind_pure (fun e _ => Ok (e_ext e))). Qed.
Lemma blind_exists p : blind (f_exists p).
Proof. exact (blind_pure (fun _ f => Ok (fs_exists f p))). Qed.
Lemma blind_is_file p : blind (f_is_file p).
Proof. exact (blind_pure (fun _ f => Ok (fs_is_file f p))). Qed.
Lemma blind_is_dir p : blind (f_is_dir p).
Proof. exact (blind_pure (fun _ f => Ok (fs_is_dir f p))). Qed.
Lemma blind_of_option {A} x (o : option A) : blind (of_option x o).
Proof. destruct o; [apply blind_ret|apply blind_fail]. Qed.
Lemma blind_bind {A B} (m : M A) (k : A -> M B) : blind m -> (forall a, blind (k a)) -> blind (m ≫= k).
Proof.
  intros Hm Hk e f n t t'. destruct (Hm e f n t t') as (r & f1 & n1 & l & E1 & E2).
  unfold mbind, M_bind. rewrite E1, E2. destruct r as [a|x|].
  - destruct (Hk a e f1 n1 (t ++ l) (t' ++ l)) as (r & f2 & n2 & l2 & E3 & E4). exists r, f2, n2, (l ++ l2).
    by rewrite E3, E4, !app_assoc.
  - by exists (Err x), f1, n1, l.
  - by exists Panic, f1, n1, l.
Qed.
Lemma blind_catch {A} (m : M A) : blind m -> blind (catch m).
Proof.
  intros Hm e f n t t'. destruct (Hm e f n t t') as (r & f1 & n1 & l & E1 & E2).
  unfold catch. rewrite E1, E2. destruct r as [a|x|]; by eexists _, f1, n1, l.
Qed.
Lemma blind_step k op : blind (fs_step k op).
Proof.
  intros e f n t t'. unfold fs_step. cbn [w_fs w_n]. destruct (op f) as [[mids fin]|].
  - destruct (e_fault e n k); unfold push_fs; cbn [w_fs w_n w_trace]; by eexists _, _, _, _.
  - unfold push_fs. cbn [w_fs w_n w_trace]. by eexists _, _, _, _.
Qed.
Lemma blind_read p : blind (f_read p).
Proof.
  intros e f n t t'. unfold f_read. cbn [w_fs w_n]. destruct (op_read f p);
  [destruct (e_fault e n ORead)|]; unfold push_fs; cbn [w_fs w_n w_trace]; by eexists _, _, _, _.
Qed.
Lemma blind_clock : blind clock.
Proof. intros e f n t t'. by eexists _, _, _, [_]. Qed.
Lemma blind_http u m g : blind (http_get u m g).
Proof. intros e f n t t'. by eexists _, _, _, [_]. Qed.
Lemma blind_script p : blind (run_script p).
Proof. intros e f n t t'. by eexists _, _, _, [_]. Qed.
Lemma blind_sleep s : blind (sleep s).
Proof. intros e f n t t'. by eexists _, _, _, [_]. Qed.
Lemma blind_for_each {A} (l : list A) k : (forall a, blind (k a)) -> blind (for_each l k).
Proof. intros Hk. induction l as [|a l IH]; cbn [for_each]; [apply blind_ret|]. apply blind_bind; [apply Hk|]. by intros _. Qed.
Lemma blind_fold {A B} (k : B -> A -> M B) l : (forall b a, blind (k b a)) -> forall b, blind (fold_m k b l).
Proof. intros Hk. induction l as [|a l IH]; intros b; cbn [fold_m]; [apply blind_ret|]. apply blind_bind; [apply Hk|]. auto. Qed.

Ltac blind1 :=
  lazymatch goal with
  | |- blind (mret _) => apply blind_ret
  | |- blind (fail _) => apply blind_fail
  | |- blind panic => apply blind_panic
  | |- blind getext => apply blind_getext
  | |- blind ask => apply blind_ask
  | |- blind (f_exists _) => apply blind_exists
  | |- blind (f_is_file _) => apply blind_is_file
  | |- blind (f_is_dir _) => apply blind_is_dir
  | |- blind (of_option _ _) => apply blind_of_option
  | |- blind (_ ≫= _) => apply blind_bind; [|intros ?]
  | |- blind (catch _) => apply blind_catch
  | |- blind (fs_step _ _) => apply blind_step
  | |- blind (f_read _) => apply blind_read
  | |- blind clock => apply blind_clock
  | |- blind (http_get _ _ _) => apply blind_http
  | |- blind (run_script _) => apply blind_script
  | |- blind (sleep _) => apply blind_sleep
  | |- blind (for_each _ _) => apply blind_for_each; intros ?
  | |- blind (fold_m _ _ _) => apply blind_fold; first [intros [? ?] [? ?] | intros [? ?] ? | intros ? ?]
  | |- blind (when_ ?b _) => destruct b; cbn [when_]
  | |- blind (unless_ ?b _) => destruct b; cbn [unless_]
  | |- blind (let '(_, _) := ?p in _) => destruct p
  | |- blind (match ?x with _ => _ end) => destruct x
  end.
Ltac blinds := repeat first [blind1 | done | progress cbv zeta | solve [eauto with blind]].
Create HintDb blind.

Lemma blind_create_dir_all p : blind (create_dir_all p).
Proof. unfold create_dir_all, f_mkdir. blinds. Qed.
Lemma blind_create_path p : blind (create_path_for_file p).
Proof. unfold create_path_for_file. blind1; [blind1|]. apply blind_create_dir_all. Qed.
Lemma blind_write_buf p b : blind (write_buf p b).
Proof. unfold write_buf, f_write. blind1; [apply blind_create_path|blinds]. Qed.
Global Hint Resolve blind_create_dir_all blind_create_path blind_write_buf : blind.
Lemma blind_move_file a b r : blind (move_file a b r).
Proof. unfold move_file, f_rename, f_copy, f_remove_file. blinds. Qed.
Lemma blind_remove_up rp : blind (remove_up rp).
Proof. induction rp as [|a rp IH]; cbn [remove_up]; unfold f_remove_file, f_remove_dir; blinds. Qed.
Lemma blind_remove p : blind (remove_file_and_empty_parent_dirs p).
Proof. apply blind_remove_up. Qed.
Lemma blind_read_file p : blind (read_file p).
Proof. apply blind_read. Qed.
Global Hint Resolve blind_move_file blind_remove blind_read_file : blind.

Lemma blind_fetch_raw s g : blind (fetch_raw s g).
Proof. unfold fetch_raw. blinds. Qed.
Global Hint Resolve blind_fetch_raw : blind.
Lemma blind_fetch s h g t : blind (fetch s h g t).
Proof. unfold fetch. blinds. Qed.
Lemma blind_resolve f u : blind (resolve_source f u).
Proof. unfold resolve_source, map_source, source_join. blinds. Qed.
Lemma blind_try r : blind (try_into_data r).
Proof. unfold try_into_data. blinds. Qed.
Lemma blind_content r : blind (notif_content r).
Proof. unfold notif_content. blinds. Qed.
Global Hint Resolve blind_fetch blind_resolve blind_try blind_content : blind.
Lemma blind_read_notif f g : blind (read_notification_file f g).
Proof. unfold read_notification_file. blinds. Qed.
Lemma blind_retrieve f u h t : blind (retrieve_file f u h t).
Proof. unfold retrieve_file. blinds. Qed.
Lemma blind_read_bytes f u h : blind (read_bytes f u h).
Proof. unfold read_bytes. blinds. Qed.
Global Hint Resolve blind_read_notif blind_retrieve blind_read_bytes : blind.
Lemma blind_read_delta f u h : blind (read_delta_file f u h).
Proof. unfold read_delta_file. blinds. Qed.
Lemma blind_read_snapshot f u h : blind (read_snapshot_file f u h).
Proof. unfold read_snapshot_file. blinds. Qed.
Global Hint Resolve blind_read_delta blind_read_snapshot : blind.
Lemma blind_data_from_snapshot n g f w : blind (data_from_snapshot n g f w).
Proof. unfold data_from_snapshot. blinds. Qed.
Lemma blind_apply_deltas f l : forall s o, blind (apply_deltas f l s o).
Proof. induction l as [|d l IH]; intros s o; cbn [apply_deltas]; blinds. Qed.
Global Hint Resolve blind_data_from_snapshot blind_apply_deltas : blind.
Lemma blind_new_repo f w : blind (retrieve_new_repository f w).
Proof. unfold retrieve_new_repository. blinds. Qed.
Lemma blind_data_from_deltas n g d f w : blind (data_from_deltas n g d f w).
Proof. unfold data_from_deltas. blinds. Qed.
Global Hint Resolve blind_new_repo blind_data_from_deltas : blind.
Lemma blind_get_latest v u o w : blind (get_latest v u o w).
Proof. unfold get_latest. blinds. Qed.
Global Hint Resolve blind_get_latest : blind.
Lemma blind_tree k : forall v rc i o w, blind (validate_tree_at k v rc i o w).
Proof. induction k as [|k IH]; intros v rc i o w; cbn [validate_tree_at]; blinds. Qed.
Lemma blind_tal_validate t w : blind (tal_validate_at t w).
Proof. unfold tal_validate_at. blinds. Qed.
Global Hint Resolve blind_tree blind_tal_validate : blind.
Lemma blind_ta v t o w : blind (validate_ta_at v t o w).
Proof. unfold validate_ta_at. blinds. Qed.
Global Hint Resolve blind_ta : blind.
Lemma blind_validate v o : blind (validate v o).
Proof. unfold validate, validate_at. blinds. Qed.
Lemma blind_initialise v u : blind (initialise_staging_data v u).
Proof. unfold initialise_staging_data. blinds. Qed.
Global Hint Resolve blind_validate blind_initialise : blind.
Lemma blind_tal_parse a b s : blind (tal_parse a b s).
Proof. unfold tal_parse. blinds. Qed.
Global Hint Resolve blind_tal_parse : blind.
Lemma blind_read_tals l : blind (read_tals l).
Proof. induction l as [|p l IH]; cbn [read_tals]; blinds. Qed.
Global Hint Resolve blind_read_tals : blind.
Lemma blind_pre_validate st c : blind (pre_validate st c).
Proof. unfold pre_validate, reconfigure_validator, create_validator. blinds. Qed.
Lemma blind_run_scripts l : forall b, blind (run_scripts l b).
Proof. induction l as [|p l IH]; intros b; cbn [run_scripts]; blinds. Qed.
Global Hint Resolve blind_pre_validate blind_run_scripts : blind.
Lemma blind_scripts c : blind (pre_validate_scripts c).
Proof. unfold pre_validate_scripts. blinds. Qed.
Lemma blind_deprecate_now p : blind (deprecate_now p).
Proof. unfold deprecate_now, time_now. blinds. Qed.
Global Hint Resolve blind_scripts blind_deprecate_now : blind.
Lemma blind_deprecate_all l : blind (deprecate_all l).
Proof. induction l as [|p l IH]; cbn [deprecate_all]; blinds. Qed.
Global Hint Resolve blind_deprecate_all : blind.
Lemma blind_clean st c : blind (clean st c).
Proof. unfold clean, seconds_ago, time_now. blinds. Qed.
Global Hint Resolve blind_clean : blind.
Lemma blind_apply st sg c : blind (apply_staged_changed st sg c).
Proof. unfold apply_staged_changed, deprecate_snapshot, deltas_deprecate_all, deltas_deprecate_before. blinds. Qed.
Lemma blind_mp_uri m r : blind (mp_uri m r).
Proof. unfold mp_uri. blinds. Qed.
Global Hint Resolve blind_apply blind_mp_uri : blind.
Lemma blind_delta_infos m l : blind (delta_infos m l).
Proof. induction l as [|p l IH]; cbn [delta_infos]; blinds. Qed.
Global Hint Resolve blind_delta_infos : blind.
Lemma blind_write_notification st d : blind (write_notification st d).
Proof. unfold write_notification, make_notification_file, f_rename. blinds. Qed.
Lemma blind_rsync st c : blind (update_from_rrdp_state st c).
Proof.
  unfold update_from_rrdp_state, rsync_recover, create_out_path_if_missing, for_snapshot_path, publish, fix_since,
    symlink_current, rename_new_revision, update_current, clean_old, rsync_persist, seconds_ago, time_now,
    f_symlink, f_rename, f_remove_file, f_remove_dir_all, f_set_mtime. blinds.
Qed.
Global Hint Resolve blind_write_notification blind_rsync : blind.
Lemma blind_persist st p : blind (persist st p).
Proof. apply blind_write_buf. Qed.
Global Hint Resolve blind_persist : blind.
Lemma blind_publish_staged st sg c : blind (publish_staged st sg c).
Proof. unfold publish_staged. blinds. Qed.
Lemma blind_load_state c : blind (load_state c).
Proof. unfold load_state, recover, create, notif_source_build, mappings_build. blinds. Qed.
