(** * Invariants of the file system across whole programs *)
From Verif Require Export Wp Process.

(** Started in a tree satisfying [I], [m] only shows trees satisfying [I]. *)
Definition keeps {A} (e : env) (I : fs -> Prop) (m : M A) : Prop :=
  forall w, I (w_fs w) -> wpt e (on_fs I) m w (fun _ w' => I (w_fs w')).

Section keeps.
  Context (e : env) (I : fs -> Prop).

  Lemma keeps_ret {A} (a : A) : keeps e I (mret a).
  Proof. intros w H. by apply wpt_ret. Qed.
  Lemma keeps_fail {A} x : keeps e I (fail (A := A) x).
  Proof. intros w H. by apply wpt_fail. Qed.
  Lemma keeps_panic {A} : keeps e I (panic (A := A)).
  Proof. intros w H. by apply wpt_panic. Qed.
  Lemma keeps_bind {A B} (m : M A) (k : A -> M B) :
    keeps e I m -> (forall a, keeps e I (k a)) -> keeps e I (m ≫= k).
  Proof.
    intros H1 H2 w H. apply wpt_bind. eapply wpt_post; [by apply H1|].
    intros [a|x|] w' H'; auto. by apply H2.
  Qed.
  Lemma keeps_fmap {A B} (m : M A) (f : A -> B) : keeps e I m -> keeps e I (f <$> m).
  Proof.
    intros H1 w H. apply wpt_fmap. eapply wpt_post; [by apply H1|]. intros [a|x|] w' H'; auto.
  Qed.
  Lemma keeps_catch {A} (m : M A) : keeps e I m -> keeps e I (catch m).
  Proof.
    intros H1 w H. apply wpt_catch. eapply wpt_post; [by apply H1|]. intros [a|x|] w' H'; auto.
  Qed.
  Lemma keeps_of_option {A} x (o : option A) : keeps e I (of_option x o).
  Proof. intros w H. by apply wpt_of_option. Qed.
  Lemma keeps_when b m : keeps e I m -> keeps e I (when_ b m).
  Proof. destruct b; [done|]. intros _. apply keeps_ret. Qed.
  Lemma keeps_unless b m : keeps e I m -> keeps e I (unless_ b m).
  Proof. destruct b; [|done]. intros _. apply keeps_ret. Qed.
  Lemma keeps_if {A} (b : bool) (m m' : M A) : keeps e I m -> keeps e I m' -> keeps e I (if b then m else m').
  Proof. by destruct b. Qed.
  Lemma keeps_for_each {A} (l : list A) (f : A -> M unit) :
    (forall a, a ∈ l -> keeps e I (f a)) -> keeps e I (for_each l f).
  Proof.
    induction l as [|a l IH]; intros H; cbn; [apply keeps_ret|].
    apply keeps_bind; [apply H; constructor|]. intros []. apply IH. intros b Hb. apply H. by constructor.
  Qed.
  Lemma keeps_fold_m {A B} (f : B -> A -> M B) b l :
    (forall b a, keeps e I (f b a)) -> keeps e I (fold_m f b l).
  Proof.
    intros H. revert b. induction l as [|a l IH]; intros b; cbn; [apply keeps_ret|].
    apply keeps_bind; auto.
  Qed.
  Lemma keeps_getext : keeps e I getext.
  Proof. intros w H. by apply wpt_getext. Qed.
  Lemma keeps_ask : keeps e I ask.
  Proof. intros w H. by apply wpt_ask. Qed.
  Lemma keeps_exists p : keeps e I (f_exists p).
  Proof. intros w H. by apply wpt_exists. Qed.
  Lemma keeps_is_file p : keeps e I (f_is_file p).
  Proof. intros w H. by apply wpt_is_file. Qed.
  Lemma keeps_is_dir p : keeps e I (f_is_dir p).
  Proof. intros w H. by apply wpt_is_dir. Qed.
  Lemma keeps_read p : keeps e I (f_read p).
  Proof. intros w H. by apply wpt_read. Qed.
  Lemma keeps_clock : keeps e I clock.
  Proof. intros w H. by apply wpt_clock. Qed.
  Lemma keeps_http u m t : keeps e I (http_get u m t).
  Proof. intros w H. by apply wpt_http. Qed.
  Lemma keeps_script p : keeps e I (run_script p).
  Proof. intros w H. by apply wpt_script. Qed.
  Lemma keeps_sleep p : keeps e I (sleep p).
  Proof. intros w H. by apply wpt_sleep. Qed.

  Lemma keeps_step k f :
    (forall g mids fin, I g -> f g = Some (mids, fin) -> Forall I mids /\ I fin) ->
    keeps e I (fs_step k f).
  Proof.
    intros Hf w H. apply wpt_fs_inv; auto.
    - intros. eauto.
    - intros w' mids fin E <-. by apply (Hf _ _ _ H E).
  Qed.
End keeps.

(** Functions that do not touch the file system. *)
Create HintDb quiet discriminated.
#[export] Hint Resolve keeps_ret keeps_fail keeps_panic keeps_of_option keeps_getext keeps_ask
  keeps_exists keeps_is_file keeps_is_dir keeps_read keeps_clock keeps_http keeps_script keeps_sleep : quiet.

Ltac keeps_step_tac :=
  intros; lazy beta;
  lazymatch goal with
  | |- keeps _ _ (match ?x with _ => _ end) => destruct x
  | |- keeps _ _ ((match ?x with _ => _ end) _) => destruct x
  | |- keeps _ _ (let _ := _ in _) => cbv zeta
  | |- keeps _ _ (mbind _ _) => apply keeps_bind
  | |- keeps _ _ (fmap _ _) => apply keeps_fmap
  | |- keeps _ _ (catch _) => apply keeps_catch
  | |- keeps _ _ (when_ _ _) => apply keeps_when
  | |- keeps _ _ (unless_ _ _) => apply keeps_unless
  | |- keeps _ _ (for_each _ _) => apply keeps_for_each
  | |- keeps _ _ (fold_m _ _ _) => apply keeps_fold_m
  | |- keeps _ _ _ => solve [auto with quiet]
  end.
Ltac quiet_tac := repeat keeps_step_tac.

Section quiet.
  Context (e : env) (I : fs -> Prop).

  Lemma q_time_now : keeps e I time_now.
  Proof. unfold time_now. quiet_tac. Qed.
  Lemma q_seconds_ago s : keeps e I (seconds_ago s).
  Proof. unfold seconds_ago, time_now. quiet_tac. Qed.
  Lemma q_read_file p : keeps e I (read_file p).
  Proof. unfold read_file. quiet_tac. Qed.
  Hint Resolve q_time_now q_seconds_ago q_read_file : quiet.

  Lemma q_fetch_raw s t : keeps e I (fetch_raw s t).
  Proof. unfold fetch_raw. quiet_tac. Qed.
  Hint Resolve q_fetch_raw : quiet.
  Lemma q_fetch s h t : keeps e I (fetch s h t None).
  Proof. unfold fetch. quiet_tac. Qed.
  Hint Resolve q_fetch : quiet.
  Lemma q_try_into_data r : keeps e I (try_into_data r).
  Proof. unfold try_into_data. quiet_tac. Qed.
  Lemma q_notif_content r : keeps e I (notif_content r).
  Proof. unfold notif_content. quiet_tac. Qed.
  Lemma q_source_join s r : keeps e I (source_join s r).
  Proof. unfold source_join. quiet_tac. Qed.
  Hint Resolve q_try_into_data q_notif_content q_source_join : quiet.
  Lemma q_map_source m u : keeps e I (map_source m u).
  Proof. unfold map_source. quiet_tac. Qed.
  Hint Resolve q_map_source : quiet.
  Lemma q_resolve_source f u : keeps e I (resolve_source f u).
  Proof. unfold resolve_source. quiet_tac. Qed.
  Hint Resolve q_resolve_source : quiet.
  Lemma q_read_notification_file f t : keeps e I (read_notification_file f t).
  Proof. unfold read_notification_file. quiet_tac. Qed.
  Hint Resolve q_read_notification_file : quiet.

  Lemma q_tal_parse n b s : keeps e I (tal_parse n b s).
  Proof. unfold tal_parse. quiet_tac. Qed.
  Lemma q_tal_validate_at t w : keeps e I (tal_validate_at t w).
  Proof. unfold tal_validate_at. quiet_tac. Qed.
  Hint Resolve q_tal_parse q_tal_validate_at : quiet.

  Lemma q_read_bytes f u h : keeps e I (read_bytes f u h).
  Proof. unfold read_bytes. quiet_tac. Qed.
  Hint Resolve q_read_bytes : quiet.
  Lemma q_read_delta_file f u h : keeps e I (read_delta_file f u h).
  Proof. unfold read_delta_file. quiet_tac. Qed.
  Lemma q_read_snapshot_file f u h : keeps e I (read_snapshot_file f u h).
  Proof. unfold read_snapshot_file. quiet_tac. Qed.
  Hint Resolve q_read_delta_file q_read_snapshot_file : quiet.
  Lemma q_data_from_snapshot n t f w : keeps e I (data_from_snapshot n t f w).
  Proof. unfold data_from_snapshot. quiet_tac. Qed.
  Hint Resolve q_data_from_snapshot : quiet.
  Lemma q_retrieve_new f w : keeps e I (retrieve_new_repository f w).
  Proof. unfold retrieve_new_repository. quiet_tac. Qed.
  Lemma q_apply_deltas f l s o : keeps e I (apply_deltas f l s o).
  Proof.
    revert s o. induction l as [|d l IH]; intros; cbn [apply_deltas]; [quiet_tac|].
    apply keeps_if; [apply IH|]. repeat (apply keeps_bind; [solve [auto with quiet]|intros]). apply IH.
  Qed.
  Hint Resolve q_retrieve_new q_apply_deltas : quiet.
  Lemma q_data_from_deltas n t d f w : keeps e I (data_from_deltas n t d f w).
  Proof. unfold data_from_deltas. quiet_tac. Qed.
  Hint Resolve q_data_from_deltas : quiet.
  Lemma q_get_latest v u o w : keeps e I (get_latest v u o w).
  Proof. unfold get_latest. quiet_tac. Qed.
  Hint Resolve q_get_latest : quiet.
  Lemma q_validate_tree_at k v rc i o w : keeps e I (validate_tree_at k v rc i o w).
  Proof.
    revert v rc i o w. induction k as [|k IH]; intros; cbn [validate_tree_at]; [quiet_tac|].
    destruct (ci_rrdp i); [|quiet_tac]. apply keeps_bind; [apply q_get_latest|].
    intros [v1 [d|x]]; [|quiet_tac]. apply keeps_bind; [apply keeps_getext|]. intros x.
    destruct (check_ca _ _ _ _ _) as [ca' ch]. apply keeps_fold_m. intros [v' rep] [crc ci].
    apply keeps_bind; [apply IH|]. intros []. apply keeps_ret.
  Qed.
  Hint Resolve q_validate_tree_at : quiet.
  Lemma q_validate_ta_at v t o w : keeps e I (validate_ta_at v t o w).
  Proof. unfold validate_ta_at. quiet_tac. Qed.
  Hint Resolve q_validate_ta_at : quiet.
  Lemma q_validate_at v o w : keeps e I (validate_at v o w).
  Proof. unfold validate_at. quiet_tac. Qed.
  Hint Resolve q_validate_at : quiet.
  Lemma q_validate v o : keeps e I (validate v o).
  Proof. unfold validate. quiet_tac. Qed.
  Lemma q_initialise v u : keeps e I (initialise_staging_data v u).
  Proof. unfold initialise_staging_data. quiet_tac. Qed.
  Hint Resolve q_validate q_initialise : quiet.

  Lemma q_notif_source_build u : keeps e I (notif_source_build u).
  Proof. unfold notif_source_build. quiet_tac. Qed.
  Lemma q_notif_source_fetch s f : keeps e I (notif_source_fetch s f).
  Proof. unfold notif_source_fetch. quiet_tac. Qed.
  Lemma q_mappings_build c : keeps e I (mappings_build c).
  Proof. unfold mappings_build. quiet_tac. Qed.
  Lemma q_mp_relative m u : keeps e I (mp_relative m u).
  Proof. unfold mp_relative. quiet_tac. Qed.
  Lemma q_mp_uri m u : keeps e I (mp_uri m u).
  Proof. unfold mp_uri. quiet_tac. Qed.
  Hint Resolve q_notif_source_build q_notif_source_fetch q_mappings_build q_mp_relative q_mp_uri : quiet.
  Lemma q_create c : keeps e I (create c).
  Proof. unfold create. quiet_tac. Qed.
  Lemma q_recover p : keeps e I (recover p).
  Proof. unfold recover. quiet_tac. Qed.
  Hint Resolve q_create q_recover : quiet.
  Lemma q_load_state c : keeps e I (load_state c).
  Proof. unfold load_state. quiet_tac. Qed.
  Lemma q_read_tals l : keeps e I (read_tals l).
  Proof.
    induction l; cbn; quiet_tac.
  Qed.
  Hint Resolve q_load_state q_read_tals : quiet.
  Lemma q_create_validator c : keeps e I (create_validator c).
  Proof. unfold create_validator. quiet_tac. Qed.
  Hint Resolve q_create_validator : quiet.
  Lemma q_reconfigure st c : keeps e I (reconfigure_validator st c).
  Proof. unfold reconfigure_validator. quiet_tac. Qed.
  Hint Resolve q_reconfigure : quiet.
  Lemma q_pre_validate st c : keeps e I (pre_validate st c).
  Proof. unfold pre_validate. quiet_tac. Qed.
  Lemma q_run_scripts l b : keeps e I (run_scripts l b).
  Proof.
    revert b. induction l as [|p l IH]; intros; cbn [run_scripts]; [quiet_tac|].
    apply keeps_bind; [auto with quiet|]. intros []; auto. quiet_tac.
  Qed.
  Hint Resolve q_pre_validate q_run_scripts : quiet.
  Lemma q_scripts c : keeps e I (pre_validate_scripts c).
  Proof. unfold pre_validate_scripts. quiet_tac. Qed.
  Lemma q_deprecate_now p : keeps e I (deprecate_now p).
  Proof. unfold deprecate_now. quiet_tac. Qed.
  Hint Resolve q_deprecate_now : quiet.
  Lemma q_deprecate_all l : keeps e I (deprecate_all l).
  Proof. induction l; cbn; quiet_tac. Qed.
  Hint Resolve q_deprecate_all : quiet.
  Lemma q_deprecate_snapshot st : keeps e I (deprecate_snapshot st).
  Proof. unfold deprecate_snapshot. quiet_tac. Qed.
  Lemma q_deltas_deprecate_before st k : keeps e I (deltas_deprecate_before st k).
  Proof. unfold deltas_deprecate_before. quiet_tac. Qed.
  Lemma q_deltas_deprecate_all st : keeps e I (deltas_deprecate_all st).
  Proof. unfold deltas_deprecate_all. quiet_tac. Qed.
  Lemma q_delta_infos m l : keeps e I (delta_infos m l).
  Proof. induction l; cbn; quiet_tac. Qed.
  Hint Resolve q_delta_infos : quiet.
  Lemma q_make_notification st : keeps e I (make_notification_file st).
  Proof. unfold make_notification_file. quiet_tac. Qed.
  Lemma q_rsync_recover c : keeps e I (rsync_recover c).
  Proof. unfold rsync_recover. quiet_tac. Qed.
  Lemma q_update_current s r : keeps e I (update_current s r).
  Proof. unfold update_current. quiet_tac. Qed.
End quiet.
#[export] Hint Resolve q_time_now q_seconds_ago q_read_file q_fetch_raw q_fetch q_try_into_data
  q_notif_content q_source_join q_map_source q_resolve_source q_read_notification_file q_tal_parse
  q_tal_validate_at q_read_bytes q_read_delta_file q_read_snapshot_file q_data_from_snapshot
  q_retrieve_new q_apply_deltas q_data_from_deltas q_get_latest q_validate_tree_at q_validate_ta_at
  q_validate_at q_validate q_initialise q_notif_source_build q_notif_source_fetch q_mappings_build
  q_mp_relative q_mp_uri q_create q_recover q_load_state q_read_tals q_create_validator q_reconfigure
  q_pre_validate q_run_scripts q_scripts q_deprecate_now q_deprecate_all q_deprecate_snapshot
  q_deltas_deprecate_before q_deltas_deprecate_all q_delta_infos q_make_notification q_rsync_recover
  q_update_current : quiet.
