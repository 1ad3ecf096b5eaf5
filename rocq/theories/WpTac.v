(** * Automation for weakest preconditions *)
From Verif Require Export Keeps.

Lemma wpt_time_now e (J : event -> Prop) w (Q : res Z -> world -> Prop) :
  J (EvClock (e_clock e (w_n w))) ->
  Q (Ok (e_clock e (w_n w))) (push_ev (EvClock (e_clock e (w_n w))) w) ->
  wpt e J time_now w Q.
Proof. apply wpt_clock. Qed.
Lemma wpt_seconds_ago e (J : event -> Prop) s w (Q : res Z -> world -> Prop) :
  J (EvClock (e_clock e (w_n w))) ->
  Q (Ok (wrap64 (e_clock e (w_n w) - s))) (push_ev (EvClock (e_clock e (w_n w))) w) ->
  wpt e J (seconds_ago s) w Q.
Proof. intros. apply wpt_bind, wpt_time_now; [done|]. by apply wpt_ret. Qed.
Lemma wpt_read_file e J p w (Q : res string -> world -> Prop) :
  (forall b, op_read (w_fs w) p = Some b -> Q (Ok b) (push_fs [] w)) ->
  Q (Err EIo) (push_fs [] w) ->
  wpt e J (read_file p) w Q.
Proof. apply wpt_read. Qed.

(** [keeps] as a rule with any postcondition *)
Lemma wpt_keeps {A} e (I : fs -> Prop) (m : M A) w (Q : res A -> world -> Prop) :
  keeps e I m -> I (w_fs w) -> (forall r w', I (w_fs w') -> Q r w') -> wpt e (on_fs I) m w Q.
Proof. intros Hk HI HQ. eapply wpt_post; [by apply Hk|]. auto. Qed.

(** the trivial event condition *)
Notation anyev := (fun _ : event => True) (only parsing).
Lemma wpt_any {A} e (m : M A) w (Q : res A -> world -> Prop) J :
  wpt e J m w Q -> wpt e anyev m w Q.
Proof. intros H. eapply wpt_conseq; [exact H| |]; auto. Qed.

Lemma wpt_strengthen {A} e (J J' : event -> Prop) (m : M A) w (Q Q' : res A -> world -> Prop) :
  wpt e J m w Q -> wpt e J' m w Q' -> wpt e J m w (fun r w' => Q r w' /\ Q' r w').
Proof.
  intros H1 H2. eapply wpt_conseq; [exact (wpt_and _ _ _ _ _ _ _ H1 H2)| |]; [by intros ? []|done].
Qed.

Ltac wp1 :=
  lazymatch goal with
  | |- wpt _ _ (mbind _ _) _ _ => apply wpt_bind
  | |- wpt _ _ (fmap _ _) _ _ => apply wpt_fmap
  | |- wpt _ _ (mret _) _ _ => apply wpt_ret
  | |- wpt _ _ (fail _) _ _ => apply wpt_fail
  | |- wpt _ _ panic _ _ => apply wpt_panic
  | |- wpt _ _ (of_option _ _) _ _ => apply wpt_of_option; intros
  | |- wpt _ _ (catch _) _ _ => apply wpt_catch
  | |- wpt _ _ getext _ _ => apply wpt_getext
  | |- wpt _ _ ask _ _ => apply wpt_ask
  | |- wpt _ _ (f_exists _) _ _ => apply wpt_exists
  | |- wpt _ _ (f_is_file _) _ _ => apply wpt_is_file
  | |- wpt _ _ (f_is_dir _) _ _ => apply wpt_is_dir
  | |- wpt _ _ (f_read _) _ _ => apply wpt_read; intros
  | |- wpt _ _ (read_file _) _ _ => apply wpt_read_file; intros
  | |- wpt _ _ clock _ _ => apply wpt_clock
  | |- wpt _ _ time_now _ _ => apply wpt_time_now
  | |- wpt _ _ (seconds_ago _) _ _ => apply wpt_seconds_ago
  | |- wpt _ _ (http_get _ _ _) _ _ => apply wpt_http
  | |- wpt _ _ (run_script _) _ _ => apply wpt_script
  | |- wpt _ _ (sleep _) _ _ => apply wpt_sleep
  | |- wpt _ _ (when_ _ _) _ _ => apply wpt_when; intros
  | |- wpt _ _ (unless_ _ _) _ _ => apply wpt_unless; intros
  | |- wpt _ _ (let _ := _ in _) _ _ => cbv zeta
  end; lazy beta match.
