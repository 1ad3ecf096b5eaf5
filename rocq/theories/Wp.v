(** * Reasoning about the effect monad: weakest preconditions with the trace *)
From Verif Require Export Monad.

(** [m], started in [w], only produces events satisfying [J] and ends in a
    result and world satisfying [Q]. *)
Definition wpt {A} (e : env) (J : event -> Prop) (m : M A) (w : world)
    (Q : res A -> world -> Prop) : Prop :=
  exists l, w_trace (m e w).2 = w_trace w ++ l /\ Forall J l /\ Q (m e w).1 (m e w).2.

Lemma wpt_elim {A} e J (m : M A) w Q : wpt e J m w Q -> Q (m e w).1 (m e w).2.
Proof. intros (l & _ & _ & H). exact H. Qed.

Lemma wpt_conseq {A} e (J J' : event -> Prop) (m : M A) w (Q Q' : res A -> world -> Prop) :
  wpt e J m w Q ->
  (forall ev, J ev -> J' ev) ->
  (forall r w', Q r w' -> Q' r w') ->
  wpt e J' m w Q'.
Proof.
  intros (l & Ht & Hl & Hq) HJ HQ. exists l. repeat split; auto.
  eapply Forall_impl; eauto.
Qed.

Lemma wpt_post {A} e (J : event -> Prop) (m : M A) w (Q Q' : res A -> world -> Prop) :
  wpt e J m w Q -> (forall r w', Q r w' -> Q' r w') -> wpt e J m w Q'.
Proof. intros H H'. eapply wpt_conseq; eauto. Qed.

Lemma wpt_and {A} e (J J' : event -> Prop) (m : M A) w (Q Q' : res A -> world -> Prop) :
  wpt e J m w Q -> wpt e J' m w Q' ->
  wpt e (fun ev => J ev /\ J' ev) m w (fun r w' => Q r w' /\ Q' r w').
Proof.
  intros (l & Ht & Hl & Hq) (l' & Ht' & Hl' & Hq').
  assert (l = l') by (rewrite Ht in Ht'; by apply app_inv_head in Ht').
  subst l'. exists l. repeat split; auto. apply Forall_and. split; assumption.
Qed.

Lemma wpt_ret {A} e J (a : A) w (Q : res A -> world -> Prop) :
  Q (Ok a) w -> wpt e J (mret a) w Q.
Proof. exists []. rewrite app_nil_r. repeat split; auto. Qed.
Lemma wpt_fail {A} e J x w (Q : res A -> world -> Prop) : Q (Err x) w -> wpt e J (fail x) w Q.
Proof. exists []. rewrite app_nil_r. repeat split; auto. Qed.
Lemma wpt_panic {A} e J w (Q : res A -> world -> Prop) : Q Panic w -> wpt e J panic w Q.
Proof. exists []. rewrite app_nil_r. repeat split; auto. Qed.

Lemma wpt_bind {A B} e J (m : M A) (k : A -> M B) w (Q : res B -> world -> Prop) :
  wpt e J m w (fun r w' =>
    match r with
    | Ok a => wpt e J (k a) w' Q
    | Err x => Q (Err x) w'
    | Panic => Q Panic w'
    end) ->
  wpt e J (m ≫= k) w Q.
Proof.
  intros (l & Ht & Hl & Hq). unfold wpt. unfold mbind, M_bind.
  destruct (m e w) as [[a|x|] w'] eqn:E; cbn in *.
  - destruct Hq as (l' & Ht' & Hl' & Hq). exists (l ++ l').
    rewrite Ht', Ht, app_assoc. repeat split; auto. by apply Forall_app.
  - exists l. auto.
  - exists l. auto.
Qed.

Lemma wpt_fmap {A B} e J (m : M A) (f : A -> B) w (Q : res B -> world -> Prop) :
  wpt e J m w (fun r w' =>
    match r with
    | Ok a => Q (Ok (f a)) w'
    | Err x => Q (Err x) w'
    | Panic => Q Panic w'
    end) ->
  wpt e J (f <$> m) w Q.
Proof.
  intros (l & Ht & Hl & Hq). unfold wpt, fmap, M_fmap.
  destruct (m e w) as [[a|x|] w'] eqn:E; cbn in *; exists l; auto.
Qed.

Lemma wpt_catch {A} e J (m : M A) w (Q : res (A + err) -> world -> Prop) :
  wpt e J m w (fun r w' =>
    match r with
    | Ok a => Q (Ok (inl a)) w'
    | Err x => Q (Ok (inr x)) w'
    | Panic => Q Panic w'
    end) ->
  wpt e J (catch m) w Q.
Proof.
  intros (l & Ht & Hl & Hq). unfold wpt, catch.
  destruct (m e w) as [[a|x|] w'] eqn:E; cbn in *; exists l; auto.
Qed.

Lemma wpt_of_option {A} e J x (o : option A) w (Q : res A -> world -> Prop) :
  (forall a, o = Some a -> Q (Ok a) w) -> (o = None -> Q (Err x) w) ->
  wpt e J (of_option x o) w Q.
Proof. destruct o; intros; [apply wpt_ret | apply wpt_fail]; auto. Qed.

Lemma wpt_getext e J w (Q : res ext -> world -> Prop) :
  Q (Ok (e_ext e)) w -> wpt e J getext w Q.
Proof. exists []. rewrite app_nil_r. repeat split; auto. Qed.
Lemma wpt_ask e J w (Q : res env -> world -> Prop) : Q (Ok e) w -> wpt e J ask w Q.
Proof. exists []. rewrite app_nil_r. repeat split; auto. Qed.
Lemma wpt_exists e J p w (Q : res bool -> world -> Prop) :
  Q (Ok (fs_exists (w_fs w) p)) w -> wpt e J (f_exists p) w Q.
Proof. exists []. rewrite app_nil_r. repeat split; auto. Qed.
Lemma wpt_is_file e J p w (Q : res bool -> world -> Prop) :
  Q (Ok (fs_is_file (w_fs w) p)) w -> wpt e J (f_is_file p) w Q.
Proof. exists []. rewrite app_nil_r. repeat split; auto. Qed.
Lemma wpt_is_dir e J p w (Q : res bool -> world -> Prop) :
  Q (Ok (fs_is_dir (w_fs w) p)) w -> wpt e J (f_is_dir p) w Q.
Proof. exists []. rewrite app_nil_r. repeat split; auto. Qed.

Lemma wpt_when e J (b : bool) m w (Q : res unit -> world -> Prop) :
  (b = true -> wpt e J m w Q) -> (b = false -> Q (Ok tt) w) -> wpt e J (when_ b m) w Q.
Proof. destruct b; intros H1 H2; [by apply H1 | by apply wpt_ret, H2]. Qed.
Lemma wpt_unless e J (b : bool) m w (Q : res unit -> world -> Prop) :
  (b = false -> wpt e J m w Q) -> (b = true -> Q (Ok tt) w) -> wpt e J (unless_ b m) w Q.
Proof. destruct b; intros H1 H2; [by apply wpt_ret, H2 | by apply H1]. Qed.

Lemma wpt_clock e (J : event -> Prop) w (Q : res Z -> world -> Prop) :
  J (EvClock (e_clock e (w_n w))) ->
  Q (Ok (e_clock e (w_n w))) (push_ev (EvClock (e_clock e (w_n w))) w) ->
  wpt e J clock w Q.
Proof. intros. eexists [_]. cbn. repeat split; eauto. Qed.
Lemma wpt_http e (J : event -> Prop) u m t w (Q : res http_reply -> world -> Prop) :
  J (EvHttp u m t) ->
  Q (Ok (e_http e (w_n w) u m t)) (push_ev (EvHttp u m t) w) ->
  wpt e J (http_get u m t) w Q.
Proof. intros. eexists [_]. cbn. repeat split; eauto. Qed.
Lemma wpt_script e (J : event -> Prop) p w (Q : res script_res -> world -> Prop) :
  J (EvScript p) ->
  Q (Ok (e_script e (w_n w) p)) (push_ev (EvScript p) w) ->
  wpt e J (run_script p) w Q.
Proof. intros. eexists [_]. cbn. repeat split; eauto. Qed.
Lemma wpt_sleep e (J : event -> Prop) s w (Q : res unit -> world -> Prop) :
  J (EvSleep s) -> Q (Ok tt) (push_ev (EvSleep s) w) -> wpt e J (sleep s) w Q.
Proof. intros. eexists [_]. cbn. repeat split; eauto. Qed.

Lemma wpt_read e J p w (Q : res string -> world -> Prop) :
  (forall b, op_read (w_fs w) p = Some b -> Q (Ok b) (push_fs [] w)) ->
  Q (Err EIo) (push_fs [] w) ->
  wpt e J (f_read p) w Q.
Proof.
  intros H1 H2. exists []. rewrite app_nil_r. unfold f_read.
  destruct (op_read (w_fs w) p) eqn:E; [destruct (e_fault e (w_n w) ORead)|];
    cbn; rewrite ?app_nil_r; repeat split; auto.
Qed.

(** A file system operation: every tree it shows satisfies [J]; it either
    completes, or stops at its start or at one of the trees shown. *)
Lemma wpt_fs_step e (J : event -> Prop) k f w (Q : res unit -> world -> Prop) :
  (f (w_fs w) = None -> Q (Err EIo) (push_fs [] w)) ->
  (forall mids fin, f (w_fs w) = Some (mids, fin) ->
     Forall (fun t => J (EvFs t)) (mids ++ [fin]) /\
     Q (Ok tt) (push_fs (mids ++ [fin]) w) /\
     forall j, e_fault e (w_n w) k = Some j -> Q (Err EIo) (push_fs (take j mids) w)) ->
  wpt e J (fs_step k f) w Q.
Proof.
  intros H1 H2. unfold fs_step, wpt.
  destruct (f (w_fs w)) as [[mids fin]|] eqn:E.
  - destruct (H2 mids fin eq_refl) as (HJ & HQ & HF).
    destruct (e_fault e (w_n w) k) as [j|] eqn:F; cbn.
    + exists (EvFs <$> take j mids). repeat split; auto.
      apply Forall_fmap. apply Forall_app in HJ as [HJ _].
      apply Forall_take. exact HJ.
    + exists (EvFs <$> (mids ++ [fin])). repeat split; auto. by apply Forall_fmap.
  - exists []. cbn. rewrite !app_nil_r. repeat split; auto.
Qed.

Lemma wpt_for_each {A} e J (l : list A) (f : A -> M unit) w
    (I : list A -> world -> Prop) (Q : res unit -> world -> Prop) :
  I l w ->
  (forall a l' w', I (a :: l') w' ->
     wpt e J (f a) w' (fun r w'' =>
       match r with Ok _ => I l' w'' | Err x => Q (Err x) w'' | Panic => Q Panic w'' end)) ->
  (forall w', I [] w' -> Q (Ok tt) w') ->
  wpt e J (for_each l f) w Q.
Proof.
  intros HI Hs Hq. revert w HI. induction l as [|a l IH]; intros w HI; cbn.
  - apply wpt_ret. auto.
  - apply wpt_bind. eapply wpt_post; [by apply Hs|]. intros [[]|x|] w'; auto.
Qed.

(** ** File system facts of worlds *)
Lemma push_fs_nil w : w_fs (push_fs [] w) = w_fs w.
Proof. reflexivity. Qed.
Lemma last_snoc_default {A} (l : list A) (a d : A) : List.last (l ++ [a]) d = a.
Proof. induction l as [|x [|y l] IH]; cbn in *; auto. Qed.
Lemma push_fs_snoc l f w : w_fs (push_fs (l ++ [f]) w) = f.
Proof. cbn. apply last_snoc_default. Qed.
Lemma push_ev_fs ev w : w_fs (push_ev ev w) = w_fs w.
Proof. reflexivity. Qed.
Lemma last_take_in {A} (P : A -> Prop) j (l : list A) (d : A) :
  P d -> Forall P l -> P (List.last (take j l) d).
Proof.
  intros Hd Hl. revert j. induction Hl as [|x l Hx Hl IH]; intros [|j]; cbn; auto.
  specialize (IH j). destruct (take j l) eqn:E; auto.
Qed.

(** ** Invariants of all trees of a run *)
Definition on_fs (I : fs -> Prop) (ev : event) : Prop :=
  match ev with EvFs f => I f | _ => True end.

(** An operation under an invariant. *)
Lemma wpt_fs_inv e (I : fs -> Prop) k f w (Q : res unit -> world -> Prop) :
  I (w_fs w) ->
  (forall mids fin, f (w_fs w) = Some (mids, fin) -> Forall I mids /\ I fin) ->
  (forall w', I (w_fs w') -> Q (Err EIo) w') ->
  (forall w' mids fin, f (w_fs w) = Some (mids, fin) -> w_fs w' = fin -> Q (Ok tt) w') ->
  wpt e (on_fs I) (fs_step k f) w Q.
Proof.
  intros Hi Hf He Hok. apply wpt_fs_step.
  - intros _. apply He. exact Hi.
  - intros mids fin E. destruct (Hf _ _ E) as [Hm Hfin]. split; [|split].
    + apply Forall_app. split; [exact Hm|]. by constructor.
    + eapply Hok; [exact E|]. apply push_fs_snoc.
    + intros j _. apply He. cbn. by apply last_take_in.
Qed.
