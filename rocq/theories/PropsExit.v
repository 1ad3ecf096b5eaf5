(** * What the exit status says: C76 *)
From Coq Require Import ZifyN ZifyNat ZifyBool.
From Verif Require Import Main Later RunDone ReadBack PropsRun PropsSource PropsKill PropsLock PropsPanic PropsCli DemoRun Refuted.
From Verif Require Import FsWf HistoryProofs PropsHistory.

(** ** What a failed run leaves of the record *)
Lemma strict_split b b' : b' ∈ strict_prefixes b -> exists r, b = b' +:+ r /\ r <> "".
Proof.
  revert b'. induction b as [|a b IH]; intros b' H; cbn [strict_prefixes] in H; [by apply elem_of_nil in H|].
  apply elem_of_cons in H as [->|H]; [by exists (String a b)|].
  apply elem_of_list_fmap in H as (b0 & -> & H). destruct (IH b0 H) as (r & E & Hr). exists r. split; [|done].
  change (String a b = String a (b0 +:+ r)). by rewrite <- E.
Qed.
Lemma last_elem {A} (l : list A) d : List.last l d = d \/ List.last l d ∈ l.
Proof.
  induction l as [|a l IH]; [by left|]. destruct l as [|b l]; [right; constructor|].
  change (List.last (a :: b :: l) d) with (List.last (b :: l) d).
  destruct IH as [IH|IH]; [by left|right; by constructor].
Qed.
(** a write that fails leaves the file alone or cut short *)
Lemma write_failed p b e w x w' : f_write p b e w = (Err x, w') ->
  w_fs w' !! p = w_fs w !! p \/ exists b' r, b = b' +:+ r /\ r <> "" /\ w_fs w' !! p = Some (File b' None).
Proof.
  unfold f_write, fs_step. destruct (op_write p b (w_fs w)) as [[mids fin]|] eqn:Eo; [|intros [= <- <-]; by left].
  assert (Hm : mids = (fun b' => <[p := File b' None]> (w_fs w)) <$> strict_prefixes b).
  { unfold op_write in Eo. destruct (fs_get (w_fs w) p) as [[| |]|]; try done; destruct (parent_is_dir _ _); try done; by injection Eo as <- <-. }
  destruct (e_fault e (w_n w) OWrite) as [j|]; [|done]. intros E. injection E as _ <-. unfold push_fs. cbn [w_fs].
  destruct (last_elem (take j mids) (w_fs w)) as [E|H]; [left; by rewrite E|right].
  apply elem_of_take in H as (i & H & _). apply elem_of_list_lookup_2 in H. revert H. generalize (List.last (take j mids) (w_fs w)). intros g H. rewrite Hm in H.
  apply elem_of_list_fmap in H as (b' & -> & H). destruct (strict_split _ _ H) as (r & -> & Hr).
  exists b', r. split; [done|]. split; [done|]. by rewrite lookup_insert.
Qed.
(** making the directories above a file does not touch it *)
Lemma mkdirs_keep p l e : Forall (fun q => q <> p) l -> forall w r w', for_each l f_mkdir e w = (r, w') -> w_fs w' !! p = w_fs w !! p.
Proof.
  induction 1 as [|q l Hq Hl IH]; intros w r w' H; cbn [for_each] in H; [by injection H as <- <-|].
  unfold mbind, M_bind in H. destruct (f_mkdir q e w) as [r1 w1] eqn:E1.
  assert (Hk : w_fs w1 !! p = w_fs w !! p).
  { unfold f_mkdir, fs_step, op_mkdir in E1. destruct (fs_get (w_fs w) q) as [[| |]|].
    - by injection E1 as <- <-.
    - destruct (e_fault e (w_n w) OMkdir); injection E1 as <- <-; unfold push_fs; cbn; [by rewrite take_nil|done].
    - by injection E1 as <- <-.
    - destruct (parent_is_dir (w_fs w) q); [|by injection E1 as <- <-].
      destruct (e_fault e (w_n w) OMkdir); injection E1 as <- <-; unfold push_fs; cbn; [by rewrite take_nil|].
      by rewrite lookup_insert_ne. }
  destruct r1 as [[]| |]; [|by injection H as <- <-..]. rewrite <- Hk. by apply (IH w1 r w').
Qed.
Lemma persist_failed st p e w r w' : persist st p e w = (r, w') -> r <> Ok tt ->
  w_fs w' !! p = w_fs w !! p \/ exists b' r, state_text st = b' +:+ r /\ r <> "" /\ w_fs w' !! p = Some (File b' None).
Proof.
  intros H Hr. unfold persist, write_buf, create_path_for_file, create_dir_all in H. unfold mbind, M_bind in H.
  destruct (path_parent p) as [d|] eqn:Ed; cbn [of_option] in H; [|injection H as <- <-; by left].
  unfold mret, M_ret in H.
  destruct (for_each (inits_from [] d) f_mkdir e w) as [r1 w1] eqn:E1.
  assert (Hk : w_fs w1 !! p = w_fs w !! p).
  { apply (mkdirs_keep p (inits_from [] d) e) with (r := r1); [|done]. apply Forall_forall. intros q Hq ->.
    apply inits_from_prefix in Hq as [_ Hq]. cbn in Hq. destruct p as [|a p]; [done|]. cbn [path_parent] in Ed. injection Ed as <-.
    apply prefix_length in Hq.
    assert (E : length (a :: p) = length (removelast (a :: p)) + 1).
    { rewrite (app_removelast_last (l := a :: p) a) at 1 by done. by rewrite app_length. }
    change (length (a :: p) <= length (removelast (a :: p))) in Hq. lia. }
  destruct r1 as [[]|x|]; [|injection H as <- <-; by left..].
  destruct r as [[]|x|]; [done| |].
  - rewrite <- Hk. by apply write_failed in H.
  - unfold f_write, fs_step in H. destruct (op_write _ _ _) as [[]|]; [destruct (e_fault e (w_n w1) OWrite)|]; done.
Qed.

(** the record after a run that did not succeed *)
Lemma failed_state c base name e f r w : sane c base name e f ->
  (forall st, starts_from c base name f st -> clean_check (st_validator st)) ->
  run c e f = (r, w) -> r <> Ok tt ->
  w_fs w !! rrdp_state_path c = f !! rrdp_state_path c \/ torn c (w_fs w).
Proof.
  intros Hs Hck Hrun Hr. pose proof (sn_cfg _ _ _ _ _ Hs) as Hc. unfold run in Hrun.
  rewrite process_front in Hrun. destruct (w_front c base name e f Hs) as (l & Ht & Hl & HP & HN & HS).
  unfold mbind, M_bind in Hrun. destruct (front c e (resume f)) as [r1 w1]. cbn [fst snd] in *.
  destruct r1 as [[st2|]|x|].
  - destruct (HS _ eq_refl) as (st & n0 & n & sg & f1 & v & st' & f2 & cb & f3 & Han).
    unfold back in Hrun. unfold mbind, M_bind in Hrun.
    pose proof (save_good c base name e f Hs _ _ _ _ _ _ _ _ _ _ _ _ Han) as Hg.
    assert (Hcl : clean_state st2).
    { eapply good_clean_state; [done|done|]. eapply save_check; [exact Han|]. apply Hck.
      apply (am_start _ _ _ _ _ _ _ _ _ _ (ac_move _ _ _ _ _ _ _ _ _ _ _ _ _ (ar_clean _ _ _ _ _ _ _ _ _ _ _ _ _ _ _ _ (an_rsync _ _ _ _ _ _ _ _ _ _ _ _ _ _ _ _ _ Han)))). }
    set (I := fun g => g = w_fs w1 \/ exists n, notif_of base st2 n /\ notifying c name (x_write_notif (e_ext e) n) (w_fs w1) g).
    assert (HI : forall g, I g -> g !! rrdp_state_path c = f !! rrdp_state_path c).
    { intros g [->|(n2 & _ & H)]; [by apply (front_sp c base name Hc e f Hs)|]. eapply (notify_sp c base name Hc e f Hs); [exact Han|exact H]. }
    assert (Hw : wpt e (on_fs I) (write_notification st2 (c_notify_delay c)) w1 (fun r w' => I (w_fs w'))).
    { apply (w_notify c base name Hc e st2 w1); [done|apply Han|done|]. intros w' n2 H1 H2 _. right. by exists n2. }
    apply wpt_elim in Hw. destruct (write_notification st2 (c_notify_delay c) e w1) as [r2 w2] eqn:E2. cbn [fst snd] in Hw.
    destruct r2 as [[]|x|]; [|injection Hrun as <- <-; left; by apply HI..].
    destruct (persist_failed _ _ _ _ _ _ Hrun Hr) as [E|(b & r' & E1 & Hne & E)].
    + left. rewrite E. by apply HI.
    + right. by exists st2, b, r'.
  - injection Hrun as <- <-. done.
  - injection Hrun as <- <-. left. by apply (front_sp c base name Hc e f Hs).
  - injection Hrun as <- <-. left. by apply (front_sp c base name Hc e f Hs).
Qed.

(** ** Before the run: main.rs:27-56 *)
Definition lock_up (c : config) : M unit :=
  ex ← f_exists (c_state_dir c);
  unless_ ex (create_dir_all (c_state_dir c)) ;;
  lock_ex ← f_exists (lock_path c);
  unless_ lock_ex (f_write (lock_path c) "").
Lemma try_main_eq c free e w :
  try_main c free e w = (lock_up c ;; if free then process c else fail ELocked) e w.
Proof.
  unfold try_main, lock_up, mbind, M_bind, f_exists.
  destruct (unless_ (fs_exists (w_fs w) (c_state_dir c)) (create_dir_all (c_state_dir c)) e w) as [[[]| |] w1]; done.
Qed.
Lemma lock_path_ne c : lock_path c <> [].
Proof. rewrite lock_path_eq. by destruct (c_state_dir c). Qed.
Lemma lock_up_ok c e f r w : wf f -> lock_up c e (resume f) = (r, w) ->
  prepared c f (w_fs w) /\ wf (w_fs w) /\ r <> Panic.
Proof.
  intros Hwf E. set (Q := fun (r : res unit) w' => (prepared c f (w_fs w') /\ wf (w_fs w')) /\ r <> Panic).
  assert (H : wpt e (fun _ => True) (lock_up c) (resume f) Q); [|apply wpt_elim in H; rewrite E in H; by destruct H as [[] ?]].
  assert (H0 : prepared c f f) by (intros p; by left).
  unfold lock_up. apply wpt_bind, wpt_exists, wpt_bind.
  apply (wpt_post _ _ _ _ Q).
  { destruct (fs_exists _ _); cbn [unless_]; [by apply wpt_ret|]. unfold create_dir_all.
    assert (Hl : Forall (fun q => q `prefix_of` c_state_dir c /\ q <> []) (inits_from [] (c_state_dir c))).
    { apply Forall_forall. intros q Hq. destruct (inits_from_prefix _ _ _ Hq) as [_ ?]. split; [done|]. by eapply inits_from_last. }
    assert (Hp0 : prepared c f (w_fs (resume f)) /\ wf (w_fs (resume f))) by done. revert Hl Hp0.
    generalize (inits_from [] (c_state_dir c)) (resume f). induction l as [|q l IH]; intros w0 Hl Hp; cbn [for_each].
    - by apply wpt_ret.
    - apply Forall_cons in Hl as [[Hq1 Hq2] Hl]. apply wpt_bind. unfold f_mkdir. apply wpt_fs_step; [by split|].
      intros mids fin Em. destruct Hp as [Hp Hpw]. destruct (prepared_mkdir c f _ q mids fin Hq1 Hq2 Hp Em) as [-> Hf]. cbn [app].
      split; [by repeat constructor|]. split.
      + apply IH; [done|]. split; [done|]. unfold op_mkdir in Em. cbn. rewrite fs_get_nonroot in Em by done.
        destruct (w_fs w0 !! q) as [[| |]|] eqn:Eq; try done; [by injection Em as <-|].
        destruct (parent_is_dir (w_fs w0) q) eqn:Epd; [|done]. injection Em as <-. by apply (wf_mk (fun _ => True)).
      + intros j _. rewrite take_nil. by split. }
  intros [[]|x|] w' [[Hw Hww] Hn]; [|by split|done]. apply wpt_bind, wpt_exists.
  destruct (fs_exists (w_fs w') (lock_path c)) eqn:Ex; cbn [unless_]; [by apply wpt_ret|].
  unfold f_write. apply wpt_fs_step; [by split|]. intros mids fin Ew. unfold op_write in Ew.
  unfold fs_exists, fs_stat in Ex. rewrite fs_get_nonroot in Ex, Ew by apply lock_path_ne.
  destruct (w_fs w' !! lock_path c) as [[| |]|] eqn:El; try done.
  destruct (parent_is_dir (w_fs w') (lock_path c)) eqn:Epd; [|done]. cbn in Ew. injection Ew as <- <-. cbn [app].
  split; [by repeat constructor|]. split; [|intros j _; rewrite take_nil; by split].
  split; [|done]. cbn. split.
  - intros p. destruct (decide (p = lock_path c)) as [->|Hne]; [|rewrite lookup_insert_ne by done; apply Hw].
    rewrite lookup_insert. right. rewrite <- lock_path_eq. split; [|auto].
    destruct (Hw (lock_path c)) as [Ey|(Ey & _)]; congruence.
  - apply (wf_wr (lock_path c) ""); [done|by exists ""|apply lock_path_ne|by left|done].
Qed.

(** krill-sync is started with the arguments [args], which mean [c], on the tree of a
    mirror.  (If the state directory or the lock file is missing it is made first.) *)
Record started (args : list string) (e : env) (f : fs) (c : config) (base name : string) : Prop := {
  sd_config : configure (e_ext e) f args = Start (Ok c);
  sd_mirror : same_mirror c base name (fun _ => c);
  sd_tree : mirror any_notif c base name f;
  sd_world : forall g, prepared c f g -> good_world c base name e g }.

Lemma prepared_owned c base name f g p : same_mirror c base name (fun _ => c) -> prepared c f g -> owned c p -> g !! p = f !! p.
Proof.
  intros Hsm Hp Ho. destruct (Hp p) as [E|(_ & [[_ H]|[_ H]])]; [done| |].
  - by destruct (state_prefix_not_owned c base name (fun _ => c) Hsm p H).
  - rewrite <- lock_path_eq in H. subst p. by destruct (lock_not_owned c base name (fun _ => c) Hsm).
Qed.

Lemma later_offers c d e g n : offers c (later d e) g n -> offers c e g n.
Proof.
  intros (src & b & H1 & H2 & H3). exists src, b. split; [done|]. split; [|done].
  unfold served in *. destruct src; [done|]. cbn in H2. naive_solver.
Qed.
Lemma later_world c base name d e g : good_world c base name e g -> good_world c base name (later d e) g.
Proof. intros [H1 H2]. split; [|done]. intros n Hn. apply H1. by eapply later_offers. Qed.

(** what becomes of it *)
Lemma main_run args free e f c base name x : started args e f c base name -> main args free e f = x ->
  (exists w, x = Exited 1 w /\ prepared c f (w_fs w)) \/
  (free = true /\ exists g d r w w', prepared c f g /\ setting c base name (later d e) g /\
     run c (later d e) g = (r, w') /\ w_fs w' = w_fs w /\
     x = match r with Ok _ => Exited 0 w | Err _ => Exited 1 w | Panic => Crashed w end).
Proof.
  intros [H1 H2 H3 H4] Hx. unfold main in Hx. rewrite H1, try_main_eq in Hx. unfold mbind, M_bind in Hx.
  assert (Hwf : wf f) by (by eapply (mirror_wf c base name (fun _ => c))).
  destruct (lock_up c e (resume f)) as [r1 [g t d]] eqn:E1. destruct (lock_up_ok _ _ _ _ _ Hwf E1) as (Hp & Hg & Hn). cbn [w_fs] in *.
  destruct r1 as [[]|x1|]; [|left; by exists (mkWorld g t d)|done].
  destruct free; [|left; by exists (mkWorld g t d)]. right. split; [done|].
  destruct (shifts_process c e d g 0 t []) as (r & f' & n' & l & S1 & S2). rewrite Nat.add_0_r in S1. rewrite S1 in Hx.
  exists g, d, r, (mkWorld f' (t ++ l) (d + n')), (mkWorld f' ([] ++ l) n'). split; [done|]. split; [|split; [done|split; [done|by destruct r]]].
  split; [apply (sm_cfg _ _ _ _ H2)| |by apply later_world, H4]. eapply (mi_else _ _ _ _ f); [done|done|].
  intros p Ho. by eapply prepared_owned.
Qed.

(** ** C76 *)
(** Exit status 0: the state file records a version.  Either the tree is as it was
    before, and the source said that it has nothing new, or its version is the
    recorded one; or the source's version is served now, and recorded. *)
Theorem C76_zero args free e f c base name w :
  started args e f c base name -> main args free e f = Exited 0 w ->
  free = true /\ exists g st, prepared c f g /\ starts_from c base name (w_fs w) st /\
    ((w_fs w = g /\
      ((exists src, located (e_ext e) (config_fetcher c) (c_notif_uri c) = Some src /\ says_304 e src (ns_etag (st_source st))) \/
       exists n s, offers c e g n /\ st_snap st = Some s /\ ss_session s = n_session n /\ ss_serial s = n_serial n)) \/
     exists n n', offers c e g n /\
       w_fs w !! notif_path c name = Some (File (x_write_notif (e_ext e) n') None) /\ notif_of base st n' /\
       n_session n' = n_session n /\ n_serial n' = n_serial n /\ n_snap_uri n' = n_snap_uri n /\ n_snap_hash n' = n_snap_hash n).
Proof.
  intros Hst Hm. destruct (main_run _ _ _ _ _ _ _ _ Hst Hm) as [(w0 & H & _)|(Hf & g & d & r & w0 & w' & Hp & Hset & Hrun & Ew & Hx)]; [done|].
  split; [done|]. exists g. destruct r as [[]|x|]; [|done..]. injection Hx as <-. rewrite <- Ew. clear Ew.
  pose proof (setting_sane _ _ _ _ _ Hset) as Hs. pose proof (sn_cfg _ _ _ _ _ Hs) as Hc.
  destruct (run_story c base name (later d e) g Hs _ w' Hrun)
    as [[_ H]|(st & n0 & n & sg & f1 & v & st' & f2 & cb & st2 & f3 & f4 & n' & H1 & (s & Es & ->) & _ & H)].
  - destruct (H eq_refl) as (E & st & Hs0 & Hnn). exists st. split; [done|]. rewrite E. split; [done|]. left. split; [done|].
    destruct Hnn as [(src & E1 & (u & m & k & hdr & b & E2 & E3))|(n0 & n & [Ho Hsv] & Hcv)].
    + left. exists src. split; [exact E1|]. cbn in E3. by exists u, m, (d + k), hdr, b.
    + right. destruct (sav_same _ _ _ _ _ Hsv) as (E1 & E2 & _).
      unfold compare_version in Hcv. destruct (st_snap st) as [s|]; [|done].
      case_bool_decide as Hse; [|done]. cbn in Hcv. destruct (N.compare_spec (ss_serial s) (n_serial n)); [|done..].
      exists n0, s. rewrite <- E1, <- E2. split; [by apply (later_offers c d)|done].
  - destruct (H eq_refl) as (f5 & A1 & A2 & A3). clear H.
    assert (Hcl : clean_state st2).
    { eapply good_clean_state; [done|by eapply save_good|]. eapply save_check; [exact H1|]. eapply setting_check; [exact Hset|].
      apply (am_start _ _ _ _ _ _ _ _ _ _ (ac_move _ _ _ _ _ _ _ _ _ _ _ _ _ (ar_clean _ _ _ _ _ _ _ _ _ _ _ _ _ _ _ _ (an_rsync _ _ _ _ _ _ _ _ _ _ _ _ _ _ _ _ _ H1)))). }
    exists (norm_state st2). split; [done|]. split; [by apply text_starts|]. right.
    pose proof (an_rsync _ _ _ _ _ _ _ _ _ _ _ _ _ _ _ _ _ H1) as Hr.
    destruct (new_deltas c base name _ g _ _ _ _ _ _ _ _ _ _ _ Hr) as [_ Es2]. rewrite Es in Es2. injection Es2 as ->.
    pose proof (am_staged _ _ _ _ _ _ _ _ _ _ (ac_move _ _ _ _ _ _ _ _ _ _ _ _ _ (ar_clean _ _ _ _ _ _ _ _ _ _ _ _ _ _ _ _ Hr))) as Hstg.
    destruct (so_source _ _ _ _ _ _ _ _ Hstg) as [Ho Hsv]. destruct (sav_same _ _ _ _ _ Hsv) as (E1 & E2 & E3 & E4).
    destruct (so_snap _ _ _ _ _ _ _ _ Hstg) as (S1 & S2 & S3 & S4 & _).
    exists n0. eexists. split; [by apply (later_offers c d)|].
    split; [rewrite (save_N c base name Hc _ _ _ A2); apply A1|]. split; [by eexists|]. cbn. by rewrite S1, S2, S3, <- S4.
Qed.

(** Any other ending: the recorded state is as before, or it cannot be read any
    more; and the notification is as before, or a complete new one. *)
Theorem C76_failed args free e f c base name w :
  started args e f c base name -> main args free e f = Exited 1 w \/ main args free e f = Crashed w ->
  (same_record c base name f (w_fs w) \/ unusable c (w_fs w)) /\
  (w_fs w !! notif_path c name = f !! notif_path c name \/
   exists n, w_fs w !! notif_path c name = Some (File (x_write_notif (e_ext e) n) None)).
Proof.
  intros Hst Hm. pose proof (sd_mirror _ _ _ _ _ _ Hst) as Hsm. pose proof (sm_cfg _ _ _ _ Hsm) as Hc.
  assert (Hl : forall t, f !! rrdp_state_path c <> Some (Link t)) by apply (mirror_own _ _ _ _ _ Hc (sd_tree _ _ _ _ _ _ Hst)).
  assert (Hsp : forall g, g !! rrdp_state_path c = f !! rrdp_state_path c -> same_record c base name f g).
  { intros g E st. split; intros H.
    - by apply (starts_plain c base name f g).
    - apply (starts_plain c base name g f); [by symmetry| |done]. intros t. rewrite E. apply Hl. }
  assert (Hp1 : forall g, prepared c f g -> g !! rrdp_state_path c = f !! rrdp_state_path c).
  { intros g Hp. eapply prepared_owned; [done|done|]. apply owned_sp. }
  assert (Hp2 : forall g, prepared c f g -> g !! notif_path c name = f !! notif_path c name).
  { intros g Hp. eapply prepared_owned; [done|done|]. right. left. by exists [name]. }
  assert (Hcase : (exists w0, (Exited 1 w0 = Exited 1 w \/ Exited 1 w0 = Crashed w) /\ prepared c f (w_fs w0)) \/
    exists g d r w', prepared c f g /\ setting c base name (later d e) g /\ run c (later d e) g = (r, w') /\ w_fs w' = w_fs w /\ r <> Ok tt).
  { destruct (main_run args free e f c base name _ Hst eq_refl) as [(w0 & H & Hp)|(_ & g & d & r & w0 & w' & Hp & Hset & Hrun & Ew & Hx)].
    - left. exists w0. rewrite H in Hm. auto.
    - right. exists g, d, r, w'. split; [done|]. split; [done|]. split; [done|]. rewrite Hx in Hm.
      destruct r as [[]|x|], Hm as [E|E]; try discriminate E; injection E as <-; done. }
  clear Hm. destruct Hcase as [(w0 & [E|E] & Hp)|(g & d & r & w' & Hp & Hset & Hrun & Ew & Hr)]; [injection E as ->|done|].
  - split; [left; by apply Hsp, Hp1|left; by apply Hp2].
  - rewrite <- Ew. split.
    + destruct (failed_state c base name (later d e) g r w' (setting_sane _ _ _ _ _ Hset)) as [E|E]; [|done|done| |].
      * intros st H. by eapply setting_check.
      * left. apply Hsp. rewrite E. by apply Hp1.
      * right. by apply torn_unusable.
    + destruct (C02_atomic c base name (later d e) g Hset) as [n Hn].
      assert (Hi : w_fs w' ∈ instants c (later d e) g).
      { pose proof (after_instant c (later d e) g) as H. unfold after in H. by rewrite Hrun in H. }
      destruct (Hn _ Hi) as [E|E]; [left; rewrite E; by apply Hp2|right; by exists n].
Qed.

(** If another process holds the lock: status 1, and nothing but the state directory
    and the lock file may have been made. *)
Theorem C76_busy args e f c : wf f -> configure (e_ext e) f args = Start (Ok c) ->
  exists w, main args false e f = Exited 1 w /\ Forall (only_prepares c f) (w_trace w).
Proof.
  intros Hwf H. unfold main. rewrite H. destruct (try_main c false e (resume f)) as [r w] eqn:E.
  destruct (C42_try_main _ _ _ _ _ E) as [H1 H2]. rewrite try_main_eq in E. unfold mbind, M_bind in E.
  destruct (lock_up c e (resume f)) as [r1 w1] eqn:E1. destruct (lock_up_ok _ _ _ _ _ Hwf E1) as (_ & _ & Hn).
  destruct r1 as [[]|x|]; [| |done]; injection E as <- <-; by exists w1.
Qed.

(** A crash: only with a limit of no deltas, or for a chain of certificates that is
    longer than the stack allows (see C58). *)
Theorem C76_crash args free e f c base name w :
  started args e f c base name -> order_ok (e_ext e) -> main args free e f = Crashed w ->
  (c_max_deltas c = Some 0 /\ exists g n, prepared c f g /\ offers c e g n /\ n_deltas n <> []) \/
  (exists k v p t ta rc, p ∈ c_tal_files c /\ tl_name t = path_str p /\
     ta_of e (w_fs w) (e_clock e k) t ta /\ nsteps (kid (e_ext e) (e_clock e k) v) (e_stack e) ta rc).
Proof.
  intros Hst Ho Hm. destruct (main_run _ _ _ _ _ _ _ _ Hst Hm) as [(w0 & H & _)|(Hf & g & d & r & w0 & w' & Hp & Hset & Hrun & Ew & Hx)]; [done|].
  destruct r as [[]|x|]; [done..|]. injection Hx as <-. rewrite <- Ew.
  destruct (C58_panic_only c (later d e) g w' Ho Hrun) as [(H1 & n & H2 & H3)|(k & v & p & t & ta & rc & H1 & H2 & H3 & H4)].
  - left. split; [done|]. exists g, n. split; [done|]. split; [by apply (later_offers c d)|done].
  - right. exists (d + k), v, p, t, ta, rc. split; [done|]. split; [done|]. split; [|exact H4].
    destruct H3 as (b & cc & S1 & S2). exists b, cc. split; [|exact S2]. unfold served in *. destruct (tl_source t); [done|]. cbn in S1. naive_solver.
Qed.

(** ** Examples *)
Definition exit_args : list string :=
  ["--state-dir=/var/ks"; "--rrdp-dir=/srv/rrdp"; "--rsync-dir=/srv/rsync"; "--rrdp-max-deltas=100"; "--cleanup-after=7200"; notif_uri].
Lemma exit_config f : configure safe_ext f exit_args = Start (Ok demo_config).
Proof. reflexivity. Qed.
Definition fault_at (k : nat) (e : env) : env :=
  mkEnv (e_ext e) (e_http e) (e_clock e) (fun n op => match op with OWrite => if Nat.eqb n k then Some 1 else None | _ => e_fault e n op end) (e_script e) (e_stack e).
Lemma fault_world k e c base name f : good_world c base name e f -> good_world c base name (fault_at k e) f.
Proof. by intros [H1 H2]. Qed.
Lemma exit_started i f : i <= 2 -> mirror any_notif demo_config base name f -> started exit_args (env3 i) f demo_config base name.
Proof.
  intros Hi Hm. split; [apply exit_config|split; [exact demo_cfg_ok|done|done|done]|done|]. intros g _. by apply env3_good.
Qed.
Lemma exit_fault k i f : started exit_args (env3 i) f demo_config base name -> started exit_args (fault_at k (env3 i)) f demo_config base name.
Proof. intros [H1 H2 H3 H4]. split; [exact H1|done|done|]. intros g Hg. by apply fault_world, H4. Qed.

Definition exits (x : ending) (n : N) (q : fs -> bool) : bool :=
  match x with Exited s w => N.eqb s n && q (w_fs w) | _ => false end.
Lemma exits_ok x n q : exits x n q = true -> exists w, x = Exited n w /\ q (w_fs w) = true.
Proof.
  unfold exits. destruct x as [s w|w| |]; try done. intros H. apply andb_true_iff in H as [H1%N.eqb_eq H2]. subst s. by exists w.
Qed.
Definition new_notif (g : fs) : bool := at_b g (notif_path demo_config name) (Some (File (x_write_notif safe_ext (src3 1)) None)).
Definition bad_write : env := fault_at 82 (env3 1).
Definition exit_check : bool :=
  exits (main exit_args true (env3 1) t3_1) 0 new_notif &&
  exits (main exit_args true bad_write t3_1) 1 (fun g => new_notif g && at_b g (rrdp_state_path demo_config) (Some (File "" None))) &&
  exits (main exit_args false (env3 1) t3_1) 1 (fun g => negb (new_notif g)) && negb (new_notif t3_1).
Lemma exit_checked : exit_check = true.
Proof. vme. Qed.
Record exit_facts : Prop := {
  xf_ok : exists w, main exit_args true (env3 1) t3_1 = Exited 0 w /\ new_notif (w_fs w) = true;
  xf_bad : exists w, main exit_args true bad_write t3_1 = Exited 1 w /\ new_notif (w_fs w) = true /\
    w_fs w !! rrdp_state_path demo_config = Some (File "" None);
  xf_busy : exists w, main exit_args false (env3 1) t3_1 = Exited 1 w;
  xf_old : new_notif t3_1 = false }.
Lemma exit_ok : exit_facts.
Proof.
  pose proof exit_checked as H. unfold exit_check in H.
  apply andb_true_iff in H as [H H4]. apply andb_true_iff in H as [H H3]. apply andb_true_iff in H as [H1 H2].
  split.
  - exact (exits_ok _ _ _ H1).
  - destruct (exits_ok _ _ _ H2) as (w & E & Hw). apply andb_true_iff in Hw as [Hw1 Hw2]. exists w.
    split; [exact E|]. split; [exact Hw1|exact (at_ok _ _ _ Hw2)].
  - destruct (exits_ok _ _ _ H3) as (w & E & _). exists w. exact E.
  - exact (proj1 (negb_true_iff (new_notif t3_1)) H4).
Qed.

(** Exit status 1 does not mean that nothing was published: when the state file
    cannot be written, the new version is served, and no run gets anywhere until the
    state file is removed. *)
Theorem C76_unpublished_refuted : exists args e f c base name w n,
  started args e f c base name /\ main args true e f = Exited 1 w /\
  w_fs w !! notif_path c name = Some (File (x_write_notif (e_ext e) n) None) /\
  f !! notif_path c name <> Some (File (x_write_notif (e_ext e) n) None) /\ unusable c (w_fs w).
Proof.
  destruct exit_ok as [_ (w & H1 & H2 & H3) _ H4].
  exists exit_args, bad_write, t3_1, demo_config, base, name, w, (src3 1).
  split; [apply exit_fault, exit_started; [exact (le_S _ _ (le_n 1))|exact (mirror3 1 (le_S _ _ (le_S _ _ (le_n 1))))]|].
  split; [exact H1|]. split; [exact (at_ok _ _ _ H2)|]. split.
  - unfold new_notif, at_b in H4. apply bool_decide_eq_false in H4. exact H4.
  - intros c' e' Hs. apply (C04_bad_state c' e' (w_fs w) ""); [|reflexivity].
    unfold rrdp_state_path. rewrite <- Hs. exact (proj1 (read_file_at _ _ _ _ (state_path_ne demo_config) H3)).
Qed.
(** a run with something new, a second process, and a first run: nothing is there yet *)
Example C76_applies : started exit_args (env3 1) t3_1 demo_config base name /\
  (exists w, main exit_args true (env3 1) t3_1 = Exited 0 w) /\ (exists w, main exit_args false (env3 1) t3_1 = Exited 1 w) /\
  started exit_args (env3 0) start_tree demo_config base name.
Proof.
  destruct exit_ok as [(w & H1 & _) _ H3 _].
  split; [apply exit_started; [exact (le_S _ _ (le_n 1))|exact (mirror3 1 (le_S _ _ (le_S _ _ (le_n 1))))]|].
  split; [exists w; exact H1|]. split; [exact H3|].
  apply exit_started; [exact (Nat.le_0_l 2)|exact (mirror3 0 (Nat.le_0_l 3))].
Qed.

Print Assumptions C76_zero.
Print Assumptions C76_failed.
Print Assumptions C76_busy.
Print Assumptions C76_crash.
Print Assumptions C76_unpublished_refuted.
