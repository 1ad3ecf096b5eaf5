(** * What can make a run panic: C58

    A panic is an abort of the program other than with an error.  [order_ok] says
    of the unspecified order in which manifest entries are visited that it
    visits each entry once. *)
From Coq Require Import ZifyN ZifyNat ZifyBool.
From Verif Require Import PropsHistory PropsSource PropsDecide PropsValidator DemoRun Refuted.
From Verif Require Import Fails UriProofs FsWf.

(** ** Parts that never panic *)
Notation calm m := (fails (fun _ => True) m).
Lemma calm_wpt {A} (m : M A) : (forall e w, wpt e (fun _ => True) m w (fun r _ => r <> Panic)) -> calm m.
Proof. intros H e w. pose proof (wpt_elim _ _ _ _ _ (H e w)) as HQ. by destruct (m e w).1. Qed.
Lemma calm_elim {A} (m : M A) e w w' : calm m -> m e w = (Panic, w') -> False.
Proof. intros H E. specialize (H e w). by rewrite E in H. Qed.

Lemma calm_read_file p : calm (read_file p).
Proof. unfold read_file. fails_tac. Qed.
Lemma calm_resolve f u : calm (resolve_source f u).
Proof. unfold resolve_source, map_source, source_join. fails_tac. Qed.
Lemma calm_http u m t : calm (http_get u m t).
Proof. done. Qed.
Lemma calm_fetch s h t p : calm (fetch s h t p).
Proof.
  unfold fetch, fetch_raw. fails_tac; first [apply calm_http|apply calm_read_file|by apply fl_write_buf].
Qed.
Lemma calm_notif f t : calm (read_notification_file f t).
Proof.
  apply calm_wpt. intros e w. apply w_read_notification; try done. intros [|] _; done.
Qed.
Lemma calm_retrieve f u h p : calm (retrieve_file f u h p).
Proof. unfold retrieve_file. fails_tac; first [apply calm_read_file|apply calm_resolve|apply calm_fetch]. Qed.
Lemma calm_bytes f u h : calm (read_bytes f u h).
Proof. unfold read_bytes, try_into_data. fails_tac; first [apply calm_resolve|apply calm_fetch|idtac]. Qed.
Lemma calm_snapshot n t f when : calm (data_from_snapshot n t f when).
Proof. unfold data_from_snapshot, read_snapshot_file. fails_tac; apply calm_bytes. Qed.
Lemma calm_apply f l : forall s o, calm (apply_deltas f l s o).
Proof.
  induction l as [|d l IH]; intros s o; cbn [apply_deltas]; unfold read_delta_file; fails_tac; first [apply calm_bytes|apply IH].
Qed.
Lemma calm_deltas n t d f when : calm (data_from_deltas n t d f when).
Proof.
  unfold data_from_deltas. destruct (negb _); [fails_tac|]. intros e w. unfold mbind, M_bind, getext.
  destruct (sort_and_verify (e_ext e) None n) as [[n' fine]|] eqn:E; [|by apply sort_and_verify_nolimit in E].
  revert e w E. intros e w _. revert e w. change (calm (if negb fine then fail EDelta else match n_deltas n' with
    | [] => fail EDelta
    | first :: _ => if (rd_serial d + 1 <? di_serial first)%N then fail EDelta
                    else '(serial, o) ← apply_deltas f (n_deltas n') (rd_serial d) (rd_objects d);
                         mret (mkRD t when true (rd_session d) serial o) end)).
  fails_tac. all: try apply calm_apply.
Qed.
Lemma calm_latest v u off when : calm (get_latest v u off when).
Proof.
  unfold get_latest, retrieve_new_repository, notif_content.
  fails_tac; first [apply calm_notif|apply calm_snapshot|apply calm_deltas|idtac].
Qed.
Lemma calm_tals l : calm (read_tals l).
Proof. induction l; cbn [read_tals]; unfold tal_parse; fails_tac; first [apply calm_read_file|idtac]. Qed.
Lemma calm_init v u : calm (initialise_staging_data v u).
Proof. unfold initialise_staging_data. fails_tac; apply calm_latest. Qed.
Lemma calm_create c : calm (create_validator c).
Proof. unfold create_validator. fails_tac. apply calm_tals. Qed.
Lemma calm_reconfigure st c : calm (reconfigure_validator st c).
Proof.
  unfold reconfigure_validator. fails_tac; first [apply calm_create|apply calm_init].
Qed.
Lemma calm_run_scripts l : forall b, calm (run_scripts l b).
Proof.
  induction l as [|p l IH]; intros b; cbn [run_scripts]; fails_tac; first [apply IH|done].
Qed.
Lemma calm_scripts c : calm (pre_validate_scripts c).
Proof. unfold pre_validate_scripts. fails_tac. apply calm_run_scripts. Qed.

(** ** The parent of a URI is a beginning of it *)
Lemma cut_at_slash_app s : (cut_at_slash s).1 +:+ (cut_at_slash s).2 = s.
Proof.
  induction s as [|a s IH]; [done|]. cbn [cut_at_slash]. destruct (Ascii.eqb a slash); [done|].
  destruct (cut_at_slash s) as [l r]. cbn [fst snd] in *. rewrite <- IH. done.
Qed.
Lemma chop_slash_app s : exists r, s = chop_slash s +:+ r.
Proof.
  induction s as [|a s [r IH]]; [by exists ""|]. destruct s as [|b s].
  - cbn. destruct (Ascii.eqb a slash); [by exists (String a "")|by exists ""].
  - exists r. change (chop_slash (String a (String b s))) with (String a (chop_slash (String b s))). change (String a (chop_slash (String b s)) +:+ r) with (String a (chop_slash (String b s) +:+ r)). by rewrite <- IH.
Qed.
Lemma https_parent_prefix u b : https_parent u = Some b -> exists r, u = b +:+ r.
Proof.
  unfold https_parent, https_split. destruct (strip_prefix "https://" u) as [rest|] eqn:E; [|done].
  apply strip_prefix_spec in E as ->. pose proof (cut_at_slash_app rest) as Hc.
  destruct (cut_at_slash rest) as [auth p]. cbn [fst snd mbind option_bind] in *.
  destruct (chop_slash_app p) as [r Hr].
  destruct (rsplit_once slash (chop_slash p)) as [[l q]|] eqn:E; [|done]. intros [= <-].
  apply rsplit_once_spec in E as [E _]. rewrite <- Hc, Hr, E. exists (q +:+ r).
  by rewrite !sapp_assoc.
Qed.
Lemma calm_load c : calm (load_state c).
Proof.
  unfold load_state, create, recover, mappings_build. fails_tac; try apply calm_read_file.
  intros e w. unfold notif_source_build, mbind, M_bind. destruct (https_parent (c_notif_uri c)) as [b|] eqn:E; [|done].
  apply https_parent_prefix in E as [r ->]. cbn. by rewrite strip_prefix_app.
Qed.
Lemma load_same_tree c e w : w_fs (load_state c e w).2 = w_fs w.
Proof.
  assert (H : keeps e (fun g => g = w_fs w) (load_state c)).
  { unfold load_state, recover, create, mappings_build, notif_source_build. quiet_tac. }
  exact (wpt_elim _ _ _ _ _ (H w eq_refl)).
Qed.
Lemma calm_stage_snapshot st n f c : calm (snapshot_stage st n f c).
Proof. unfold snapshot_stage, mp_relative, time_now. fails_tac. apply calm_retrieve. Qed.
Lemma calm_stage_deltas st r f c l : calm (deltas_stage st r f c l).
Proof. induction l; cbn [deltas_stage]; unfold mp_relative, time_now; fails_tac. apply calm_retrieve. Qed.

(** ** C58 *)
Lemma sav_panic x lim n : sort_and_verify x lim n = None -> lim = Some 0 /\ n_deltas n <> [].
Proof.
  unfold sort_and_verify. destruct (n_deltas n) as [|d l] eqn:E; [done|]. rewrite <- E.
  assert (Hl : length (sort_by_key di_serial (n_deltas n)) = S (length l)).
  { rewrite (Permutation_length (sort_by_key_perm _ _)). by rewrite E. }
  destruct lim as [k|]; cbn [limit_deltas].
  - destruct (k <? _)%nat eqn:Hk.
    + destruct (drop _ _) eqn:Ed; [|done]. apply (f_equal length) in Ed. rewrite drop_length in Ed. cbn in Ed.
      intros _. split; [f_equal; lia|by rewrite E].
    + destruct (sort_by_key di_serial (n_deltas n)); [done|done].
  - destruct (sort_by_key di_serial (n_deltas n)); done.
Qed.
Lemma fetched_offers c e s w n t w' :
  notif_source_fetch s (config_fetcher c) e w = (Ok (Some (n, t)), w') -> offers c e (w_fs w) n.
Proof.
  unfold notif_source_fetch, mbind, M_bind.
  destruct (read_notification_file (config_fetcher c) (ns_etag s) e w) as [r w1] eqn:E.
  destruct r as [[n1 t1|]| |]; [|done..]. intros [= -> _ _].
  assert (H : wpt e anyev (read_notification_file (config_fetcher c) (ns_etag s)) w (fun r _ => forall n t,
    r = Ok (NData n t) -> offers c e (w_fs w) n)).
  { apply w_read_notification; try done.
    - intros src _. by destruct src.
    - intros w2 src b n2 t2 _ Hl Hb Hp n3 t3 [= <- _]. by exists src, b. }
  apply wpt_elim in H. rewrite E in H. by eapply H.
Qed.
Lemma staging_panic c e st w w' : update_staged st c e w = (Panic, w') ->
  c_max_deltas c = Some 0 /\ exists n, offers c e (w_fs w) n /\ n_deltas n <> [].
Proof.
  unfold update_staged. unfold mbind at 1, M_bind at 1. destruct (notif_source_fetch (st_source st) (config_fetcher c) e w) as [r w1] eqn:E.
  destruct r as [[[n0 t]|]| |]; [|done|done|].
  2: { intros _. exfalso. revert E. apply calm_elim. unfold notif_source_fetch. fails_tac. apply calm_notif. }
  unfold mbind at 1, M_bind at 1, getext at 1.
  destruct (sort_and_verify (e_ext e) (c_max_deltas c) n0) as [[n fine]|] eqn:Ev.
  - intros E'. exfalso. revert E'. apply calm_elim. fails_tac; first [by apply fl_write_buf|apply calm_stage_snapshot|apply calm_stage_deltas].
  - intros _. apply sav_panic in Ev as [? ?]. split; [done|]. exists n0. split; [|done]. by eapply fetched_offers.
Qed.

Lemma read_tals_names l : forall e w tals w', read_tals l e w = (Ok tals, w') -> tl_name <$> tals = path_str <$> l.
Proof.
  induction l as [|p l IH]; intros e w tals w'; cbn [read_tals]; [by intros [= <- _]|].
  unfold mbind, M_bind. destruct (read_file p e w) as [[b| |] w1]; [|done..].
  destruct (tal_parse (path_str p) b None e w1) as [[t| |] w2] eqn:Et; [|done..].
  destruct (read_tals l e w2) as [[r| |] w3] eqn:Er; [|done..]. intros [= <- _]. cbn. f_equal; [|by eapply IH].
  revert Et. unfold tal_parse, mbind, M_bind, getext, of_option. repeat case_match; try done; by intros [= <- _].
Qed.
Lemma pre_validate_panic c e st w w' : order_ok (e_ext e) -> pre_validate st c e w = (Panic, w') ->
  exists k v p t ta rc, p ∈ c_tal_files c /\ tl_name t = path_str p /\
    ta_of e (w_fs w') (e_clock e k) t ta /\ nsteps (kid (e_ext e) (e_clock e k) v) (e_stack e) ta rc.
Proof.
  intros Ho. unfold pre_validate, mbind, M_bind.
  destruct (reconfigure_validator st c e w) as [[st1| |] w1] eqn:Er; [|done|].
  2: { intros _. exfalso. revert Er. apply calm_elim, calm_reconfigure. }
  destruct (st_validator st1) as [v|] eqn:Ev; [|done].
  destruct (validate v (c_offline c) e w1) as [[[v' rep]| |] w2] eqn:Eva; [repeat case_match; done|done|].
  intros [= <-]. revert Eva. unfold validate, mbind, M_bind, clock.
  set (k := w_n w1). set (w1' := push_ev _ w1). intros Eva.
  assert (H : wpt e anyev (validate_at v (c_offline c) (e_clock e k)) w1' (fun r w' => w_fs w' = w_fs w1 /\
    (r = Panic -> exists v' t ta rc, t ∈ vd_tals v /\ ta_of e (w_fs w1) (e_clock e k) t ta /\
      nsteps (kid (e_ext e) (e_clock e k) v') (e_stack e) ta rc))).
  { apply w_validate_at; try done.
    - intros _. split; [done|]. intros u u' [] t'; done.
    - intros t _. by destruct (tl_source t).
    - intros w' v' t ta rc Hw _ Ht Hta Hn. split; [done|]. intros _. by exists v', t, ta, rc. }
  destruct (wpt_run _ _ _ _ _ _ _ H Eva) as (_ & _ & _ & E4 & H'). destruct (H' eq_refl) as (v' & t & ta & rc & Ht & Hta & Hn).
  assert (Hne : c_tal_files c <> []).
  { intros E0. unfold reconfigure_validator in Er. rewrite E0 in Er. cbn in Er. injection Er as <- _. done. }
  destruct (C39_reuse st c e w st1 w1 Hne Er) as (tals & b & v0 & v1 & w3 & Hr & _ & C1 & C2 & Hi & ->).
  injection Ev as ->.
  assert (Hv : vd_tals v = vd_tals v0).
  { revert Hi. unfold initialise_staging_data, mbind, M_bind. repeat case_match; try done. by intros [= <- _]. }
  assert (Ht' : vd_tals v0 = tals).
  { destruct (st_validator st) as [old|] eqn:Eo.
    - destruct (decide (equivalent old (validator_new tals [staged_fetcher c b]) = true)) as [Hf%equivalent_fits|Hf].
      + rewrite (C1 _ eq_refl Hf). apply Hf.
      + destruct C2 as [H2 _]; [|done]. intros o [= <-] Hf'. by apply Hf, equivalent_fits.
    - destruct C2 as [H2 _]; [|done]. done. }
  assert (Hp : tl_name t ∈ path_str <$> c_tal_files c).
  { rewrite <- (read_tals_names _ _ _ _ _ Hr). apply elem_of_list_fmap. exists t. split; [done|]. by rewrite <- Ht', <- Hv. }
  apply elem_of_list_fmap in Hp as (p & Ep & Hp). exists k, v', p, t, ta, rc. by rewrite E4.
Qed.

(** A run panics only if deltas are limited to none although the source lists
    some, or if a chain of certificates, below a trust anchor that is configured,
    is longer than the stack allows. *)
Theorem C58_panic_only c e f w : order_ok (e_ext e) -> run c e f = (Panic, w) ->
  (c_max_deltas c = Some 0 /\ exists n, offers c e f n /\ n_deltas n <> []) \/
  (exists k v p t ta rc, p ∈ c_tal_files c /\ tl_name t = path_str p /\
     ta_of e (w_fs w) (e_clock e k) t ta /\ nsteps (kid (e_ext e) (e_clock e k) v) (e_stack e) ta rc).
Proof.
  intros Ho. unfold run, process, mbind, M_bind.
  destruct (load_state c e (resume f)) as [[st| |] w1] eqn:El; [|done|].
  2: { intros _. exfalso. revert El. apply calm_elim, calm_load. }
  assert (F1 : w_fs w1 = f) by (pose proof (load_same_tree c e (resume f)) as H; by rewrite El in H).
  destruct (update_staged st c e w1) as [[[sg|]| |] w2] eqn:Es; [|done|done|].
  2: { intros _. left. apply staging_panic in Es. by rewrite F1 in Es. }
  unfold publish_staged, mbind, M_bind.
  destruct (pre_validate st c e w2) as [[st1| |] w3] eqn:Ep; [|done|].
  2: { intros [= <-]. right. by eapply pre_validate_panic. }
  destruct (pre_validate_scripts c e w3) as [[[]| |] w4] eqn:Ec; [|done|].
  2: { intros _. exfalso. revert Ec. apply calm_elim, calm_scripts. }
  intros H. exfalso. pose proof (fl_publish st1 sg c e w4) as Hf. unfold mbind, M_bind in Hf. by rewrite H in Hf.
Qed.
(** If deltas are limited to none and the source lists some, it does panic, and
    nothing has changed. *)
Theorem C58_zero_limit c base name e f st b n :
  cfg_ok c base name -> starts_from c base name f st -> readable e ->
  source_says c e f b -> x_parse_notif (e_ext e) b = Some n ->
  c_max_deltas c = Some 0 -> n_deltas n <> [] ->
  (run c e f).1 = Panic /\ instants c e f = [f].
Proof.
  intros Hc Hst Hr Hb Hp Hm Hn. destruct (load_state_ok c base name e f st Hc Hst Hr) as (w1 & E1 & F1 & T1).
  rewrite <- F1 in Hb. destruct (fetch_says c e w1 (st_source st) b n Hb Hr Hp) as (w2 & t & E2 & F2 & T2).
  assert (Hv : sort_and_verify (e_ext e) (c_max_deltas c) n = None).
  { rewrite Hm. unfold sort_and_verify. destruct (n_deltas n) as [|d l] eqn:E; [done|]. cbn [limit_deltas].
    destruct (0 <? _)%nat eqn:Hl.
    - assert (drop (length (sort_by_key di_serial (d :: l)) - 0) (sort_by_key di_serial (d :: l)) = []) as ->; [|done].
      apply drop_ge. lia.
    - destruct (sort_by_key di_serial (d :: l)) eqn:E'; [done|cbn in Hl; lia]. }
  unfold instants, run, process, update_staged, mbind, M_bind, getext. rewrite E1, E2, Hv.
  cbn. by rewrite T2, T1.
Qed.
Example C58_applies : exists st b,
  cfg_ok (limited 0) base name /\ starts_from (limited 0) base name (tree3 1) st /\ readable (env3 1) /\
  source_says (limited 0) (env3 1) (tree3 1) b /\ x_parse_notif (e_ext (env3 1)) b = Some (src3 1) /\
  c_max_deltas (limited 0) = Some 0 /\ n_deltas (src3 1) <> [].
Proof.
  destruct (tree3_state 1) as (st & s & H1 & _); [lia..|]. exists st, (json_text (j_notif (src3 1))).
  split; [apply (places_cfg demo_config (limited 0) base name); [done|apply demo_cfg_ok]|].
  split; [exact H1|]. split; [done|]. split; [|split; [by vm_compute|]; split; [done|by vm_compute]].
  apply (serve_says _ _ (tree3 1)). by vm_compute.
Qed.
(** the other case: a certificate that is its own issuer's child, and a limit that is not 0 *)
Definition loop_run : env := with_stack (run_env (content_docs 1 loop_files) 0) 20.
Definition panics {A} (r : res A) : bool := match r with Panic => true | _ => false end.
Lemma panics_ok c e f : panics (run c e f).1 = true -> exists w, run c e f = (Panic, w).
Proof. destruct (run c e f) as [[| |] w]; [done|done|by exists w]. Qed.
Example C58_loop_applies : order_ok (e_ext loop_run) /\ c_max_deltas tal_config = Some 100 /\
  exists w, run tal_config loop_run tal_start = (Panic, w).
Proof. split; [exact (demo_order_ok [] 0)|]. split; [done|]. apply panics_ok. vme. Qed.
Print Assumptions C58_panic_only.
Print Assumptions C58_zero_limit.
