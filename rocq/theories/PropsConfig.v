(** * Properties of the command line treatment: C40, C43, C54 *)
From Verif Require Import ConfigProofs Demo.

(** C40: a non-default state directory takes defaulted RRDP and rsync
    directories with it and leaves others alone. *)
Theorem C40_dirs_follow_state_dir :
  forall (f : fs) (a : cli) (c : config),
    post_configure f a = Ok c ->
    (same_path (cli_state_dir a) "/var/lib/krill-sync" ->
       c_rrdp_dir c = path_of (cli_rrdp_dir a) /\ c_rsync_dir c = path_of (cli_rsync_dir a)) /\
    (~ same_path (cli_state_dir a) "/var/lib/krill-sync" ->
       (cli_rrdp_dir a = "/var/lib/krill-sync/rrdp" ->
          c_rrdp_dir c = path_of (cli_state_dir a) ++ ["rrdp"]) /\
       (~ same_path (cli_rrdp_dir a) "/var/lib/krill-sync/rrdp" ->
          c_rrdp_dir c = path_of (cli_rrdp_dir a)) /\
       (cli_rsync_dir a = "/var/lib/krill-sync/rsync" ->
          c_rsync_dir c = path_of (cli_state_dir a) ++ ["rsync"]) /\
       (~ same_path (cli_rsync_dir a) "/var/lib/krill-sync/rsync" ->
          c_rsync_dir c = path_of (cli_rsync_dir a))).
Proof. intros f a c H. split; [exact (dirs_default f a c H) | exact (dirs_follow f a c H)]. Qed.
Print Assumptions C40_dirs_follow_state_dir.

Definition demo_cli : cli := {|
  cli_verbose := 0; cli_quiet := false; cli_state_dir := "/tmp/ks";
  cli_rrdp_dir := "/var/lib/krill-sync/rrdp"; cli_rsync_dir := "/srv/rsync";
  cli_notify_delay := 0; cli_max_deltas := None; cli_force_moves := false;
  cli_rsync_disable := false; cli_include_host := false; cli_cleanup_after := 7200;
  cli_insecure := true; cli_notif_uri := notif_uri;
  cli_source_base := Some (SUri "https://mirror/x/" Strict);
  cli_tal_files := []; cli_scripts := []; cli_reject := false; cli_offline := false |}.
Example C40_example :
  exists c, post_configure ∅ demo_cli = Ok c /\ c_rrdp_dir c = ["tmp"; "ks"; "rrdp"] /\
    c_rsync_dir c = ["srv"; "rsync"].
Proof. vm_compute. eauto. Qed.
(** A differently spelled default is not recognised: the directory stays put. *)
Example C40_other_spelling :
  same_path "/var//lib/krill-sync/rrdp" "/var/lib/krill-sync/rrdp" /\
  post_configure_dirs "/tmp/ks" "/var//lib/krill-sync/rrdp" "/x" = ("/var//lib/krill-sync/rrdp", "/x").
Proof. vm_compute. done. Qed.

(** C43 *)
Theorem C43_verbosity :
  (forall v, log_levels true v = (LError, LError)) /\
  (forall v, level_le (log_levels false v).1 (log_levels false (v + 1)).1 /\
             level_le (log_levels false v).2 (log_levels false (v + 1)).2) /\
  (forall v, log_levels false v = (match v with 0 => LWarn | 1 => LInfo | 2 => LDebug | _ => LTrace end,
                                   match v with 4 => LInfo | 5 => LDebug
                                              | _ => if (v <? 4) then LWarn else LTrace end)%N).
Proof.
  split; [done|]. split; [exact log_levels_mono|]. intros v.
  destruct (log_levels_cases v) as (k & Hk & -> & [->|[-> Hv]]).
  - assert (v = 0 \/ v = 1 \/ v = 2 \/ v = 3 \/ v = 4 \/ v = 5 \/ v = 6)%N as Hv by lia.
    repeat (destruct Hv as [->|Hv]; [reflexivity|]). subst. reflexivity.
  - assert (E : (v <? 4)%N = false) by (apply N.ltb_ge; lia). rewrite E.
    destruct v as [|p]; [lia|]. do 3 (destruct p as [p|p|]; try reflexivity; try lia).
Qed.
Print Assumptions C43_verbosity.

(** C54: the settings are the options given; only the source base and the
    directories (C40) are worked on. *)
Definition same_options (a : cli) (c : config) : Prop :=
  c_verbose c = cli_verbose a /\ c_quiet c = cli_quiet a /\ c_state_dir c = path_of (cli_state_dir a) /\
  c_notify_delay c = cli_notify_delay a /\ c_max_deltas c = cli_max_deltas a /\
  c_force_moves c = cli_force_moves a /\ c_rsync_disable c = cli_rsync_disable a /\
  c_include_host c = cli_include_host a /\ c_cleanup_after c = cli_cleanup_after a /\
  c_insecure c = cli_insecure a /\ c_notif_uri c = cli_notif_uri a /\
  c_tal_files c = cli_tal_files a /\ c_scripts c = cli_scripts a /\
  c_reject c = cli_reject a /\ c_offline c = cli_offline a.
(** What can serve as --source-base: a directory, or a link to one, or an https
    URI with a slash at its end. *)
Definition base_usable (f : fs) (s : fetch_source) : Prop :=
  match s with
  | SFile p => fs_get f p = Some Dir \/
      exists t, fs_get f p = Some (Link t) /\ fs_get f (path_join (removelast p) t) = Some Dir
  | SUri u _ => exists b, u = b +:+ "/"
  end.
(** The base as it is used: with --insecure the TLS checks are off. *)
Definition base_used (insecure : bool) (s s' : fetch_source) : Prop :=
  match s, s' with
  | SFile p, SFile p' => p' = p
  | SUri u m, SUri u' m' => u' = u /\ m' = (if insecure then Insecure else m)
  | _, _ => False
  end.
Lemma base_usable_spec f i s : source_is_dir f (apply_insecure i s) = true <-> base_usable f s.
Proof.
  assert (E : source_is_dir f (apply_insecure i s) = source_is_dir f s) by (by destruct i, s).
  rewrite E. destruct s as [p|u m]; cbn; [|apply ends_with_spec].
  unfold fs_is_dir, fs_stat. destruct (fs_get f p) as [[b t| |t]|] eqn:Ep; (split; [|]).
  - done.
  - by intros [?|(? & ? & _)].
  - by left.
  - done.
  - intros H. right. exists t. split; [done|]. revert H. by destruct (fs_get f (path_join (removelast p) t)) as [[]|].
  - intros [?|(t' & [= <-] & ->)]; done.
  - done.
  - by intros [?|(? & ? & _)].
Qed.
Lemma base_used_spec i s : base_used i s (apply_insecure i s).
Proof. by destruct i, s. Qed.
(** the options given are the ones used, and URIs are looked for below the source
    base, if one is given, instead of below the notification's own base *)
Theorem C54_options f a c : post_configure f a = Ok c ->
  same_options a c /\
  match cli_source_base a, c_fetch_map c with
  | None, None => True
  | Some s, Some m => base_usable f s /\ base_used (cli_insecure a) s (fm_fetch m) /\
      https_parent (cli_notif_uri a) = Some (fm_base m)
  | _, _ => False
  end.
Proof.
  unfold post_configure, post_configure_source, same_options. intros H.
  destruct (post_configure_dirs _ _ _) as [r1 r2].
  destruct (https_parent (cli_notif_uri a)) as [base|] eqn:Hp; [|done].
  destruct (cli_source_base a) as [s|]; cbn in H.
  - destruct (source_is_dir _ _) eqn:Hd; [|done]. injection H as <-. cbn. split; [by repeat split|].
    split; [by eapply base_usable_spec|]. split; [apply base_used_spec|done].
  - injection H as <-. cbn. split; [by repeat split|done].
Qed.
(** krill-sync starts exactly if the notification URI names a file and the source
    base can be used *)
Theorem C54_starts f a :
  (exists c, post_configure f a = Ok c) <->
  (exists parent, https_parent (cli_notif_uri a) = Some parent) /\
  (forall s, cli_source_base a = Some s -> base_usable f s).
Proof.
  unfold post_configure, post_configure_source. destruct (post_configure_dirs _ _ _) as [r1 r2].
  destruct (https_parent (cli_notif_uri a)) as [base|]; [|split; [by intros (c & ?)|by intros [(? & ?) _]]].
  destruct (cli_source_base a) as [s|]; cbn.
  - destruct (source_is_dir f _) eqn:Hd; split.
    + intros _. split; [eauto|]. intros s' [= <-]. by eapply base_usable_spec.
    + eauto.
    + by intros (c & ?).
    + intros [_ H]. specialize (H s eq_refl). apply (base_usable_spec f (cli_insecure a)) in H. congruence.
  - split; [|eauto]. intros _. split; [eauto|]. done.
Qed.
Print Assumptions C54_options.
Print Assumptions C54_starts.
Example C54_example :
  exists c, post_configure ∅ demo_cli = Ok c /\
    c_fetch_map c = Some (mkFM "https://h/rrdp/" (SUri "https://mirror/x/" Insecure)).
Proof. vm_compute. eauto. Qed.
(** a local directory, reached through a link, and one that is not there *)
Definition local_cli (p : path) : cli := {|
  cli_verbose := 1; cli_quiet := false; cli_state_dir := "/tmp/ks";
  cli_rrdp_dir := "/tmp/rrdp"; cli_rsync_dir := "/srv/rsync";
  cli_notify_delay := 3; cli_max_deltas := Some 5; cli_force_moves := true;
  cli_rsync_disable := false; cli_include_host := true; cli_cleanup_after := 60;
  cli_insecure := false; cli_notif_uri := notif_uri;
  cli_source_base := Some (SFile p);
  cli_tal_files := [["a.tal"]]; cli_scripts := []; cli_reject := true; cli_offline := true |}.
Example C54_local :
  (exists c, post_configure {[ ["srv"] := Dir; ["lnk"] := Link "srv" ]} (local_cli ["lnk"]) = Ok c /\
     c_fetch_map c = Some (mkFM "https://h/rrdp/" (SFile ["lnk"])) /\ c_max_deltas c = Some 5) /\
  post_configure {[ ["srv"] := Dir ]} (local_cli ["lnk"]) = Err ESourceDir.
Proof. vm_compute. eauto. Qed.
