(** * The command line: C73 *)
From Verif Require Import Cli Demo JsonProofs ConfigProofs.

(** ** How a command line is written *)
(** the names of the options, as in [krill-sync --help] *)
Definition names (o : opt) : list string :=
  match o with
  | OVerbose => ["verbose"] | OQuiet => ["quiet"] | OStateDir => ["state-dir"] | ORrdpDir => ["rrdp-dir"]
  | ONotifyDelay => ["rrdp-notify-delay"] | OMaxDeltas => ["rrdp-max-deltas"] | ORsyncDir => ["rsync-dir"]
  | ORsyncDisable => ["rsync-disable"] | OIncludeHost => ["rsync-include-host"] | OCleanup => ["cleanup-after"]
  | OInsecure => ["insecure"] | OSource => ["source-uri-base"; "source_uri_base"] | OTal => ["tal"]
  | OScript => ["pre-validate"] | OReject => ["tal-reject-invalid"] | OOffline => ["offline-validation"]
  end.
(** options without value, with one value, with any number of values *)
Definition bare (o : opt) : Prop :=
  o ∈ [OVerbose; OQuiet; ORsyncDisable; OIncludeHost; OInsecure; OReject; OOffline].
Definition listed (o : opt) : Prop := o = OTal \/ o = OScript.
Definition once (o : opt) : Prop := o <> OVerbose /\ ~ listed o.

Definition dash : ascii := "-".
Definition equals : ascii := "=".
(** begins with a dash and is more than that *)
Definition dashed (a : string) : Prop := exists c r, a = String dash (String c r).
Definition word (a : string) : Prop := ~ dashed a.
(** the end of the list of values of an option *)
Definition stops (args : list string) : Prop := match args with [] => True | a :: _ => dashed a end.
(** [=value]; more than one [=] is as good as one *)
Inductive value_after : string -> string -> Prop :=
| va_one v : (forall r, v <> String equals r) -> value_after (String equals v) v
| va_more s v : value_after s v -> value_after (String equals s) v.
(** flags in one argument: -vvq *)
Inductive flags : string -> list item -> Prop :=
| fl_nil : flags "" []
| fl_v s its : flags s its -> flags (String "v" s) (Occ OVerbose [] :: its)
| fl_q s its : flags s its -> flags (String "q" s) (Occ OQuiet [] :: its).

(** [reads args its]: the command line [args] says [its]. *)
Inductive reads : list string -> list item -> Prop :=
| rd_nil : reads [] []
| rd_flag o n rest its : bare o -> n ∈ names o -> reads rest its ->
    reads (("--" +:+ n) :: rest) (Occ o [] :: its)
| rd_equals o n s v rest its : ~ bare o -> n ∈ names o -> value_after s v -> reads rest its ->
    reads (("--" +:+ n +:+ s) :: rest) (Occ o [v] :: its)
| rd_one o n v rest its : ~ bare o -> ~ listed o -> n ∈ names o -> word v -> reads rest its ->
    reads (("--" +:+ n) :: v :: rest) (Occ o [v] :: its)
| rd_list o n v vs rest its : listed o -> n ∈ names o -> word v -> Forall word vs -> stops rest -> reads rest its ->
    reads (("--" +:+ n) :: v :: vs ++ rest) (Occ o (v :: vs) :: its)
| rd_short s fs rest its : s <> "" -> flags s fs -> reads rest its -> reads (("-" +:+ s) :: rest) (fs ++ its)
| rd_short_dir s fs v rest its : flags s fs -> word v -> reads rest its ->
    reads (("-" +:+ s +:+ "s") :: v :: rest) (fs ++ Occ OStateDir [v] :: its)
| rd_short_glued s fs v rest its : flags s fs -> v <> "" -> (forall r, v <> String equals r) -> reads rest its ->
    reads (("-" +:+ s +:+ "s" +:+ v) :: rest) (fs ++ Occ OStateDir [v] :: its)
| rd_short_equals s fs w v rest its : flags s fs -> value_after w v -> reads rest its ->
    reads (("-" +:+ s +:+ "s" +:+ w) :: rest) (fs ++ Occ OStateDir [v] :: its)
| rd_uri u rest its : word u -> reads rest its -> reads (u :: rest) (Pos u :: its)
| rd_rest us : reads ("--" :: us) (map Pos us).

(** ** What it means *)
(** an option is given (with a value) *)
Definition given (o : opt) (its : list item) : Prop := exists vs, Occ o vs ∈ its.
Definition setting_is (its : list item) (o : opt) (dflt v : string) : Prop :=
  Occ o [v] ∈ its \/ (~ given o its /\ v = dflt).
(** all values of an option, in the order of the command line *)
Fixpoint listing (o : opt) (its : list item) : list string :=
  match its with
  | [] => []
  | Occ o' vs :: r => if decide (o' = o) then vs ++ listing o r else listing o r
  | Pos _ :: r => listing o r
  end.
Fixpoint times (o : opt) (its : list item) : nat :=
  match its with
  | [] => 0
  | Occ o' _ :: r => if decide (o' = o) then S (times o r) else times o r
  | Pos _ :: r => times o r
  end.
(** decimal numbers *)
Inductive decimal : string -> N -> Prop :=
| dc_one d : (d < 10)%N -> decimal (String (ascii_of_N (48 + d)) "") d
| dc_more s n d : decimal s n -> (d < 10)%N -> decimal (s +:+ String (ascii_of_N (48 + d)) "") (10 * n + d).
Definition unsigned (s : string) (n : N) : Prop :=
  (n < 2 ^ 64)%N /\ (decimal s n \/ exists t, s = "+" +:+ t /\ decimal t n).
Definition signed (s : string) (z : Z) : Prop :=
  (- 2 ^ 63 <= z < 2 ^ 63)%Z /\
  exists n t, decimal t n /\ ((z = Z.of_N n /\ (s = t \/ s = "+" +:+ t)) \/ (z = - Z.of_N n /\ s = "-" +:+ t))%Z.

(** [means x its a]: with the options [its], krill-sync works with [a] *)
Record means (x : ext) (its : list item) (a : cli) : Prop := {
  me_once : forall o, once o -> times o its <= 1;
  me_conflict : ~ (given OVerbose its /\ given OQuiet its);
  me_uri : x_https_ok x (cli_notif_uri a) = true;
  me_one_uri : exists i, its !! i = Some (Pos (cli_notif_uri a)) /\ forall j u, its !! j = Some (Pos u) -> j = i;
  me_verbose : cli_verbose a = (N.of_nat (times OVerbose its) mod 256)%N;
  me_quiet : cli_quiet a = true <-> given OQuiet its;
  me_state_dir : setting_is its OStateDir "/var/lib/krill-sync" (cli_state_dir a);
  me_rrdp_dir : setting_is its ORrdpDir "/var/lib/krill-sync/rrdp" (cli_rrdp_dir a);
  me_rsync_dir : setting_is its ORsyncDir "/var/lib/krill-sync/rsync" (cli_rsync_dir a);
  me_delay : exists s, setting_is its ONotifyDelay "0" s /\ unsigned s (cli_notify_delay a);
  me_deltas : match cli_max_deltas a with
    | Some n => exists s, Occ OMaxDeltas [s] ∈ its /\ unsigned s (N.of_nat n)
    | None => ~ given OMaxDeltas its end;
  me_moves : cli_force_moves a = false;
  me_disable : cli_rsync_disable a = true <-> given ORsyncDisable its;
  me_host : cli_include_host a = true <-> given OIncludeHost its;
  me_cleanup : exists s, setting_is its OCleanup "3600" s /\ signed s (cli_cleanup_after a);
  me_insecure : cli_insecure a = true <-> given OInsecure its;
  me_source : match cli_source_base a with
    | Some b => exists s, Occ OSource [s] ∈ its /\ b = (if x_https_ok x s then SUri s Strict else SFile (path_of s))
    | None => ~ given OSource its end;
  me_tals : cli_tal_files a = map path_of (listing OTal its);
  me_scripts : cli_scripts a = map path_of (listing OScript its);
  me_reject : cli_reject a = true <-> given OReject its;
  me_offline : cli_offline a = true <-> given OOffline its }.

(** ** Reading the arguments *)
Lemma value_after_iff r v : value_after (String equals r) v <-> trim_eq r = v.
Proof.
  revert v. induction r as [|a r IH]; intros v; cbn.
  - split; [inversion 1; subst; [done|]; inversion H1 | intros <-; by apply va_one].
  - destruct (Ascii.eqb a "=") eqn:E.
    + apply Ascii.eqb_eq in E as ->. rewrite <- IH. split; [|by apply va_more].
      inversion 1 as [? Hn|]; subst; [by destruct (Hn r)|done].
    + apply Ascii.eqb_neq in E. split.
      * inversion 1 as [? Hn|? ? Hv]; subst; [done|]. inversion Hv; subst; done.
      * intros <-. apply va_one. by intros r' [= ->].
Qed.
Lemma value_after_shape s v : value_after s v -> exists r, s = String equals r /\ trim_eq r = v.
Proof. intros H. assert (exists r, s = String equals r) as [r ->] by (inversion H; eauto). exists r. split; [done|by apply value_after_iff]. Qed.

Lemma long_opt_iff n o : long_opt n = Some o <-> n ∈ names o.
Proof.
  split.
  - unfold long_opt. repeat (case_decide; [subst; intros [= <-]; repeat constructor|]). done.
  - destruct o; intros H; repeat (apply elem_of_cons in H as [->|H]; [vm_compute; reflexivity|]); by apply elem_of_nil in H.
Qed.
Lemma names_proper n o : n ∈ names o -> n <> "" /\ split_eq n = (n, None).
Proof.
  intros H. destruct o; cbn in H; rewrite ?elem_of_cons, ?elem_of_nil in H;
    repeat (destruct H as [->|H]; [done|]); done.
Qed.
Lemma split_eq_None s n : split_eq s = (n, None) -> s = n.
Proof.
  revert n. induction s as [|a s IH]; intros n; cbn; [by intros [= <-]|].
  destruct (Ascii.eqb a "="); [done|]. destruct (split_eq s) as [n' v]. intros [= <- ->]. by rewrite (IH n').
Qed.
Lemma split_eq_Some s n v : split_eq s = (n, Some v) -> s = n +:+ String equals v.
Proof.
  revert n. induction s as [|a s IH]; intros n; cbn; [done|].
  destruct (Ascii.eqb a "=") eqn:E; [apply Ascii.eqb_eq in E as ->; by intros [= <- <-]|].
  destruct (split_eq s) as [n' v']. intros [= <- ->]. by rewrite (IH n').
Qed.
Lemma split_eq_app n v : split_eq n = (n, None) -> split_eq (n +:+ String equals v) = (n, Some v).
Proof.
  induction n as [|a n IH]; [done|]. rewrite sapp_cons. cbn. destruct (Ascii.eqb a "="); [done|].
  destruct (split_eq n) as [n' v'] eqn:E. intros [= -> ->]. by rewrite (IH eq_refl).
Qed.

Lemma dash2 r : shape_of ("--" +:+ r) = Long r.
Proof. done. Qed.
Lemma dash1 c r : Ascii.eqb c "-" = false -> shape_of ("-" +:+ String c r) = Short (String c r).
Proof. intros H. change (shape_of (String "-" (String c r)) = Short (String c r)). cbn. by rewrite H. Qed.
Lemma shape_word a : shape_of a = Word <-> word a.
Proof.
  unfold word, dashed. destruct a as [|c1 [|c2 r]]; cbn.
  - split; [|done]. by intros _ (? & ? & ?).
  - split; [|done]. by intros _ (? & ? & ?).
  - destruct (Ascii.eqb c1 "-") eqn:E.
    + apply Ascii.eqb_eq in E as ->. split; [by destruct (Ascii.eqb c2 "-")|]. intros []. eauto.
    + apply Ascii.eqb_neq in E. split; [|done]. intros _ (? & ? & [= -> _ _]). done.
Qed.
Lemma shape_long a r : shape_of a = Long r -> a = "--" +:+ r.
Proof.
  destruct a as [|c1 [|c2 a]]; cbn; [done..|]. destruct (Ascii.eqb c1 "-") eqn:E1; [|done].
  destruct (Ascii.eqb c2 "-") eqn:E2; [|done]. apply Ascii.eqb_eq in E1 as ->, E2 as ->. by intros [= ->].
Qed.
Lemma shape_short a r : shape_of a = Short r -> a = "-" +:+ r /\ r <> "".
Proof.
  destruct a as [|c1 [|c2 a]]; cbn; [done..|]. destruct (Ascii.eqb c1 "-") eqn:E1; [|done].
  destruct (Ascii.eqb c2 "-") eqn:E2; [done|]. apply Ascii.eqb_eq in E1 as ->. by intros [= <-].
Qed.
Lemma shape_dashed a : dashed a -> shape_of a <> Word.
Proof. intros H E. by apply shape_word in E. Qed.

Lemma bare_arity o : bare o <-> (arity_of o = Flag \/ arity_of o = Flags).
Proof. unfold bare. destruct o; cbn; split; intros H; try (by auto); try (destruct H; done); set_solver. Qed.
Lemma listed_arity o : listed o <-> arity_of o = Many.
Proof. unfold listed. destruct o; cbn; split; intros H; try done; try (destruct H; done); auto. Qed.
Lemma one_arity o : ~ bare o -> ~ listed o -> arity_of o = One.
Proof. rewrite bare_arity, listed_arity. destruct (arity_of o); naive_solver. Qed.

Lemma flags_cluster s fs : flags s fs -> cluster s = Some (fs, None).
Proof. induction 1; cbn; [done|by rewrite IHflags..]. Qed.
Lemma flags_cluster_app s fs r its p : flags s fs -> cluster r = Some (its, p) -> cluster (s +:+ r) = Some (fs ++ its, p).
Proof. induction 1 as [|s its' _ IH|s its' _ IH]; intros Hr; [done|rewrite sapp_cons; cbn; by rewrite IH..]. Qed.
Lemma cluster_sound s its p : cluster s = Some (its, p) ->
  exists s0 fs r, s = s0 +:+ r /\ flags s0 fs /\
    ((r = "" /\ its = fs /\ p = None) \/
     (r = "s" /\ its = fs /\ p = Some OStateDir) \/
     (exists t, r = String "s" t /\ t <> "" /\ its = fs ++ [Occ OStateDir [trim_eq t]] /\ p = None)).
Proof.
  revert its. induction s as [|a s IH]; intros its; cbn.
  { intros [= <- <-]. exists "", [], "". repeat split; [constructor|]. by left. }
  unfold short_opt.
  destruct (Ascii.eqb a "v") eqn:Ev; [|destruct (Ascii.eqb a "q") eqn:Eq; [|destruct (Ascii.eqb a "s") eqn:Es]]; cbn; [| | |done].
  - apply Ascii.eqb_eq in Ev as ->. destruct (cluster s) as [[its' p']|]; [|done]. intros [= <- ->].
    destruct (IH _ eq_refl) as (s0 & fs & r & -> & Hf & Hr). exists (String "v" s0), (Occ OVerbose [] :: fs), r.
    split; [done|]. split; [by constructor|]. destruct Hr as [(?&?&?)|[(?&?&?)|(t&?&?&?&?)]]; subst; [by left|by right;left|right;right]. by exists t.
  - apply Ascii.eqb_eq in Eq as ->. destruct (cluster s) as [[its' p']|]; [|done]. intros [= <- ->].
    destruct (IH _ eq_refl) as (s0 & fs & r & -> & Hf & Hr). exists (String "q" s0), (Occ OQuiet [] :: fs), r.
    split; [done|]. split; [by constructor|]. destruct Hr as [(?&?&?)|[(?&?&?)|(t&?&?&?&?)]]; subst; [by left|by right;left|right;right]. by exists t.
  - apply Ascii.eqb_eq in Es as ->. intros H. exists "", []. destruct s as [|b s].
    + injection H as <- <-. exists "s". repeat split; [constructor|]. by right; left.
    + injection H as <- <-. exists (String "s" (String b s)). repeat split; [constructor|]. right; right. by exists (String b s).
Qed.

Lemma on_start_nil {A} (v : startup (list A)) : on_start (app []) v = v.
Proof. by destruct v. Qed.
Lemma parse_stop o vs args : stops args -> parse_args (More o vs) args = on_start (cons (Occ o vs)) (parse_args Idle args).
Proof.
  destruct args as [|a rest]; [done|]. intros Hd%shape_dashed. cbn [parse_args wants flush].
  destruct (shape_of a) as [r|r|]; [| |done].
  - case_decide; [done|]. destruct (split_eq r) as [n v]. destruct (long_opt n) as [o'|]; [|by destruct (String.prefix _ _)].
    destruct (arity_of o'), v; cbn [app]; by try destruct (parse_args Idle rest); try destruct (parse_args (Wants o') rest).
  - destruct (cluster r) as [[its [o'|]]|]; cbn [app]; by try destruct (parse_args Idle rest); try destruct (parse_args (Wants o') rest).
Qed.
Lemma parse_more o us vs rest : Forall word vs -> stops rest ->
  parse_args (More o us) (vs ++ rest) = on_start (cons (Occ o (us ++ vs))) (parse_args Idle rest).
Proof.
  intros Hw Hs. revert us. induction Hw as [|v vs Hv _ IH]; intros us.
  - rewrite app_nil_r. by apply parse_stop.
  - apply shape_word in Hv. cbn. rewrite Hv, IH. by rewrite <- (assoc_L (++)).
Qed.

Lemma reads_parse args its : reads args its -> parse_args Idle args = Start its.
Proof.
  induction 1 as [|o n rest its Hb Hn _ IH|o n s v rest its Hb Hn Hv _ IH|o n v rest its Hb Hl Hn Hv _ IH|o n v vs rest its Hl Hn Hv Hvs Hst _ IH|s fs rest its Hs Hf _ IH
    |s fs v rest its Hf Hv _ IH|s fs v rest its Hf Hv Hve _ IH|s fs w v rest its Hf Hv _ IH|u rest its Hu _ IH|us].
  - done.
  - destruct (names_proper _ _ Hn) as [Hne Hse]. apply long_opt_iff in Hn.
    cbn [parse_args wants flush app]. rewrite dash2, decide_False by done. rewrite Hse, Hn, IH. by apply bare_arity in Hb as [-> | ->].
  - destruct (names_proper _ _ Hn) as [Hne Hse]. apply long_opt_iff in Hn. apply value_after_shape in Hv as (r & -> & <-).
    cbn [parse_args wants flush app]. rewrite dash2, decide_False by (by destruct n). rewrite (split_eq_app _ _ Hse), Hn, IH.
    destruct (arity_of o) eqn:E; [destruct Hb; apply bare_arity; auto..|done|done].
  - destruct (names_proper _ _ Hn) as [Hne Hse]. apply long_opt_iff in Hn. apply shape_word in Hv.
    cbn [parse_args wants flush app]. rewrite dash2, decide_False by done. rewrite Hse, Hn, Hv, IH. by rewrite (one_arity _ Hb Hl).
  - destruct (names_proper _ _ Hn) as [Hne Hse]. apply long_opt_iff in Hn. apply shape_word in Hv.
    cbn [parse_args wants flush app]. rewrite dash2, decide_False by done. rewrite Hse, Hn, Hv. apply listed_arity in Hl. rewrite Hl, parse_more by done. by rewrite IH.
  - destruct s as [|c s]; [done|]. pose proof (flags_cluster _ _ Hf) as Hc.
    cbn [parse_args wants flush app]. rewrite dash1 by (by inversion Hf). by rewrite Hc, IH.
  - apply shape_word in Hv. pose proof (flags_cluster_app _ _ "s" [] (Some OStateDir) Hf eq_refl) as Hc.
    assert (exists c r, s +:+ "s" = String c r /\ Ascii.eqb c "-" = false) as (c & r & E & Ed) by (inversion Hf; subst; rewrite ?sapp_cons; eauto).
    rewrite E in *. cbn [parse_args wants flush app]. rewrite (dash1 _ _ Ed), Hc, Hv, IH. cbn. by rewrite app_nil_r.
  - assert (Hc : cluster (s +:+ String "s" v) = Some (fs ++ [Occ OStateDir [v]], None)).
    { apply (flags_cluster_app _ _ _ _ _ Hf). destruct v as [|b v]; [done|]. cbn.
      destruct (Ascii.eqb b "=") eqn:Eb; [apply Ascii.eqb_eq in Eb as ->; by destruct (Hve v)|done]. }
    change ("-" +:+ s +:+ "s" +:+ v) with ("-" +:+ s +:+ String "s" v).
    assert (exists c r, s +:+ String "s" v = String c r /\ Ascii.eqb c "-" = false) as (c & r & E & Ed) by (inversion Hf; subst; rewrite ?sapp_cons; eauto).
    rewrite E in *. cbn [parse_args wants flush app]. rewrite (dash1 _ _ Ed), Hc, IH. cbn. by rewrite <- (assoc_L (++)).
  - apply value_after_shape in Hv as (t & -> & <-).
    assert (Hc : cluster (s +:+ String "s" (String equals t)) = Some (fs ++ [Occ OStateDir [trim_eq t]], None)).
    { by apply (flags_cluster_app _ _ _ _ _ Hf). }
    change ("-" +:+ s +:+ "s" +:+ String equals t) with ("-" +:+ s +:+ String "s" (String equals t)).
    assert (exists c r, s +:+ String "s" (String equals t) = String c r /\ Ascii.eqb c "-" = false) as (c & r & E & Ed) by (inversion Hf; subst; rewrite ?sapp_cons; eauto).
    rewrite E in *. cbn [parse_args wants flush app]. rewrite (dash1 _ _ Ed), Hc, IH. cbn. by rewrite <- (assoc_L (++)).
  - apply shape_word in Hu. cbn. by rewrite Hu, IH.
  - done.
Qed.

(** [pre] says [its], whatever follows *)
Lemma parse_app pre its rest : reads pre its -> "--" ∉ pre -> stops rest ->
  parse_args Idle (pre ++ rest) = on_start (app its) (parse_args Idle rest).
Proof.
  intros Hp Hd Hstop. remember (parse_args Idle rest) as v0 eqn:Ev0. revert Hd.
  induction Hp as [|o n rest0 its Hb Hn _ IH|o n s v rest0 its Hb Hn Hv _ IH|o n v rest0 its Hb Hl Hn Hv _ IH|o n v vs rest0 its Hl Hn Hv Hvs Hst _ IH|s fs rest0 its Hs Hf _ IH
    |s fs v rest0 its Hf Hv _ IH|s fs v rest0 its Hf Hv Hve _ IH|s fs w v rest0 its Hf Hv _ IH|u rest0 its Hu _ IH|us]; intros Hd;
    rewrite ?elem_of_cons, ?elem_of_app in Hd; try (specialize (IH ltac:(tauto))).
  - cbn [app]. rewrite <- Ev0. by destruct v0.
  - destruct (names_proper _ _ Hn) as [Hne Hse]. apply long_opt_iff in Hn.
    cbn [parse_args wants flush app]. rewrite dash2, decide_False by done. rewrite Hse, Hn, IH. apply bare_arity in Hb as [-> | ->]; destruct v0; cbn [on_start app]; rewrite <- ?(assoc_L (++)); cbn [app]; done.
  - destruct (names_proper _ _ Hn) as [Hne Hse]. apply long_opt_iff in Hn. apply value_after_shape in Hv as (r & -> & <-).
    cbn [parse_args wants flush app]. rewrite dash2, decide_False by (by destruct n). rewrite (split_eq_app _ _ Hse), Hn, IH.
    destruct (arity_of o) eqn:E; [destruct Hb; apply bare_arity; auto..| |]; destruct v0; cbn [on_start app]; rewrite <- ?(assoc_L (++)); cbn [app]; done.
  - destruct (names_proper _ _ Hn) as [Hne Hse]. apply long_opt_iff in Hn. apply shape_word in Hv.
    cbn [parse_args wants flush app]. rewrite dash2, decide_False by done. rewrite Hse, Hn, Hv, IH. rewrite (one_arity _ Hb Hl). destruct v0; cbn [on_start app]; rewrite <- ?(assoc_L (++)); cbn [app]; done.
  - destruct (names_proper _ _ Hn) as [Hne Hse]. apply long_opt_iff in Hn. apply shape_word in Hv.
    cbn [parse_args wants flush app]. rewrite dash2, decide_False by done. rewrite Hse, Hn, Hv. apply listed_arity in Hl. rewrite Hl, <- (assoc_L (++)), parse_more by (done || by destruct rest0). rewrite IH. destruct v0; cbn [on_start app]; rewrite <- ?(assoc_L (++)); cbn [app]; done.
  - destruct s as [|c s]; [done|]. pose proof (flags_cluster _ _ Hf) as Hc.
    cbn [parse_args wants flush app]. rewrite dash1 by (by inversion Hf). rewrite Hc, IH. destruct v0; cbn [on_start app]; rewrite <- ?(assoc_L (++)); cbn [app]; done.
  - apply shape_word in Hv. pose proof (flags_cluster_app _ _ "s" [] (Some OStateDir) Hf eq_refl) as Hc.
    assert (exists c r, s +:+ "s" = String c r /\ Ascii.eqb c "-" = false) as (c & r & E & Ed) by (inversion Hf; subst; rewrite ?sapp_cons; eauto).
    rewrite E in *. cbn [parse_args wants flush app]. rewrite (dash1 _ _ Ed), Hc, Hv, IH. cbn [app]. rewrite app_nil_r. destruct v0; cbn [on_start app]; rewrite <- ?(assoc_L (++)); cbn [app]; done.
  - assert (Hc : cluster (s +:+ String "s" v) = Some (fs ++ [Occ OStateDir [v]], None)).
    { apply (flags_cluster_app _ _ _ _ _ Hf). destruct v as [|b v]; [done|]. cbn.
      destruct (Ascii.eqb b "=") eqn:Eb; [apply Ascii.eqb_eq in Eb as ->; by destruct (Hve v)|done]. }
    change ("-" +:+ s +:+ "s" +:+ v) with ("-" +:+ s +:+ String "s" v).
    assert (exists c r, s +:+ String "s" v = String c r /\ Ascii.eqb c "-" = false) as (c & r & E & Ed) by (inversion Hf; subst; rewrite ?sapp_cons; eauto).
    rewrite E in *. cbn [parse_args wants flush app]. rewrite (dash1 _ _ Ed), Hc, IH. destruct v0; cbn [on_start app]; rewrite <- ?(assoc_L (++)); cbn [app]; done.
  - apply value_after_shape in Hv as (t & -> & <-).
    assert (Hc : cluster (s +:+ String "s" (String equals t)) = Some (fs ++ [Occ OStateDir [trim_eq t]], None)).
    { by apply (flags_cluster_app _ _ _ _ _ Hf). }
    change ("-" +:+ s +:+ "s" +:+ String equals t) with ("-" +:+ s +:+ String "s" (String equals t)).
    assert (exists c r, s +:+ String "s" (String equals t) = String c r /\ Ascii.eqb c "-" = false) as (c & r & E & Ed) by (inversion Hf; subst; rewrite ?sapp_cons; eauto).
    rewrite E in *. cbn [parse_args wants flush app]. rewrite (dash1 _ _ Ed), Hc, IH. destruct v0; cbn [on_start app]; rewrite <- ?(assoc_L (++)); cbn [app]; done.
  - apply shape_word in Hu. cbn [app parse_args]. rewrite Hu, IH. destruct v0; cbn [on_start app]; rewrite <- ?(assoc_L (++)); cbn [app]; done.
  - destruct Hd. by left.
Qed.
Global Instance dashed_dec a : Decision (dashed a).
Proof.
  destruct (shape_of a) eqn:E; [left|left|right; by apply shape_word].
  - apply shape_long in E as ->. by exists "-"%char, r.
  - apply shape_short in E as [-> Hr]. destruct r as [|c r]; [done|]. by exists c, r.
Qed.
Definition reads_at (p : pending) (args : list string) (its : list item) : Prop :=
  match p with
  | Idle => reads args its
  | Wants o => exists v vs rest its', args = v :: vs ++ rest /\ word v /\ Forall word vs /\ reads rest its' /\
      its = Occ o (v :: vs) :: its' /\ (listed o /\ stops rest \/ ~ listed o /\ vs = [])
  | More o us => exists vs rest its', args = vs ++ rest /\ Forall word vs /\ stops rest /\ reads rest its' /\
      its = Occ o (us ++ vs) :: its'
  end.
Lemma on_start_Start {A B} (g : A -> B) v b : on_start g v = Start b -> exists a, v = Start a /\ b = g a.
Proof. destruct v; cbn; [intros [= <-]; eauto|done..]. Qed.
Lemma parse_reads p args its : parse_args p args = Start its -> reads_at p args its.
Proof.
  revert p its. induction args as [|a rest IH]; intros p its.
  { cbn. destruct p as [|o|o us]; cbn; [intros [= <-]; constructor|done|].
    intros [= <-]. exists [], [], []. split_and!; [done|by apply Forall_nil|done|apply rd_nil|by rewrite app_nil_r]. }
  assert (Hidle : forall its, shape_of a <> Word -> parse_args Idle (a :: rest) = Start its -> reads (a :: rest) its).
  { clear its. intros its. cbn [parse_args wants flush app]. destruct (shape_of a) as [r|r|] eqn:E; [| |done]; intros _.
    - apply shape_long in E as ->. case_decide as Hr; [subst; intros [= <-]; constructor|].
      destruct (split_eq r) as [n v] eqn:Es. destruct (long_opt n) as [o|] eqn:Hn; [|by destruct (String.prefix _ _)].
      apply long_opt_iff in Hn. destruct v as [v|].
      + apply split_eq_Some in Es as ->. intros H.
        assert (Hb : ~ bare o /\ on_start (app [Occ o [trim_eq v]]) (parse_args Idle rest) = Start its).
        { rewrite bare_arity. destruct (arity_of o); try done; (split; [by intros [?|?]|done]). }
        destruct Hb as [Hb Hp]. apply on_start_Start in Hp as (its' & Hp & ->). apply (rd_equals _ n); [done|done|by apply value_after_iff|]. apply (IH Idle), Hp.
      + apply split_eq_None in Es as ->. intros H.
        assert (Hb : (bare o /\ on_start (app [Occ o []]) (parse_args Idle rest) = Start its) \/
                     (~ bare o /\ on_start (app []) (parse_args (Wants o) rest) = Start its)).
        { rewrite bare_arity. destruct (arity_of o); try (left; split; [by auto|done]); (right; split; [by intros [?|?]|done]). }
        destruct Hb as [[Hb Hp]|[Hb Hp]].
        * apply on_start_Start in Hp as (its' & Hp & ->). apply rd_flag; [done|done|]. apply (IH Idle), Hp.
        * rewrite on_start_nil in Hp. destruct (IH _ _ Hp) as (v & vs & rest' & its' & -> & Hv & Hvs & Hrd & -> & [[Hl Hs]|[Hl ->]]).
          -- by apply rd_list.
          -- by apply rd_one.
    - apply shape_short in E as [-> Hr]. destruct (cluster r) as [[its' p']|] eqn:Hc; [|done].
      apply cluster_sound in Hc as (s0 & fs & r' & -> & Hf & [(-> & -> & ->)|[(-> & -> & ->)|(t & -> & Ht & -> & ->)]]); intros H.
      + rewrite sapp_nil_r in *. apply on_start_Start in H as (its1 & Hp & ->). apply rd_short; [done|done|]. apply (IH Idle), Hp.
      + apply on_start_Start in H as (its1 & Hp & ->). destruct (IH _ _ Hp) as (v & vs & rest' & its' & -> & Hv & Hvs & Hrd & -> & [[[?|?] _]|[Hl ->]]); [done..|].
        by apply rd_short_dir.
      + apply on_start_Start in H as (its1 & Hp & ->). cbn [app flush]. rewrite <- (assoc_L (++)).
        apply (IH Idle) in Hp. destruct t as [|b t]; [done|]. destruct (decide (b = equals)) as [->|Hb].
        * apply (rd_short_equals s0 fs (String equals t)); [done| |done]. by apply value_after_iff.
        * assert (E : trim_eq (String b t) = String b t) by (cbn; by destruct (Ascii.eqb_spec b "=")).
          rewrite E. apply (rd_short_glued s0 fs (String b t)); [done|done|by intros r' [= ->]|done]. }
  destruct (decide (word a)) as [Hw|Hw].
  - pose proof Hw as E. apply shape_word in E. cbn. rewrite E. destruct p as [|o|o us].
    + intros H. apply on_start_Start in H as (its' & Hp & ->). apply rd_uri; [done|]. apply (IH Idle), Hp.
    + destruct (decide (arity_of o = Many)) as [Ea|Ea].
      * rewrite Ea. intros H. destruct (IH _ _ H) as (vs & rest' & its' & -> & Hvs & Hst & Hr & ->).
        exists a, vs, rest', its'. repeat split; [done..|]. left. by rewrite listed_arity.
      * intros H. assert (Hp : on_start (cons (Occ o [a])) (parse_args Idle rest) = Start its) by (by destruct (arity_of o)).
        apply on_start_Start in Hp as (its' & Hp & ->). exists a, [], rest, its'. repeat split; [done|constructor|apply (IH Idle), Hp|].
        right. by rewrite listed_arity.
    + intros H. destruct (IH _ _ H) as (vs & rest' & its' & -> & Hvs & Hst & Hr & ->).
      exists (a :: vs), rest', its'. rewrite <- (assoc_L (++)). repeat split; [by constructor|done..].
  - rewrite <- shape_word in Hw. destruct p as [|o|o us]; [by apply Hidle| |].
    + cbn. by destruct (shape_of a).
    + assert (Hst : stops (a :: rest)).
      { cbn. destruct (shape_of a) eqn:E; [apply shape_long in E as ->|apply shape_short in E as [-> Hr]|done].
        - by exists "-"%char, r.
        - destruct r as [|c r]; [done|]. by exists c, r. }
      rewrite parse_stop by done. intros H. apply on_start_Start in H as (its' & Hp & ->).
      exists [], (a :: rest), its'. rewrite app_nil_r. repeat split; [constructor|done|by apply Hidle].
Qed.

(** ** The meaning of the options *)
(** options have the values their kind asks for *)
Definition shaped (its : list item) : Prop := forall o vs, Occ o vs ∈ its ->
  (bare o -> vs = []) /\ (~ bare o -> ~ listed o -> exists v, vs = [v]).
Lemma shaped_app l k : shaped l -> shaped k -> shaped (l ++ k).
Proof. intros H1 H2 o vs [H|H]%elem_of_app; [by apply H1|by apply H2]. Qed.
Lemma shaped_flags s fs : flags s fs -> shaped fs.
Proof.
  assert (Hv : bare OVerbose) by (apply bare_arity; auto). assert (Hq : bare OQuiet) by (apply bare_arity; auto).
  induction 1 as [|s fs _ IH|s fs _ IH]; intros o vs Hin; [by apply elem_of_nil in Hin|..];
    (apply elem_of_cons in Hin as [[= -> ->]|Hin]; [split; done|by apply IH]).
Qed.
Lemma shaped_cons o vs its : (bare o -> vs = []) -> (~ bare o -> ~ listed o -> exists v, vs = [v]) -> shaped its -> shaped (Occ o vs :: its).
Proof. intros H1 H2 H o' vs' [[= -> ->]|Hin]%elem_of_cons; [done|by apply H]. Qed.
Lemma reads_shaped args its : reads args its -> shaped its.
Proof.
  assert (Hs : ~ bare OStateDir) by (rewrite bare_arity; by intros [?|?]).
  induction 1 as [|o n rest its Hb Hn _ IH|o n s v rest its Hb Hn Hv _ IH|o n v rest its Hb Hl Hn Hv _ IH|o n v vs rest its Hl Hn Hv Hvs Hst _ IH|s fs rest its Hs' Hf _ IH
    |s fs v rest its Hf Hv _ IH|s fs v rest its Hf Hv Hve _ IH|s fs w v rest its Hf Hv _ IH|u rest its Hu _ IH|us].
  - intros o vs H. by apply elem_of_nil in H.
  - by apply shaped_cons.
  - apply shaped_cons; [done|eauto|done].
  - apply shaped_cons; [done|eauto|done].
  - apply shaped_cons; [|done|done]. rewrite bare_arity. apply listed_arity in Hl. rewrite Hl. by intros [?|?].
  - apply shaped_app; [by eapply shaped_flags|done].
  - apply shaped_app; [by eapply shaped_flags|]. apply shaped_cons; [done|eauto|done].
  - apply shaped_app; [by eapply shaped_flags|]. apply shaped_cons; [done|eauto|done].
  - apply shaped_app; [by eapply shaped_flags|]. apply shaped_cons; [done|eauto|done].
  - intros o vs [?|H]%elem_of_cons; [done|by apply IH].
  - intros o vs (i & ? & _)%elem_of_list_fmap. done.
Qed.

Lemma times_occs o its : times o its = length (occs o its).
Proof. induction its as [|[o' vs|u] its IH]; cbn; [done| |done]. case_decide; cbn; by rewrite IH. Qed.
Lemma listing_occs o its : listing o its = concat (occs o its).
Proof. induction its as [|[o' vs|u] its IH]; cbn; [done| |done]. case_decide; cbn; by rewrite IH. Qed.
Lemma elem_occs o vs its : vs ∈ occs o its <-> Occ o vs ∈ its.
Proof.
  unfold occs. rewrite elem_of_list_omap. split.
  - intros ([o' vs'|u] & Hin & H); [|done]. case_decide; [|done]. injection H as ->. by subst.
  - intros H. exists (Occ o vs). split; [done|]. by rewrite decide_True.
Qed.
Lemma is_given_iff o its : is_given o its = true <-> given o its.
Proof.
  unfold is_given, given. destruct (occs o its) as [|vs l] eqn:E.
  - split; [done|]. intros (vs & H). apply elem_occs in H. rewrite E in H. by apply elem_of_nil in H.
  - split; [|done]. intros _. exists vs. apply elem_occs. rewrite E. by left.
Qed.
Lemma given_none o its : ~ given o its <-> occs o its = [].
Proof. rewrite <- is_given_iff. unfold is_given. by destruct (occs o its). Qed.
Lemma value_spec o its : shaped its -> ~ bare o -> ~ listed o -> times o its <= 1 ->
  match value_of o its with Some v => occs o its = [[v]] | None => occs o its = [] end.
Proof.
  intros Hs Hb Hl. rewrite times_occs. unfold value_of. destruct (occs o its) as [|vs l] eqn:E; [done|].
  assert (Hin : Occ o vs ∈ its) by (apply elem_occs; rewrite E; by left).
  destruct (proj2 (Hs o vs Hin) Hb Hl) as [v ->]. cbn. destruct l; [done|]. cbn. lia.
Qed.
Lemma value_Some o its v : shaped its -> ~ bare o -> ~ listed o -> times o its <= 1 ->
  value_of o its = Some v <-> Occ o [v] ∈ its.
Proof.
  intros Hs Hb Hl Ht. rewrite <- elem_occs. pose proof (value_spec o its Hs Hb Hl Ht) as Hv.
  destruct (value_of o its) as [v'|]; rewrite Hv; [rewrite elem_of_list_singleton|by rewrite elem_of_nil].
  split; by intros [= ->].
Qed.
Lemma value_None o its : shaped its -> ~ bare o -> ~ listed o -> times o its <= 1 ->
  value_of o its = None <-> ~ given o its.
Proof.
  intros Hs Hb Hl Ht. rewrite given_none. pose proof (value_spec o its Hs Hb Hl Ht) as Hv.
  destruct (value_of o its) as [v'|]; rewrite Hv; done.
Qed.
Lemma setting_value o its d v : shaped its -> ~ bare o -> ~ listed o -> times o its <= 1 ->
  setting_is its o d v <-> default d (value_of o its) = v.
Proof.
  intros Hs Hb Hl Ht. unfold setting_is. destruct (value_of o its) as [w|] eqn:E; cbn.
  - pose proof E as E'. apply value_Some in E' as Hw; [|done..]. split.
    + intros [H|[H _]]; [|destruct H; by eexists]. apply value_Some in H; [congruence|done..].
    + intros ->. by left.
  - pose proof E as E'. apply value_None in E' as Hn; [|done..]. split.
    + intros [H|[_ ->]]; [destruct Hn; by eexists|done].
    + intros ->. by right.
Qed.
Lemma positionals_one its u : positionals its = [u] <->
  exists i, its !! i = Some (Pos u) /\ forall j u', its !! j = Some (Pos u') -> j = i.
Proof.
  assert (Hnil : forall l, positionals l = [] <-> forall j u', l !! j <> Some (Pos u')).
  { induction l as [|[o vs|u'] l IH]; cbn.
    - split; done.
    - rewrite IH. split; [intros H [|j] u'; [done|apply H]|intros H j; apply (H (S j))].
    - split; [done|]. intros H. by destruct (H 0 u'). }
  revert u. induction its as [|[o vs|u'] its IH]; intros u; cbn.
  - split; [done|]. by intros (i & ? & _).
  - rewrite IH. split.
    + intros (i & Hi & H). exists (S i). split; [done|]. intros [|j] u' Hj; [done|]. by rewrite (H j u').
    + intros ([|i] & Hi & H); [done|]. exists i. split; [done|]. intros j u' Hj. by injection (H (S j) u' Hj).
  - split.
    + intros [= -> Hp]. exists 0. split; [done|]. intros [|j] u' Hj; [done|]. cbn in Hj. by apply (proj1 (Hnil its) Hp) in Hj.
    + intros ([|i] & Hi & H).
      * injection Hi as ->. f_equal. apply Hnil. intros j u' Hj. by discriminate (H (S j) u' Hj).
      * by discriminate (H 0 u' eq_refl).
Qed.
Lemma repeated_iff its : repeated its = false <-> forall o, once o -> times o its <= 1.
Proof.
  unfold repeated. rewrite <- not_true_iff_false, existsb_exists. split.
  - intros H o [Ho Hl]. destruct (decide (times o its <= 1)); [done|]. destruct H. exists o. split.
    + destruct o; cbn; auto 20.
    + apply andb_true_intro. split; [|apply Nat.ltb_lt; rewrite <- times_occs; lia].
      unfold single. rewrite listed_arity in Hl. destruct o; done.
  - intros H (o & _ & [Hs Hl]%andb_prop). apply Nat.ltb_lt in Hl. rewrite <- times_occs in Hl.
    assert (times o its <= 1); [|lia]. apply H. split; [by intros ->|]. rewrite listed_arity. intros E. unfold single in Hs. by rewrite E in Hs.
Qed.
Lemma conflict_iff its : conflict its = false <-> ~ (given OVerbose its /\ given OQuiet its).
Proof.
  unfold conflict. rewrite <- !is_given_iff. destruct (is_given OVerbose its), (is_given OQuiet its); cbn; naive_solver.
Qed.

(** numbers *)
Lemma digit_iff c d : digit_val c = Some d <-> (d < 10)%N /\ c = ascii_of_N (48 + d).
Proof.
  unfold digit_val. split.
  - destruct ((48 <=? N_of_ascii c)%N && (N_of_ascii c <=? 57)%N) eqn:E; [|done].
    apply andb_prop in E as [E1%N.leb_le E2%N.leb_le]. intros [= <-]. split; [lia|].
    replace (48 + (N_of_ascii c - 48))%N with (N_of_ascii c) by lia. by rewrite ascii_N_embedding.
  - intros [Hd ->]. rewrite N_ascii_embedding by lia.
    assert ((48 <=? 48 + d)%N && (48 + d <=? 57)%N = true) as ->; [|f_equal; lia].
    apply andb_true_intro. split; apply N.leb_le; lia.
Qed.
Lemma decimal_read s n : decimal s n -> forall r, read_digits 0 (s +:+ r) = read_digits n r.
Proof.
  induction 1 as [d Hd|s n d Hs IH Hd]; intros r.
  - change (String ?c "" +:+ r) with (String c r). cbn. by rewrite (proj2 (digit_iff _ d)).
  - rewrite sapp_assoc, IH. change (String ?c "" +:+ r) with (String c r). cbn [read_digits].
    rewrite (proj2 (digit_iff _ d)) by done. f_equal. lia.
Qed.
Lemma read_decimal s acc n t : decimal t acc -> read_digits acc s = (n, "") -> decimal (t +:+ s) n.
Proof.
  revert acc t. induction s as [|c s IH]; intros acc t Ht; cbn [read_digits].
  - intros [= <-]. by rewrite sapp_nil_r.
  - destruct (digit_val c) as [d|] eqn:E; [|done]. apply digit_iff in E as [Hd ->]. intros H.
    change (String ?c s) with (String c "" +:+ s). rewrite <- sapp_assoc. apply (IH (acc * 10 + d)%N); [|done].
    replace (acc * 10 + d)%N with (10 * acc + d)%N by lia. by constructor.
Qed.
Lemma decimal_head s n : decimal s n -> exists c r d, s = String c r /\ digit_val c = Some d.
Proof.
  induction 1 as [d Hd|s n d Hs (c & r & d' & -> & Hc) Hd].
  - eexists _, _, d. split; [done|]. by apply digit_iff.
  - eexists _, _, d'. by rewrite sapp_cons.
Qed.
Lemma all_digits_iff s n : all_digits s = Some n <-> decimal s n.
Proof.
  split.
  - destruct s as [|c s]; [done|]. unfold all_digits. destruct (read_digits 0 (String c s)) as [m [|]] eqn:E; [|done].
    intros [= <-]. cbn in E. destruct (digit_val c) as [d|] eqn:Ed; [|done]. apply digit_iff in Ed as [Hd ->].
    change (String ?c s) with (String c "" +:+ s). apply (read_decimal _ d); [by constructor|]. done.
  - intros H. destruct (decimal_head _ _ H) as (c & r & d & -> & _). unfold all_digits.
    pose proof (decimal_read _ _ H "") as E. rewrite sapp_nil_r in E. by rewrite E.
Qed.
Lemma unsign_digits s n : all_digits (unsign s) = Some n <-> decimal s n \/ exists t, s = "+" +:+ t /\ decimal t n.
Proof.
  rewrite all_digits_iff. destruct s as [|a r]; cbn [unsign].
  - split; [by left|]. intros [H|(t & Ht & _)]; [done|]. by rewrite sapp_cons in Ht.
  - destruct (Ascii.eqb a "+") eqn:E.
    + apply Ascii.eqb_eq in E as ->. split; [intros H; right; by exists r|].
      intros [H|(t & Ht & H)]; [|by rewrite sapp_cons in Ht; injection Ht as ->].
      destruct (decimal_head _ _ H) as (c & r' & d & [= <- _] & Hd). done.
    + apply Ascii.eqb_neq in E. split; [by left|]. intros [H|(t & Ht & _)]; [done|]. rewrite sapp_cons in Ht. by injection Ht as ->.
Qed.
Lemma unsigned_iff s n : parse_u64 s = Some n <-> unsigned s n.
Proof.
  unfold parse_u64, unsigned. rewrite <- unsign_digits. destruct (all_digits (unsign s)) as [m|]; cbn [mbind option_bind].
  - destruct (N.ltb_spec m (2 ^ 64)) as [Hm|Hm].
    + split; [by intros [= <-]|by intros [_ ?]].
    + split; [done|]. intros [Hn E]. injection E as ->. by apply N.le_ngt in Hm.
  - split; [done|by intros [_ ?]].
Qed.
Lemma signed_iff s z : parse_i64 s = Some z <-> signed s z.
Proof.
  unfold parse_i64, signed. destruct s as [|a r].
  { split; [done|]. intros (_ & n & t & H & [[_ [E|E]]|[_ E]]); [subst; by destruct (decimal_head _ _ H) as (?&?&?&?&?)|by rewrite sapp_cons in E..]. }
  destruct (Ascii.eqb a "-") eqn:Ea.
  - apply Ascii.eqb_eq in Ea as ->. split.
    + destruct (all_digits r) as [n|] eqn:E; cbn [mbind option_bind]; [|done]. apply all_digits_iff in E.
      destruct (N.leb_spec n (2 ^ 63)); [|done]. intros [= <-]. split; [lia|]. exists n, r. split; [done|]. right. done.
    + intros (Hz & n & t & H & [[_ [E|E]]|[-> E]]).
      * subst. by destruct (decimal_head _ _ H) as (? & ? & ? & [= <- _] & ?).
      * by rewrite sapp_cons in E.
      * rewrite sapp_cons in E. injection E as ->. apply all_digits_iff in H. change ("" +:+ t) with t. rewrite H. cbn [mbind option_bind].
        destruct (N.leb_spec n (2 ^ 63)); [done|lia].
  - apply Ascii.eqb_neq in Ea. split.
    + destruct (all_digits (unsign (String a r))) as [n|] eqn:E; cbn [mbind option_bind]; [|done]. apply unsign_digits in E.
      destruct (N.ltb_spec n (2 ^ 63)); [|done]. intros [= <-]. split; [lia|]. destruct E as [E|(t & Ht & E)]; eauto 10.
    + intros (Hz & n & t & H & [[-> E]|[-> E]]).
      * assert (E' : all_digits (unsign (String a r)) = Some n) by (apply unsign_digits; destruct E as [->|E]; eauto).
        rewrite E'. cbn [mbind option_bind]. destruct (N.ltb_spec n (2 ^ 63)); [done|lia].
      * rewrite sapp_cons in E. by injection E as ->.
Qed.

Lemma given_bool b o its : (b = true <-> given o its) <-> b = is_given o its.
Proof. rewrite <- is_given_iff. destruct b, (is_given o its); naive_solver. Qed.
Definition deltas_of (its : list item) : option (option nat) :=
  match value_of OMaxDeltas its with
  | Some s => n ← parse_u64 s; Some (Some (N.to_nat n))
  | None => Some None
  end.
Definition uri_of (x : ext) (its : list item) : option string :=
  match positionals its with [u] => if x_https_ok x u then Some u else None | _ => None end.
Lemma from_clap_iff x its a : from_clap x its = Some a <->
  exists delay deltas cleanup uri,
    parse_u64 (default "0" (value_of ONotifyDelay its)) = Some delay /\ deltas_of its = Some deltas /\
    parse_i64 (default "3600" (value_of OCleanup its)) = Some cleanup /\ uri_of x its = Some uri /\
    a = mkCli (N.of_nat (length (occs OVerbose its)) mod 256) (is_given OQuiet its)
      (default DEFAULT_STATE_DIR (value_of OStateDir its))
      (default DEFAULT_RRDP_DIR (value_of ORrdpDir its))
      (default DEFAULT_RSYNC_DIR (value_of ORsyncDir its))
      delay deltas false (is_given ORsyncDisable its) (is_given OIncludeHost its)
      cleanup (is_given OInsecure its) uri
      (source_of_str x <$> value_of OSource its)
      (path_of <$> concat (occs OTal its)) (path_of <$> concat (occs OScript its))
      (is_given OReject its) (is_given OOffline its).
Proof.
  unfold from_clap. fold (deltas_of its). fold (uri_of x its).
  change DEFAULT_RRDP_NOTIFY_DELAY_SECONDS with "0". change DEFAULT_CLEANUP_SECONDS with "3600".
  destruct (parse_u64 _) as [delay|]; cbn [mbind option_bind]; [|split; [done|by intros (?&?&?&?&?&_)]].
  destruct (deltas_of its) as [deltas|]; cbn [mbind option_bind]; [|split; [done|by intros (?&?&?&?&_&?&_)]].
  destruct (parse_i64 _) as [cleanup|]; cbn [mbind option_bind]; [|split; [done|by intros (?&?&?&?&_&_&?&_)]].
  destruct (uri_of x its) as [uri|]; cbn [mbind option_bind]; [|split; [done|by intros (?&?&?&?&_&_&_&?&_)]].
  split.
  - intros [= <-]. exists delay, deltas, cleanup, uri. done.
  - intros (? & ? & ? & ? & [= <-] & [= <-] & [= <-] & [= <-] & ->). done.
Qed.
Lemma uri_of_iff x its u : uri_of x its = Some u <-> positionals its = [u] /\ x_https_ok x u = true.
Proof.
  unfold uri_of. destruct (positionals its) as [|u' [|? ?]]; [by split; [|intros []]| |by split; [|intros []]].
  destruct (x_https_ok x u') eqn:E; (split; [|]); [by intros [= ->]|by intros [[= ->] _]|done|intros [[= ->] ?]; congruence].
Qed.

Lemma from_clap_means x its a : shaped its ->
  (repeated its || conflict its = false /\ from_clap x its = Some a) <-> means x its a.
Proof.
  intros Hs. rewrite orb_false_iff, repeated_iff, conflict_iff, from_clap_iff.
  assert (Hk : forall o, o ∈ [OStateDir; ORrdpDir; ONotifyDelay; OMaxDeltas; ORsyncDir; OCleanup; OSource] ->
    ~ bare o /\ ~ listed o /\ once o).
  { intros o Ho. unfold once. rewrite bare_arity, listed_arity. destruct o; cbn; split_and!; try (by intros [?|?]); try done;
      exfalso; revert Ho; rewrite !elem_of_cons, elem_of_nil; naive_solver. }
  assert (Hset : (forall o, once o -> times o its <= 1) ->
    forall o d v, o ∈ [OStateDir; ORrdpDir; ONotifyDelay; OMaxDeltas; ORsyncDir; OCleanup; OSource] ->
    setting_is its o d v <-> default d (value_of o its) = v).
  { intros Ht o d v Ho. destruct (Hk o Ho) as (? & ? & ?). apply setting_value; auto. }
  assert (HSome : (forall o, once o -> times o its <= 1) ->
    forall o v, o ∈ [OStateDir; ORrdpDir; ONotifyDelay; OMaxDeltas; ORsyncDir; OCleanup; OSource] ->
    value_of o its = Some v <-> Occ o [v] ∈ its).
  { intros Ht o v Ho. destruct (Hk o Ho) as (? & ? & ?). apply value_Some; auto. }
  assert (HNone : (forall o, once o -> times o its <= 1) ->
    forall o, o ∈ [OStateDir; ORrdpDir; ONotifyDelay; OMaxDeltas; ORsyncDir; OCleanup; OSource] ->
    value_of o its = None <-> ~ given o its).
  { intros Ht o Ho. destruct (Hk o Ho) as (? & ? & ?). apply value_None; auto. }
  split.
  - intros [[Ho Hc] (delay & deltas & cleanup & uri & E1 & E2 & E3 & E4 & ->)]. apply uri_of_iff in E4 as [E4 E5].
    specialize (Hset Ho). specialize (HSome Ho). specialize (HNone Ho).
    constructor; cbn [cli_verbose cli_quiet cli_state_dir cli_rrdp_dir cli_rsync_dir cli_notify_delay cli_max_deltas cli_force_moves
      cli_rsync_disable cli_include_host cli_cleanup_after cli_insecure cli_notif_uri cli_source_base cli_tal_files cli_scripts cli_reject cli_offline];
      try (by apply given_bool); try done.
    + by apply positionals_one.
    + by rewrite times_occs.
    + apply Hset; [by repeat constructor|done].
    + apply Hset; [by repeat constructor|done].
    + apply Hset; [by repeat constructor|done].
    + eexists. split; [apply Hset; [by repeat constructor|done]|by apply unsigned_iff].
    + unfold deltas_of in E2. destruct (value_of OMaxDeltas its) as [s|] eqn:Ev.
      * destruct (parse_u64 s) as [n|] eqn:En; cbn in E2; [|done]. injection E2 as <-. exists s.
        split; [apply HSome; [by repeat constructor|done]|]. rewrite N2Nat.id. by apply unsigned_iff.
      * injection E2 as <-. apply HNone; [by repeat constructor|done].
    + eexists. split; [apply Hset; [by repeat constructor|done]|by apply signed_iff].
    + destruct (value_of OSource its) as [s|] eqn:Ev; cbn.
      * exists s. split; [apply HSome; [by repeat constructor|done]|done].
      * apply HNone; [by repeat constructor|done].
    + by rewrite listing_occs.
    + by rewrite listing_occs.
  - intros [Ho Hc Hu1 Hu2 Hve Hqu Hsd Hrd Hyd Hde Hdl Hmo Hdi Hho Hcl Hin Hso Hta Hsc Hre Hof]. split; [done|].
    specialize (Hset Ho). specialize (HSome Ho). specialize (HNone Ho).
    exists (cli_notify_delay a), (cli_max_deltas a), (cli_cleanup_after a), (cli_notif_uri a).
    destruct Hde as (s1 & Hs1 & Hn1). apply Hset in Hs1; [|by repeat constructor]. apply unsigned_iff in Hn1.
    destruct Hcl as (s2 & Hs2 & Hn2). apply Hset in Hs2; [|by repeat constructor]. apply signed_iff in Hn2.
    apply Hset in Hsd; [|by repeat constructor]. apply Hset in Hrd; [|by repeat constructor]. apply Hset in Hyd; [|by repeat constructor].
    apply given_bool in Hqu, Hdi, Hho, Hin, Hre, Hof. apply positionals_one in Hu2.
    split; [by rewrite Hs1|]. split; [|split; [by rewrite Hs2|split; [by apply uri_of_iff|]]].
    + unfold deltas_of. destruct (cli_max_deltas a) as [n|].
      * destruct Hdl as (s & Hin' & Hn). apply HSome in Hin'; [|by repeat constructor]. rewrite Hin'. apply unsigned_iff in Hn. rewrite Hn. cbn. by rewrite Nat2N.id.
      * apply HNone in Hdl; [|by repeat constructor]. by rewrite Hdl.
    + rewrite times_occs in Hve. rewrite listing_occs in Hta, Hsc.
      assert (Hso' : cli_source_base a = source_of_str x <$> value_of OSource its).
      { destruct (cli_source_base a) as [b|].
        - destruct Hso as (s & Hs' & ->). apply HSome in Hs'; [|by repeat constructor]. by rewrite Hs'.
        - apply HNone in Hso; [|by repeat constructor]. by rewrite Hso. }
      destruct a; cbn in *. by subst.
Qed.

(** ** C73 *)
(** krill-sync starts with the settings [a] exactly if the command line can be read
    as options that mean [a]. *)
Theorem C73_meaning x args a :
  from_args x args = Start a <-> exists its, reads args its /\ means x its a.
Proof.
  unfold from_args. split.
  - destruct (parse_args Idle args) as [its| |] eqn:E; [|done..]. apply (parse_reads Idle) in E. cbn in E.
    intros H. exists its. split; [done|]. apply (from_clap_means x its a (reads_shaped _ _ E)).
    destruct (repeated its || conflict its); [done|]. destruct (from_clap x its); [|done]. by injection H as ->.
  - intros (its & Hr & Hm). rewrite (reads_parse _ _ Hr). apply (from_clap_means x its a (reads_shaped _ _ Hr)) in Hm as [-> ->]. done.
Qed.
(** A command line that can be read but has no meaning (no or two URIs, a text that is
    no URI or no number, an option given twice, -v with -q) is refused. *)
Theorem C73_refused x args its : reads args its -> (forall a, ~ means x its a) -> from_args x args = Refused.
Proof.
  intros Hr Hm. unfold from_args. rewrite (reads_parse _ _ Hr).
  destruct (repeated its || conflict its) eqn:E; [done|]. destruct (from_clap x its) as [a|] eqn:Ea; [|done].
  destruct (Hm a). by apply (from_clap_means x its a (reads_shaped _ _ Hr)).
Qed.

(** *** Composing command lines *)
Lemma reads_app pre its rest its' : reads pre its -> "--" ∉ pre -> stops rest -> reads rest its' ->
  reads (pre ++ rest) (its ++ its').
Proof.
  intros Hp Hd Hst Hr. revert Hd.
  induction Hp as [|o n rest0 its Hb Hn _ IH|o n s v rest0 its Hb Hn Hv _ IH|o n v rest0 its Hb Hl Hn Hv _ IH|o n v vs rest0 its Hl Hn Hv Hvs Hst0 _ IH|s fs rest0 its Hs Hf _ IH
    |s fs v rest0 its Hf Hv _ IH|s fs v rest0 its Hf Hv Hve _ IH|s fs w v rest0 its Hf Hv _ IH|u rest0 its Hu _ IH|us]; intros Hd;
    rewrite ?elem_of_cons, ?elem_of_app in Hd; cbn [app]; rewrite <- ?(assoc_L (++)); cbn [app].
  - done.
  - apply rd_flag; auto.
  - apply (rd_equals _ n); auto.
  - apply rd_one; auto 10.
  - apply rd_list; auto 10. by destruct rest0.
  - apply rd_short; auto.
  - apply rd_short_dir; auto 10.
  - apply rd_short_glued; auto.
  - apply (rd_short_equals s fs w); auto.
  - apply rd_uri; auto.
  - destruct Hd. by left.
Qed.
(** An option that krill-sync does not have. *)
Theorem C73_unknown x pre its n t rest : reads pre its -> "--" ∉ pre ->
  n <> "" -> (forall r, n <> String dash r) -> (forall l r, n <> l +:+ String equals r) -> (forall o, n ∉ names o) ->
  (t = "" \/ exists v, t = String equals v) ->
  from_args x (pre ++ ("--" +:+ n +:+ t) :: rest) = Refused.
Proof.
  intros Hp Hd Hn Hdash Heq Hun Ht. unfold from_args.
  assert (Hne : split_eq n = (n, None)).
  { destruct (split_eq n) as [m [v|]] eqn:E; [by apply split_eq_Some, Heq in E|]. by apply split_eq_None in E as ->. }
  assert (Hl : long_opt n = None).
  { destruct (long_opt n) as [o|] eqn:E; [|done]. apply long_opt_iff in E. by destruct (Hun o). }
  rewrite (parse_app _ _ _ Hp Hd) by (cbn; destruct n as [|c n]; [done|]; by exists dash, (String c n +:+ t)).
  assert (E : parse_args Idle (("--" +:+ n +:+ t) :: rest) = Refused).
  { cbn [parse_args wants]. rewrite dash2, decide_False by (by destruct n).
    assert (split_eq (n +:+ t) = (n, None) \/ exists v, split_eq (n +:+ t) = (n, Some v)) as [E|[v E]].
    { destruct Ht as [->|[v ->]]; [left; by rewrite sapp_nil_r|right; exists v; by apply split_eq_app]. }
    all: rewrite E, Hl; destruct n as [|c n]; [done|]; rewrite sapp_cons;
      cbn -[ascii_dec]; destruct (ascii_dec "-" c) as [<-|]; [by destruct (Hdash n)|done]. }
  by rewrite E.
Qed.

Lemma means_perm x its its' a : its ≡ₚ its' -> listing OTal its = listing OTal its' -> listing OScript its = listing OScript its' ->
  means x its a -> means x its' a.
Proof.
  intros Hp Ht Hs [Ho Hc Hu1 Hu2 Hve Hqu Hsd Hrd Hyd Hde Hdl Hmo Hdi Hho Hcl Hin Hso Hta Hsc Hre Hof].
  assert (Htm : forall o, times o its = times o its') by (intros o; rewrite !times_occs; unfold occs; by rewrite Hp).
  assert (Hel : forall i, i ∈ its <-> i ∈ its') by (intros i; by rewrite Hp).
  assert (Hg : forall o, given o its <-> given o its') by (intros o; unfold given; by setoid_rewrite Hel).
  assert (Hse : forall o d v, setting_is its o d v <-> setting_is its' o d v) by (intros; unfold setting_is; by rewrite Hel, Hg).
  constructor; try done.
  - intros o. rewrite <- Htm. apply Ho.
  - by rewrite <- !Hg.
  - apply positionals_one. apply positionals_one in Hu2. apply Permutation_singleton_r. rewrite <- Hu2. unfold positionals. by rewrite Hp.
  - by rewrite <- Htm.
  - by rewrite <- Hg.
  - by apply Hse.
  - by apply Hse.
  - by apply Hse.
  - setoid_rewrite <- Hse. done.
  - destruct (cli_max_deltas a); [setoid_rewrite <- Hel|rewrite <- Hg]; done.
  - by rewrite <- Hg.
  - by rewrite <- Hg.
  - setoid_rewrite <- Hse. done.
  - by rewrite <- Hg.
  - destruct (cli_source_base a); [setoid_rewrite <- Hel|rewrite <- Hg]; done.
  - by rewrite <- Ht.
  - by rewrite <- Hs.
  - by rewrite <- Hg.
  - by rewrite <- Hg.
Qed.
(** Only the order of the trust anchor files among themselves, and of the scripts
    among themselves, matters. *)
Theorem C73_order x args args' its its' : reads args its -> reads args' its' -> its ≡ₚ its' ->
  listing OTal its = listing OTal its' -> listing OScript its = listing OScript its' ->
  from_args x args = from_args x args'.
Proof.
  intros Hr Hr' Hp Ht Hs. unfold from_args. rewrite (reads_parse _ _ Hr), (reads_parse _ _ Hr').
  pose proof (from_clap_means x its) as H1. pose proof (from_clap_means x its') as H2.
  assert (Hiff : forall a, (repeated its || conflict its = false /\ from_clap x its = Some a) <->
                           (repeated its' || conflict its' = false /\ from_clap x its' = Some a)).
  { intros a. rewrite (H1 a (reads_shaped _ _ Hr)), (H2 a (reads_shaped _ _ Hr')).
    split; apply means_perm; (done || by symmetry). }
  destruct (repeated its || conflict its), (repeated its' || conflict its'); [done|..].
  - destruct (from_clap x its') as [a|]; [|done]. by destruct (proj2 (Hiff a)).
  - destruct (from_clap x its) as [a|]; [|done]. by destruct (proj1 (Hiff a)).
  - destruct (from_clap x its) as [a|]; [by destruct (proj1 (Hiff a) (conj eq_refl eq_refl)) as [_ ->]|].
    destruct (from_clap x its') as [a|]; [|done]. by destruct (proj2 (Hiff a) (conj eq_refl eq_refl)).
Qed.

(** After --tal (or --pre-validate) a URI is one more value of that option: krill-sync
    does not start.  With [--] in between, the URI is the URI. *)
Lemma list_names o : listed o -> exists n, names o = [n].
Proof. intros [->| ->]; eauto. Qed.
Theorem C73_swallowed x pre its o n v vs : reads pre its -> "--" ∉ pre -> (forall u, Pos u ∉ its) ->
  listed o -> n ∈ names o -> Forall word (v :: vs) ->
  from_args x (pre ++ ("--" +:+ n) :: v :: vs) = Refused /\
  (forall a u, from_args x (pre ++ ("--" +:+ n) :: v :: vs ++ ["--"; u]) = Start a <->
     means x (its ++ [Occ o (v :: vs); Pos u]) a).
Proof.
  intros Hp Hd Hpos Hl Hn Hw. inversion Hw as [|? ? Hv Hvs]; subst.
  assert (Hst : forall r, stops (("--" +:+ n) :: r)).
  { intros r. exists dash, n. done. }
  split.
  - apply (C73_refused x _ (its ++ [Occ o (v :: vs)])).
    + apply reads_app; [done..|]. rewrite <- (app_nil_r vs) at 1. apply rd_list; [done..|constructor].
    + intros a [_ _ _ (i & Hi & _)]. apply elem_of_list_lookup_2, elem_of_app in Hi as [Hi|Hi]; [by apply Hpos in Hi|].
      by apply elem_of_list_singleton in Hi.
  - intros a u.
    assert (Hr : reads (pre ++ ("--" +:+ n) :: v :: vs ++ ["--"; u]) (its ++ [Occ o (v :: vs); Pos u])).
    { apply reads_app; [done..|]. apply rd_list; [done..| |].
      - by exists dash, "".
      - apply (rd_rest [u]). }
    rewrite C73_meaning. split; [|eauto]. intros (its' & Hr' & Hm). apply reads_parse in Hr, Hr'. congruence.
Qed.

(** What krill-sync then works with: C54 and C40 say what becomes of [a].  From the
    command line, directories are never moved: [current] is a symbolic link. *)
Theorem C73_started x f args c : configure x f args = Start (Ok c) ->
  exists its a, reads args its /\ means x its a /\ post_configure f a = Ok c /\ c_force_moves c = false.
Proof.
  intros (a & Ha & Hc)%on_start_Start. apply C73_meaning in Ha as (its & Hr & Hm). exists its, a. split; [done|]. split; [done|].
  split; [done|]. unfold post_configure in Hc. destruct (post_configure_source _ _ _ _) as [[b m]| |]; [|done..].
  destruct (post_configure_dirs _ _ _) as [r1 r2]. injection Hc as ->. apply Hm.
Qed.
Print Assumptions C73_meaning.
Print Assumptions C73_refused.
Print Assumptions C73_unknown.
Print Assumptions C73_order.
Print Assumptions C73_swallowed.
Print Assumptions C73_started.

(** ** Examples *)
Definition cli_args : list string :=
  ["-v"; "--state-dir=/tmp/ks"; "--tal"; "/a.tal"; "/b.tal"; "--insecure"; "--cleanup-after"; "7200"; "-vs/tmp/ks2"].
Definition demo_uri : string := "https://h/rrdp/notification.xml".
(** the state directory is given twice *)
Example C73_twice : from_args demo_ext (cli_args ++ [demo_uri]) = Refused.
Proof. vm_compute. reflexivity. Qed.
Definition cli_args2 : list string :=
  ["-v"; "--rrdp-dir=/tmp/rrdp"; "--tal"; "/a.tal"; "/b.tal"; "--insecure"; "--cleanup-after"; "+7200"; "-vs/tmp/ks"; "--source_uri_base"; "/srv/copy"].
Example C73_example :
  exists a, from_args demo_ext (cli_args2 ++ [demo_uri]) = Start a /\ cli_verbose a = 2%N /\ cli_state_dir a = "/tmp/ks" /\
    cli_rrdp_dir a = "/tmp/rrdp" /\ cli_rsync_dir a = "/var/lib/krill-sync/rsync" /\ cli_tal_files a = [["a.tal"]; ["b.tal"]] /\
    cli_insecure a = true /\ cli_cleanup_after a = 7200%Z /\ cli_source_base a = Some (SFile ["srv"; "copy"]) /\
    cli_notif_uri a = demo_uri /\ cli_max_deltas a = None.
Proof. eexists. split; [vm_compute; reflexivity|]. vm_compute. auto 20. Qed.
(** so there is a reading of it, with a meaning *)
Example C73_applies : exists its a, reads (cli_args2 ++ [demo_uri]) its /\ means demo_ext its a.
Proof. destruct C73_example as (a & Ha & _). apply C73_meaning in Ha as (its & H). eauto. Qed.
(** another order, and a [--] *)
Example C73_example_order :
  from_args demo_ext (cli_args2 ++ [demo_uri]) =
  from_args demo_ext (["--insecure"; "--tal=/a.tal"; demo_uri; "-s"; "/tmp/ks"; "-vv"; "--source-uri-base==/srv/copy"; "--tal"; "/b.tal";
    "--rrdp-dir"; "/tmp/rrdp"; "--cleanup-after=7200"; "--"]).
Proof. vm_compute. reflexivity. Qed.
Example C73_example_swallowed : from_args demo_ext ["--insecure"; "--tal"; "/a.tal"; demo_uri] = Refused /\
  from_args demo_ext ["--force-moves"; demo_uri] = Refused /\ from_args demo_ext ["-vq"; demo_uri] = Refused /\
  from_args demo_ext ["--rrdp-max-deltas=-1"; demo_uri] = Refused.
Proof. vm_compute. auto. Qed.
(** README.md:153 has the option the wrong way round, README.md:125 has 600
    seconds as default *)
Example C73_example_readme : from_args demo_ext ["--disable-rsync"; demo_uri] = Refused /\
  exists a, from_args demo_ext ["--rsync-disable"; demo_uri] = Start a /\ cli_rsync_disable a = true /\ cli_cleanup_after a = 3600%Z.
Proof. split; [vm_compute; reflexivity|]. eexists. split; [vm_compute; reflexivity|vm_compute; auto]. Qed.
(** two surprises: a negative cleanup time can be given with [=]; 256 times -v is
    as quiet as none *)
Example C73_example_odd :
  (exists a, from_args demo_ext ["--cleanup-after=-5"; demo_uri] = Start a /\ cli_cleanup_after a = (-5)%Z) /\
  (exists a, from_args demo_ext (repeat "-v" 256 ++ [demo_uri]) = Start a /\ cli_verbose a = 0%N).
Proof. split; eexists; (split; [vm_compute; reflexivity|vm_compute; reflexivity]). Qed.
