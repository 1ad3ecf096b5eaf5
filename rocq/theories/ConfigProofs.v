(** * Proofs about the configuration *)
From Verif Require Export StringProofs Config.

(** Two texts name the same path: both absolute or both relative, and the same
    components. *)
Definition same_path (a b : string) : Prop :=
  starts_with_slash a = starts_with_slash b /\ comps a = comps b.

Lemma path_eqb_spec a b : path_eqb a b = true <-> same_path a b.
Proof.
  unfold path_eqb, same_path. rewrite andb_true_iff, bool_decide_eq_true, Bool.eqb_true_iff. done.
Qed.
Lemma path_eqb_false a b : path_eqb a b = false <-> ~ same_path a b.
Proof. rewrite <- path_eqb_spec. by destruct (path_eqb a b). Qed.

Lemma follow_default_rrdp state :
  str_replace DEFAULT_STATE_DIR state DEFAULT_RRDP_DIR = state +:+ "/rrdp".
Proof. reflexivity. Qed.
Lemma follow_default_rsync state :
  str_replace DEFAULT_STATE_DIR state DEFAULT_RSYNC_DIR = state +:+ "/rsync".
Proof. reflexivity. Qed.

Lemma dirs_default f a c :
  post_configure f a = Ok c ->
  same_path (cli_state_dir a) "/var/lib/krill-sync" ->
  c_rrdp_dir c = path_of (cli_rrdp_dir a) /\ c_rsync_dir c = path_of (cli_rsync_dir a).
Proof.
  unfold post_configure, post_configure_dirs. intros H Hs. apply path_eqb_spec in Hs.
  change "/var/lib/krill-sync" with DEFAULT_STATE_DIR in Hs. rewrite Hs in H.
  destruct (post_configure_source _ _ _ _) as [[b m]|x|]; [|done|done]. by injection H as <-.
Qed.
Lemma dirs_follow f a c :
  post_configure f a = Ok c ->
  ~ same_path (cli_state_dir a) "/var/lib/krill-sync" ->
  (cli_rrdp_dir a = "/var/lib/krill-sync/rrdp" -> c_rrdp_dir c = path_of (cli_state_dir a) ++ ["rrdp"]) /\
  (~ same_path (cli_rrdp_dir a) "/var/lib/krill-sync/rrdp" -> c_rrdp_dir c = path_of (cli_rrdp_dir a)) /\
  (cli_rsync_dir a = "/var/lib/krill-sync/rsync" -> c_rsync_dir c = path_of (cli_state_dir a) ++ ["rsync"]) /\
  (~ same_path (cli_rsync_dir a) "/var/lib/krill-sync/rsync" -> c_rsync_dir c = path_of (cli_rsync_dir a)).
Proof.
  unfold post_configure, post_configure_dirs. intros H Hs. apply path_eqb_false in Hs.
  change "/var/lib/krill-sync" with DEFAULT_STATE_DIR in Hs. rewrite Hs in H.
  destruct (post_configure_source _ _ _ _) as [[b m]|x|]; [|done|done]. injection H as <-.
  cbn [c_rrdp_dir c_rsync_dir]. unfold follow_state_dir. repeat split.
  - intros ->. change (path_eqb "/var/lib/krill-sync/rrdp" DEFAULT_RRDP_DIR) with true.
    change "/var/lib/krill-sync/rrdp" with DEFAULT_RRDP_DIR. rewrite follow_default_rrdp.
    apply path_of_sep. by repeat split.
  - intros Hn%path_eqb_false. change "/var/lib/krill-sync/rrdp" with DEFAULT_RRDP_DIR in Hn. by rewrite Hn.
  - intros ->. change (path_eqb "/var/lib/krill-sync/rsync" DEFAULT_RSYNC_DIR) with true.
    change "/var/lib/krill-sync/rsync" with DEFAULT_RSYNC_DIR. rewrite follow_default_rsync.
    apply path_of_sep. by repeat split.
  - intros Hn%path_eqb_false. change "/var/lib/krill-sync/rsync" with DEFAULT_RSYNC_DIR in Hn. by rewrite Hn.
Qed.

(** ** Where the source is *)
Lemma configured_map f a c :
  post_configure f a = Ok c ->
  match cli_source_base a with
  | None => c_fetch_map c = None
  | Some s =>
      exists base, https_parent (cli_notif_uri a) = Some base /\
        c_fetch_map c = Some (mkFM base (match s with
          | SFile p => SFile p
          | SUri u m => SUri u (if cli_insecure a then Insecure else m) end))
  end /\ c_notif_uri c = cli_notif_uri a /\ c_insecure c = cli_insecure a.
Proof.
  unfold post_configure, post_configure_source. intros H.
  destruct (post_configure_dirs _ _ _) as [r1 r2].
  destruct (https_parent (cli_notif_uri a)) as [base|] eqn:Hp; [|done].
  destruct (cli_source_base a) as [s|]; cbn in H.
  - destruct (source_is_dir _ _) eqn:Hd; [|done]. injection H as <-. cbn. split; [|done].
    exists base. split; [done|]. unfold apply_insecure.
    destruct (cli_insecure a), s; done.
  - injection H as <-. done.
Qed.

(** ** Log levels *)
Definition level_rank (l : level) : nat :=
  match l with LError => 1 | LWarn => 2 | LInfo => 3 | LDebug => 4 | LTrace => 5 end.
Definition level_le (a b : level) : Prop := (level_rank a <= level_rank b)%nat.

Lemma log_levels_cases v : exists k, (k <= 6)%N /\ log_levels false v = log_levels false k /\ (k = v \/ (k = 6 /\ 6 <= v)%N).
Proof.
  destruct (decide (v <= 6)%N) as [H|H]; [exists v; auto|].
  exists 6%N. split; [lia|]. split; [|right; lia].
  unfold log_levels. destruct v as [|p]; [lia|].
  assert (Hp : (6 < Pos.to_nat p)%nat) by lia.
  do 3 (destruct p as [p|p|]; try reflexivity; try lia).
Qed.
Lemma log_levels_mono v :
  level_le (log_levels false v).1 (log_levels false (v + 1)).1 /\
  level_le (log_levels false v).2 (log_levels false (v + 1)).2.
Proof.
  unfold level_le. destruct (decide (v < 6)%N) as [H|H].
  - assert (v = 0 \/ v = 1 \/ v = 2 \/ v = 3 \/ v = 4 \/ v = 5)%N as Hv by lia.
    repeat (destruct Hv as [->|Hv]; [vm_compute; split; lia|]). subst. vm_compute; split; lia.
  - destruct (log_levels_cases v) as (k & Hk & -> & Hk').
    destruct (log_levels_cases (v + 1)) as (k2 & Hk2 & -> & Hk2').
    assert (k = 6 /\ k2 = 6)%N as [-> ->] by lia. done.
Qed.
