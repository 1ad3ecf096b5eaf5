(** * Histories: sequences of runs, killed anywhere *)
From Verif Require Export RunFate Limited.

(** the same notification, kept in the same places; everything else about the
    configuration may differ from run to run *)
Definition same_places (c c' : config) : Prop :=
  c_notif_uri c' = c_notif_uri c /\ c_state_dir c' = c_state_dir c /\
  c_rrdp_dir c' = c_rrdp_dir c /\ c_rsync_dir c' = c_rsync_dir c.

(** the names in what the source offers are proper relative paths *)
Record good_world (c : config) (base name : string) (e : env) (f : fs) : Prop := {
  gw_notif : forall n, offers c e f n -> good_notif base name n;
  gw_snap : clean_snapshots (e_ext e) }.

(** [mirror P c base name f]: the tree [f] is the result of any number of runs
    started from a tree without state file, each of them completed, failed or
    killed at any instant, while others may change anything that krill-sync does
    not own; all notifications offered by the source satisfy [P] *)
Inductive mirror (P : notification -> Prop) (c : config) (base name : string) : fs -> Prop :=
| mi_start f : wf f -> f !! rrdp_state_path c = None -> mirror P c base name f
| mi_run f c' e g : mirror P c base name f -> same_places c c' -> good_world c' base name e f ->
    (forall n, offers c' e f n -> P n) -> g ∈ instants c' e f -> mirror P c base name g
| mi_else f g : mirror P c base name f -> wf g -> (forall p, owned c p -> g !! p = f !! p) -> mirror P c base name g.
Definition any_notif (n : notification) : Prop := True.

(** A run that continues such a history: [f] is the tree it starts on, [e] the
    world it runs in. *)
Record setting (c : config) (base name : string) (e : env) (f : fs) : Prop := {
  se_cfg : cfg_ok c base name;
  se_mirror : mirror any_notif c base name f;
  se_world : good_world c base name e f }.

(** ** Sources *)
(** the source's version [i], limited and sorted as krill-sync uses it *)
Definition version (x : ext) (limit : option nat) (src : nat -> notification) (i : nat) (n : notification) : Prop :=
  in_use x limit (src i) n.

Inductive kind := SnapshotFile | DeltaFile.
Record listing := mkListing {
  li_uri : https; li_hash : hash; li_session : uuid; li_serial : N; li_kind : kind }.
(** what a notification says about the files it lists *)
Definition listings (n : notification) : list listing :=
  mkListing (n_snap_uri n) (n_snap_hash n) (n_session n) (n_serial n) SnapshotFile ::
  ((fun d => mkListing (di_uri d) (di_hash d) (n_session n) (di_serial d) DeltaFile) <$> n_deltas n).
Definition lists (n : notification) (u : https) : Prop := exists a, a ∈ listings n /\ li_uri a = u.

(** A URI always means the same file, and a file that is no longer listed is
    not listed again. *)
Record stable_source (x : ext) (limit : option nat) (src : nat -> notification) : Prop := {
  sb_unique : forall i j a b, a ∈ listings (src i) -> b ∈ listings (src j) -> li_uri a = li_uri b -> a = b;
  sb_gone : forall i j l ni nj nl u, i <= j -> j <= l ->
    version x limit src i ni -> version x limit src j nj -> version x limit src l nl ->
    lists ni u -> lists nl u -> lists nj u }.

(** the run takes less time than files are kept, and the arithmetic does not
    overflow *)
Definition patient (c : config) (e : env) : Prop :=
  forall a b, (e_clock e a - c_cleanup_after c < e_clock e b)%Z /\
    (- 2 ^ 63 <= e_clock e a - c_cleanup_after c < 2 ^ 63)%Z.

(** The served notification lists only files of the recorded version.  It lists
    others only after a kill, or a failure, between publishing a version and
    saving the state. *)
Definition settled (c : config) (base name : string) (x : ext) (f : fs) : Prop :=
  forall n, f !! notif_path c name = Some (File (x_write_notif x n) None) ->
    exists st, starts_from c base name f st /\
      forall u h, (u, h) ∈ refs n -> exists rel, u = base +:+ rel /\ (rel, h) ∈ state_files st.

(** [follows c base name x src k f]: as [mirror], for a source that has
    published the versions [src 0], [src 1], ... and whose version [k] may have
    been seen *)
Inductive follows (c : config) (base name : string) (x : ext) (src : nat -> notification) : nat -> fs -> Prop :=
| fo_start f : wf f -> f !! rrdp_state_path c = None -> f !! notif_path c name = None ->
    no_links (staging_dir c) f -> follows c base name x src 0 f
| fo_run k k' f c' e g : follows c base name x src k f ->
    same_places c c' -> c_max_deltas c' = c_max_deltas c -> e_ext e = x ->
    no_bad_304 e -> (may_copy e -> settled c base name x f) -> patient c' e ->
    k <= k' -> (forall n, offers c' e f n -> exists i, k <= i /\ i <= k' /\ n = src i) ->
    g ∈ instants c' e f -> follows c base name x src k' g
| fo_else k f g : follows c base name x src k f -> wf g -> (forall p, owned c p -> g !! p = f !! p) ->
    follows c base name x src k g.
