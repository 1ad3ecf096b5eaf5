(** * src/config.rs *)
From Verif Require Export Fetch.

(** config.rs:62-162.  Directories are paths; see [post_configure_dirs] for the
    string-level treatment of their defaults.  Fields only used for logging or
    printing are kept where a property speaks about them. *)
Record config := mkConfig {
  c_verbose : N;
  c_quiet : bool;
  c_state_dir : path;
  c_rrdp_dir : path;
  c_notify_delay : N;
  c_max_deltas : option nat;
  c_rsync_dir : path;
  c_force_moves : bool;
  c_rsync_disable : bool;
  c_include_host : bool;
  c_cleanup_after : Z;
  c_insecure : bool;
  c_notif_uri : https;
  c_source_base : option fetch_source;
  c_fetch_map : option fetch_map;
  c_tal_files : list path;
  c_scripts : list path;
  c_reject : bool;
  c_offline : bool }.

(** config.rs:165-167 *)
Definition rsync_enabled (c : config) : bool := negb (c_rsync_disable c).
(** config.rs:169-175, on unix.  On other systems directories are always moved,
    as with [c_force_moves]; renaming is POSIX's in this model. *)
Definition use_symlinks (c : config) : bool := negb (c_force_moves c).
(** config.rs:177-179 *)
Definition rsync_current (c : config) : path := path_join (c_rsync_dir c) "current".
(** config.rs:181-189 *)
Definition config_fetcher (c : config) : fetcher :=
  mkFetcher (c_notif_uri c) (c_fetch_map c) (if c_insecure c then Insecure else Strict).
(** config.rs:195-197 *)
Definition staging_dir (c : config) : path := path_join (c_state_dir c) "pre-validate-staging".
(** config.rs:191-193 *)
Definition staging_path (c : config) (rel : string) : path := path_join (staging_dir c) rel.
(** config.rs:199-201 *)
Definition rrdp_state_path (c : config) : path := path_join (c_state_dir c) "rrdp-state.json".
(** config.rs:203-205 *)
Definition rsync_state_path (c : config) : path := path_join (c_state_dir c) "rsync-state.json".
(** config.rs:207-209 *)
Definition lock_path (c : config) : path := path_join (c_state_dir c) "krill-sync.lock".

(** config.rs:24-44 defaults *)
Definition DEFAULT_STATE_DIR : string := "/var/lib/krill-sync".
Definition DEFAULT_RRDP_DIR : string := "/var/lib/krill-sync/rrdp".
Definition DEFAULT_RSYNC_DIR : string := "/var/lib/krill-sync/rsync".

(** [Path::eq] on absolute path strings compares components. *)
Definition path_eqb (a b : string) : bool :=
  Bool.eqb (starts_with_slash a) (starts_with_slash b) && bool_decide (comps a = comps b).

(** config.rs:289-307: state, RRDP and rsync directory strings as given on the
    command line (or defaulted) to the ones used. *)
Definition follow_state_dir (default state dir : string) : string :=
  if path_eqb dir default then str_replace DEFAULT_STATE_DIR state dir else dir.
Definition post_configure_dirs (state rrdp rsync : string) : string * string :=
  if path_eqb state DEFAULT_STATE_DIR then (rrdp, rsync)
  else (follow_state_dir DEFAULT_RRDP_DIR state rrdp,
        follow_state_dir DEFAULT_RSYNC_DIR state rsync).

(** fetch.rs:200-205 [FetchSource::is_dir] *)
Definition source_is_dir (f : fs) (s : fetch_source) : bool :=
  match s with
  | SFile p => fs_is_dir f p
  | SUri u _ => ends_with "/" u
  end.

(** config.rs:262-277: --insecure reaches the source base *)
Definition apply_insecure (insecure : bool) (s : fetch_source) : fetch_source :=
  if insecure then
    match s with SFile p => SFile p | SUri u _ => SUri u Insecure end
  else s.

(** config.rs:254-287: source base to fetch map.  [f] is the file system at
    start-up. *)
Definition post_configure_source (f : fs) (uri : https) (insecure : bool)
    (base : option fetch_source) : res (option fetch_source * option fetch_map) :=
  match https_parent uri with
  | None => Err EParent
  | Some base_uri =>
      match apply_insecure insecure <$> base with
      | None => Ok (None, None)
      | Some b =>
          if source_is_dir f b then Ok (Some b, Some (mkFM base_uri b))
          else Err ESourceDir
      end
  end.

(** The command line after structopt parsing (see Cli.v); directories still strings.
    [cli_force_moves] is no option (config.rs:97-100, [structopt(skip)]): code sets it. *)
Record cli := mkCli {
  cli_verbose : N; cli_quiet : bool;
  cli_state_dir : string; cli_rrdp_dir : string; cli_rsync_dir : string;
  cli_notify_delay : N; cli_max_deltas : option nat;
  cli_force_moves : bool; cli_rsync_disable : bool; cli_include_host : bool;
  cli_cleanup_after : Z; cli_insecure : bool; cli_notif_uri : https;
  cli_source_base : option fetch_source;
  cli_tal_files : list path; cli_scripts : list path;
  cli_reject : bool; cli_offline : bool }.

(** config.rs:254-310 [post_configure] *)
Definition post_configure (f : fs) (a : cli) : res config :=
  match post_configure_source f (cli_notif_uri a) (cli_insecure a) (cli_source_base a) with
  | Ok (base, map) =>
      let '(rrdp, rsync) :=
        post_configure_dirs (cli_state_dir a) (cli_rrdp_dir a) (cli_rsync_dir a) in
      Ok (mkConfig (cli_verbose a) (cli_quiet a)
            (path_of (cli_state_dir a)) (path_of rrdp)
            (cli_notify_delay a) (cli_max_deltas a) (path_of rsync)
            (cli_force_moves a) (cli_rsync_disable a) (cli_include_host a)
            (cli_cleanup_after a) (cli_insecure a) (cli_notif_uri a)
            base map (cli_tal_files a) (cli_scripts a) (cli_reject a) (cli_offline a))
  | Err e => Err e
  | Panic => Panic
  end.

(** config.rs:312-325: log levels *)
Inductive level := LError | LWarn | LInfo | LDebug | LTrace.
Definition log_levels (quiet : bool) (verbose : N) : level * level :=
  if quiet then (LError, LError)
  else match verbose with
       | 0 => (LWarn, LWarn)
       | 1 => (LInfo, LWarn)
       | 2 => (LDebug, LWarn)
       | 3 => (LTrace, LWarn)
       | 4 => (LTrace, LInfo)
       | 5 => (LTrace, LDebug)
       | _ => (LTrace, LTrace)
       end%N.
