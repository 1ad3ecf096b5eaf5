(** * The command line: config.rs:58-162 and 212-215

    The attributes of the fields of [Config], and what structopt 0.3 and clap 2
    make of a list of arguments with them.  Their source is not at hand; the model
    has what their documentation says.  Simplifications: spellings that the
    documentation does not settle ([--flag=value], three dashes, an option that
    takes a value and is followed by another option) have the outcome [Odd],
    about which nothing is said; [--help] and [--version] are [Refused] too (the
    program ends without having done anything). *)
From Verif Require Export Config Json.

(** config.rs:70-161: the fields with an option *)
Inductive opt :=
| OVerbose | OQuiet | OStateDir | ORrdpDir | ONotifyDelay | OMaxDeltas | ORsyncDir
| ORsyncDisable | OIncludeHost | OCleanup | OInsecure | OSource | OTal | OScript
| OReject | OOffline.
Global Instance opt_eq_dec : EqDecision opt.
Proof. solve_decision. Defined.

(** config.rs:65-161: [bool] is a flag, [from_occurrences] a repeatable flag, [Vec]
    an option with any number of values, everything else an option with one. *)
Inductive arity := Flag | Flags | One | Many.
Global Instance arity_eq_dec : EqDecision arity.
Proof. solve_decision. Defined.
Definition arity_of (o : opt) : arity :=
  match o with
  | OVerbose => Flags
  | OQuiet | ORsyncDisable | OIncludeHost | OInsecure | OReject | OOffline => Flag
  | OTal | OScript => Many
  | _ => One
  end.

(** config.rs:67,74,78,82,86,90,94,103,107,111,115,123-124,137,142,150,160: [long] and [alias] *)
Definition long_opt (n : string) : option opt :=
  if decide (n = "verbose") then Some OVerbose
  else if decide (n = "quiet") then Some OQuiet
  else if decide (n = "state-dir") then Some OStateDir
  else if decide (n = "rrdp-dir") then Some ORrdpDir
  else if decide (n = "rrdp-notify-delay") then Some ONotifyDelay
  else if decide (n = "rrdp-max-deltas") then Some OMaxDeltas
  else if decide (n = "rsync-dir") then Some ORsyncDir
  else if decide (n = "rsync-disable") then Some ORsyncDisable
  else if decide (n = "rsync-include-host") then Some OIncludeHost
  else if decide (n = "cleanup-after") then Some OCleanup
  else if decide (n = "insecure") then Some OInsecure
  else if decide (n = "source-uri-base") then Some OSource
  else if decide (n = "source_uri_base") then Some OSource
  else if decide (n = "tal") then Some OTal
  else if decide (n = "pre-validate") then Some OScript
  else if decide (n = "tal-reject-invalid") then Some OReject
  else if decide (n = "offline-validation") then Some OOffline
  else None.
(** config.rs:66,74,78: [short] *)
Definition short_opt (a : ascii) : option opt :=
  if Ascii.eqb a "v" then Some OVerbose
  else if Ascii.eqb a "q" then Some OQuiet
  else if Ascii.eqb a "s" then Some OStateDir
  else None.

(** ** clap: arguments to occurrences of options with their values *)
Inductive item := Occ (o : opt) (vs : list string) | Pos (u : string).
Inductive startup (A : Type) := Start (a : A) | Refused | Odd.
Arguments Start {A} _.
Arguments Refused {A}.
Arguments Odd {A}.
Definition on_start {A B} (g : A -> B) (v : startup A) : startup B :=
  match v with Start a => Start (g a) | Refused => Refused | Odd => Odd end.

Inductive shape := Long (r : string) | Short (r : string) | Word.
(** clap: what an argument looks like; a single dash is a word *)
Definition shape_of (a : string) : shape :=
  match a with
  | String c1 (String c2 r) =>
      if Ascii.eqb c1 "-" then if Ascii.eqb c2 "-" then Long r else Short (String c2 r)
      else Word
  | _ => Word
  end.
(** clap: name and value around the first [=] *)
Fixpoint split_eq (s : string) : string * option string :=
  match s with
  | EmptyString => ("", None)
  | String a r =>
      if Ascii.eqb a "=" then ("", Some r)
      else let '(n, v) := split_eq r in (String a n, v)
  end.
(** clap drops all [=] in front of a value *)
Fixpoint trim_eq (s : string) : string :=
  match s with
  | String a r => if Ascii.eqb a "=" then trim_eq r else s
  | EmptyString => ""
  end.
(** clap: [-vvq], [-s dir], [-sdir], [-s=dir]; also the option still without value *)
Fixpoint cluster (s : string) : option (list item * option opt) :=
  match s with
  | EmptyString => Some ([], None)
  | String a r =>
      match short_opt a with
      | None => None
      | Some o =>
          match arity_of o with
          | Flag | Flags =>
              match cluster r with
              | Some (its, p) => Some (Occ o [] :: its, p)
              | None => None
              end
          | One | Many =>
              match r with
              | EmptyString => Some ([], Some o)
              | _ => Some ([Occ o [trim_eq r]], None)
              end
          end
      end
  end.

(** What the parser waits for: nothing, the first value of an option, more values
    of an option that takes many. *)
Inductive pending := Idle | Wants (o : opt) | More (o : opt) (vs : list string).
Definition flush (p : pending) : list item :=
  match p with More o vs => [Occ o vs] | _ => [] end.
Definition wants (p : pending) : bool := match p with Wants _ => true | _ => false end.

(** clap: the arguments from left to right.  An option with many values takes
    words up to the next option; after [--] there are only positional arguments. *)
Fixpoint parse_args (p : pending) (args : list string) : startup (list item) :=
  match args with
  | [] => if wants p then Refused else Start (flush p)
  | a :: rest =>
      match shape_of a with
      | Word =>
          match p with
          | Idle => on_start (cons (Pos a)) (parse_args Idle rest)
          | Wants o =>
              match arity_of o with
              | Many => parse_args (More o [a]) rest
              | _ => on_start (cons (Occ o [a])) (parse_args Idle rest)
              end
          | More o vs => parse_args (More o (vs ++ [a])) rest
          end
      | Long r =>
          if wants p then Odd
          else if decide (r = "") then Start (flush p ++ map Pos rest)
          else let '(n, v) := split_eq r in
            match long_opt n with
            | None => if String.prefix "-" r then Odd else Refused
            | Some o =>
                match arity_of o, v with
                | (Flag | Flags), None => on_start (app (flush p ++ [Occ o []])) (parse_args Idle rest)
                | (Flag | Flags), Some _ => Odd
                | (One | Many), Some v => on_start (app (flush p ++ [Occ o [trim_eq v]])) (parse_args Idle rest)
                | (One | Many), None => on_start (app (flush p)) (parse_args (Wants o) rest)
                end
            end
      | Short r =>
          if wants p then Odd
          else match cluster r with
               | None => Refused
               | Some (its, None) => on_start (app (flush p ++ its)) (parse_args Idle rest)
               | Some (its, Some o) => on_start (app (flush p ++ its)) (parse_args (Wants o) rest)
               end
      end
  end.

(** ** structopt: occurrences to the fields of Config *)

(** the occurrences of an option *)
Definition occs (o : opt) (its : list item) : list (list string) :=
  omap (fun i => match i with Occ o' vs => if decide (o' = o) then Some vs else None | _ => None end) its.
Definition positionals (its : list item) : list string :=
  omap (fun i => match i with Pos u => Some u | _ => None end) its.
Definition is_given (o : opt) (its : list item) : bool :=
  match occs o its with [] => false | _ => true end.
Definition value_of (o : opt) (its : list item) : option string := head (concat (occs o its)).

(** [u64::from_str], [usize::from_str] (64 bit), [i64::from_str] *)
Definition all_digits (s : string) : option N :=
  match s with
  | EmptyString => None
  | _ => match read_digits 0 s with (n, EmptyString) => Some n | _ => None end
  end.
Definition unsign (s : string) : string :=
  match s with String a r => if Ascii.eqb a "+" then r else s | _ => s end.
Definition parse_u64 (s : string) : option N :=
  n ← all_digits (unsign s); if (n <? 2 ^ 64)%N then Some n else None.
Definition parse_i64 (s : string) : option Z :=
  match s with
  | String a r =>
      if Ascii.eqb a "-" then n ← all_digits r; if (n <=? 2 ^ 63)%N then Some (- Z.of_N n)%Z else None
      else n ← all_digits (unsign s); if (n <? 2 ^ 63)%N then Some (Z.of_N n) else None
  | EmptyString => None
  end.

(** config.rs:24-44 *)
Definition DEFAULT_CLEANUP_SECONDS : string := "3600".
Definition DEFAULT_RRDP_NOTIFY_DELAY_SECONDS : string := "0".

(** clap: options that may be given only once *)
Definition single (o : opt) : bool :=
  match arity_of o with Flag | One => true | _ => false end.
Definition all_opts : list opt :=
  [OVerbose; OQuiet; OStateDir; ORrdpDir; ONotifyDelay; OMaxDeltas; ORsyncDir; ORsyncDisable;
   OIncludeHost; OCleanup; OInsecure; OSource; OTal; OScript; OReject; OOffline].
Definition repeated (its : list item) : bool :=
  existsb (fun o => single o && (1 <? length (occs o its))%nat) all_opts.
(** config.rs:69,74: [conflicts_with] *)
Definition conflict (its : list item) : bool := is_given OVerbose its && is_given OQuiet its.

(** structopt's [from_clap] for config.rs:63-162; [default_value]s of lines 78-111;
    the counter of line 71 is cast to [u8]; lines 99 and 130 are skipped. *)
Definition from_clap (x : ext) (its : list item) : option cli :=
  delay ← parse_u64 (default DEFAULT_RRDP_NOTIFY_DELAY_SECONDS (value_of ONotifyDelay its));
  deltas ← match value_of OMaxDeltas its with
           | Some s => n ← parse_u64 s; Some (Some (N.to_nat n))
           | None => Some None
           end;
  cleanup ← parse_i64 (default DEFAULT_CLEANUP_SECONDS (value_of OCleanup its));
  uri ← match positionals its with [u] => if x_https_ok x u then Some u else None | _ => None end;
  Some (mkCli (N.of_nat (length (occs OVerbose its)) mod 256) (is_given OQuiet its)
    (default DEFAULT_STATE_DIR (value_of OStateDir its))
    (default DEFAULT_RRDP_DIR (value_of ORrdpDir its))
    (default DEFAULT_RSYNC_DIR (value_of ORsyncDir its))
    delay deltas false (is_given ORsyncDisable its) (is_given OIncludeHost its)
    cleanup (is_given OInsecure its) uri
    (source_of_str x <$> value_of OSource its)
    (path_of <$> concat (occs OTal its)) (path_of <$> concat (occs OScript its))
    (is_given OReject its) (is_given OOffline its)).

(** config.rs:213 [Config::from_args] *)
Definition from_args (x : ext) (args : list string) : startup cli :=
  match parse_args Idle args with
  | Start its =>
      if repeated its || conflict its then Refused
      else match from_clap x its with Some a => Start a | None => Refused end
  | Refused => Refused
  | Odd => Odd
  end.
(** config.rs:212-215 [configure] *)
Definition configure (x : ext) (f : fs) (args : list string) : startup (res config) :=
  on_start (post_configure f) (from_args x args).
