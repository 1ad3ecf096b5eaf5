# krill-sync in Rocq: design

Source: NLnetLabs/krill-sync 0.3.1, /repo (read as text; not built or run).
`properties.jsonl` has the properties in words, `MANIFEST.json` the theorems for
each of them, `rocq/theories` the model and the proofs, `seeded/LOG.jsonl` the
wrong programs the theorems were tried on.  `tools/` has the scripts that
generate the first two and this file.

## Shape of the model

* A file system is a finite map from absolute paths (lists of components) to
  nodes: file with bytes and modification time, directory, symbolic link (`Fs.v`).
* Effects run in a monad `M A = env -> world -> res A * world` (`Monad.v`).  The
  world holds the current file system and a trace of everything observable:
  every tree that exists at some instant (including each prefix of a file that is
  being written, each step of a recursive removal, each file of a copy), every
  HTTPS request, clock reading, script start and sleep.
* The environment `env` answers everything the program cannot decide: HTTP
  replies, clock readings, I/O faults (which operation fails, and after how many
  of its intermediate trees), script results, stack depth.  Theorems quantify over
  all environments: all sources, all clocks (also ones that go backwards), all
  failures.
* A run is `run c e f`: `process` with configuration `c` in environment `e` on the
  tree `f`.  `instants c e f` are all trees that exist during it.  A kill leaves
  one of them, and the next run starts from it.
* `mirror P c base name f` (`History.v`): `f` is what any number of runs can leave,
  each completed, failed or killed at any instant, with any settings that keep the
  places, in any environment, with anything that is not krill-sync's changed in
  between.  `setting c base name e f`: a run that continues such a history.  Nearly
  all theorems about runs are about settings, so about all histories.
* Each Rust function is one Gallina definition with the cited lines.  `Result` is
  `Ok`/`Err`, a panic is the third outcome `Panic`.
* Functions of external crates (rpki, uuid, sha2, reqwest) are fields of the record
  `ext` or answers of the environment; theorems hold for all of them, with what
  each theorem needs as a hypothesis.

Vocabulary of the statements, apart from the model itself: `Spec.v`
(runs, places, what is published), `ValidatorSpec.v` (validation), `History.v`
(histories, sources).

## Hypotheses that recur

* `cfg_ok c base name` (part of `setting`): directory names are proper; the RRDP and
  rsync directories, the staging directory and the two state files do not lie
  in one another; the notification URI is `base` followed by the file name `name`.
* `good_world`: what follows `base` in the URIs of an offered notification is a
  proper relative path other than the notification's own names; snapshot object
  URIs have no empty, `.` or `..` segments.  Violations are a finding (C26).
* `honest_run` / `no_bad_304`: an unconditional request is not answered with 304,
  the staging directory has no symbolic links, no two listed files share a path.
  `C03_304_refuted` shows what happens otherwise.
* `~ may_copy e`: renaming from staging to the RRDP directory does not fail (the
  fallback copies, which is not atomic).  Only `C03_verified` assumes it
  (`C03_copied` says what holds otherwise).  The histories of C01 allow failing
  renames in a run that starts from a `settled` tree: the served notification
  lists only files of the recorded state.
* `order_ok`: the order in which the rpki crate hands out manifest entries is a
  permutation of the manifest.

## Trusted base

* Coq 8.16.1's kernel, including `vm_compute` (the examples and `_refuted`
  theorems compute runs of the model), and coqchk if used.
* `Print Assumptions` says "Closed under the global context" for every theorem in
  `MANIFEST.json` (the commands are at the end of each `Props*.v` file).
  The development declares no axioms, has no admitted proofs, no functors or
  module types, and switches off no check.
* std++ (which loads ssreflect) is used for finite maps and lists.  It loads the
  standard library's `Coq.ssr.ssrunder`, whose opaque module `Under_rel` coqchk
  lists as axioms (seven constants `Coq.ssr.ssrunder.Under_rel.*`).  No
  theorem here depends on them.
* That the model says what the code does: by reading, function by function; the
  code was not run.

## What is modelled

| source | model | remarks |
|---|---|---|
| main.rs `main`, `try_main`, `lock` | `Main.v`, `Process.v`, `Lock.v` | `Lock.v` interleaves any number of processes at single operations; locks belong to inodes as with flock(2) |
| process.rs `process` | `Process.v` | complete |
| rrdp.rs | `State.v`, `Rrdp.v` | complete |
| rsync.rs | `State.v`, `Rsync.v` | complete; the snapshot file is read in one step |
| fetch.rs | `Fetch.v` | complete up to the HTTP exchange itself |
| file_ops.rs | `FileOps.v` | complete |
| config.rs | `Config.v`, `Cli.v` | post_configure, fetcher, paths, log levels; the options and their defaults, with clap's parsing as documented; not: help texts, writing log lines |
| util.rs `Time` | `Monad.v` | with `i64` wrap-around |
| validation/tal.rs | `Tal.v` | complete |
| validation/validator.rs | `Validator.v` | complete; objects by URI text |
| validation/report.rs | `Report.v` | everything that ends up in a report; not: `Display` and serde of a report (krill-sync does not store or print reports) |
| serde derives of the state files | `Codec.v`, `Json.v` | JSON text as serde_json writes and reads it |

Not modelled: permissions, hard links, symbolic links in other than the last
component of a path, loss of names or directories in a power failure (C75 models the
loss of data in files: their ends, or all of their content),
concurrent changes by others during a run other than other krill-sync processes
(between runs, others may change what krill-sync does not own), message texts of
errors, log output, the bodies of pre-validation scripts (they are an oracle, and
do not change the tree), TLS and HTTP themselves.

Simplifications (each also in a comment at the definition):

* All configured directories are absolute; `..` is resolved when joining.
* Unix. Elsewhere directories are always moved, as with `c_force_moves`; renaming is POSIX's in the model.
* clap 2 and structopt 0.3 as documented; for spellings the documentation does not settle the outcome is `Odd` and no theorem says anything.
* Writing through a symbolic link is an error.
* The times of the validator stored in the state file are integers instead of
  RFC 3339 texts; keys and hashes are plain strings there; integers are not range
  checked; of two equal field names the first counts (serde rejects).
* Serial numbers are unbounded; in the code they are `u64`, and `serial + 1` of the
  largest one would overflow (validator.rs:684,694,741).
* No fractions and exponents in JSON; `\u` escapes only below 128.
* Signature checks, DER and XML parsing, hashes: functions of `ext`.
* The validator's recursion uses fuel `e_stack`; running out is `Panic`
  (a stack overflow).

## Properties, how they are proved, and where

Every theorem is for all configurations, environments, trees and histories its
statement quantifies over.  Theorems named `_refuted` are the exception: they are
existence statements, each gives an execution of the model that shows that the
code does not have a property one would expect; the other theorems of the same
property say what holds instead.

| id | property | method | theorems |
|---|---|---|---|
@@TABLE@@

Main steps behind them: `Wp.v` (weakest preconditions that speak of the trace),
`Keeps.v`/`CoarseProofs.v`/`RunCoarse.v` (which paths each program touches),
`RunMaster.v` (`run_story`: what every instant of a run looks like, phase by phase),
`RunView.v`/`RunFate.v` (single paths through a run), `HistoryProofs.v` (invariants of
histories), `Chain.v` (delta lists as intervals), `Live*.v` (total correctness),
`ValidatorProofs.v`/`TreeProofs.v` (validation), `JsonProofs.v`/`CodecProofs.v` (state files).

## Findings about the code

1. The ETag of the notification is never stored: no request is conditional (C44).
2. Cleaning deletes a file whose path was dropped earlier and is listed again, even while
   publishing a notification that lists it (C15).
3. A kill while the state file is written leaves a torn file, and no later run
   does anything (C16).
4. A kill between publishing and saving the state makes krill-sync forget the files of the
   unsaved version; they are never removed (C47).
5. A 304 to an unconditional request publishes whatever is in the staging directory (C03).
6. The retention time starts before `--rrdp-notify-delay` (C46).
7. A listed URI with `//` after the base, or an object URI with empty segments, escapes
   the directories (C26).
8. Directory moves: an instant without `current`; a kill after the second rename blocks
   all later versions (C20).  Symlinks: repeated interrupted runs can
   remove the served tree (C22).
9. With a validator less than an hour old, `--tal-reject-invalid` decides on cached
   content, not on the content being published (C29).
10. Changing the RRDP directory splits the mirror: files go to the new directory, the
    notification to the old one (C48).
11. The validator ignores TLS errors, without `--insecure` (C45).
12. Revoked router certificates count as valid (C35); a CA that lists itself overflows the
    stack (C36); an unreachable repository is contacted for every CA (C37); a failed
    refresh is reported once and then forgotten (C50); a lookup can succeed with another
    serial than announced (C49).
13. `--rrdp-max-deltas 0` makes the run panic when the source lists deltas.
14. The trust anchor certificate is fetched even with `--offline-validation` (C31).
15. The fallback from rename to copy is not atomic over a live file; after a kill between
    publishing and saving the state, the next run copies over files that are being
    served (`C01_copied_refuted`).
16. Removing emptied parent directories does not stop at the RRDP directory (C26 allows it).
17. A kill while the objects of a revision are written leaves a directory that no record names;
    it stays for good unless the source offers that revision again (C61).
18. A kill while the rsync record is written leaves a record that cannot be read; every later
    run with rsync enabled and a new version then fails before it replaces the notification,
    so RRDP clients get no updates either (C63).
19. Only a run that finds a new version removes anything: while the source does not change,
    dropped files stay beyond the cleanup time (`C69_idle_refuted`).
20. With directory moves, a run interrupted after the rsync record is saved and before the RRDP
    state is saved (for instance killed during the notification delay) makes the retry of the same
    version fail, and after that no run with rsync ever succeeds (`C70_refuted`, `C70_retry`).
21. Files staged by a run that fails or is killed are removed only by a later run that names them;
    otherwise they stay in the staging directory for good (`C71_refuted`).
22. `--cleanup-after=-5` is accepted; whatever is no longer referenced is then
    old enough for removal at once (`C73_example_odd`). 256 times `-v` counts as none.
23. The README says that a run fails if a file cannot be parsed. Deltas are not parsed
    (without `--tal`), and the snapshot only for rsync: such files are published
    (`C74_delta_refuted`, `C74_snapshot_refuted`).
24. The README's `--disable-rsync` is refused, the option is `--rsync-disable`
    (`C73_example_readme`). Its default of 600 seconds for the cleanup is 3600 in the code.
25. Nothing is synced to the disk (there is no `sync_all` in the code), not even before a
    rename. After a power failure the notification can be empty and stay so until the source
    has news, a delta can be announced that is empty, and an emptied state file stops all
    runs (`C75_notification_refuted`, `C75_delta_refuted`, `C75_state_refuted`).
26. Raising `--rrdp-max-deltas` does not bring back deltas dropped before. Until they have
    aged out, such a server lists fewer than another with the same limit, and a client that
    is sent from the one to the other can miss files (`C78_raised_refuted`).
27. Once there is a state file, the file name in the notification URI on the command line has
    no effect: the notification is fetched from the new URI and published under the old name.
    If trust anchors are configured it is worse: the check looks for the new name in the staging
    directory, where the notification has the old name, and every update fails.
    With a URI in another directory every update fails, until the state file is removed (C79).
28. After a change of `--rsync-dir` the new directory stays empty until the source has a new
    version, and the trees in the old one are never removed, although their records are (C80).
29. Without its state file krill-sync forgets what it has published: those files are never
    removed, and an older version of the source is accepted (C81).
30. Rsync trees that the rsync record does not name (the record was removed, or a run was
    killed before saving it) are never removed. With directory moves, removing the record stops
    all publication (C82).
31. A directory named `current` in the rsync directory (there before krill-sync, or from a copy
    of the mirror that did not keep the link) stops all publication, also for RRDP (C83).
32. The directory that an interrupted run has left for a version is reused as it is. If
    `--rsync-include-host` was changed in between, the tree served has objects in both
    places (`C84_mixed_refuted`).
33. Changed options have no effect before the source has a new version: when rsync is switched
    on, there is no rsync tree until then (C85).
34. A published delta file that was lost or damaged is never downloaded again while the
    session lasts, but every new notification goes on listing it (`C86_stays`, `C86_listed`).

