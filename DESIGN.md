# krill-sync in Rocq: design

Source: NLnetLabs/krill-sync 0.3.1, /repo (read as text; not built or run).
`properties.jsonl` has the properties in words, `MANIFEST.json` the theorems for
each of them, `rocq/theories` the model and the proofs, `seeded/LOG.jsonl` the
wrong programs the theorems were tried on.  `tools/` has the scripts that
generate the first two and this file.

## Shape of the model

* A file system is a finite map from absolute paths (lists of components) to
  nodes: file with bytes and modification time, directory, symbolic link (`Fs.v`).
* Effects run in a monad `M A = env -> world -> res A * world` (`Monad.v`).  The
  world holds the current file system and a trace of everything observable:
  every tree that exists at some instant (including each prefix of a file that is
  being written, each step of a recursive removal, each file of a copy), every
  HTTPS request, clock reading, script start and sleep.
* The environment `env` answers everything the program cannot decide: HTTP
  replies, clock readings, I/O faults (which operation fails, and after how many
  of its intermediate trees), script results, stack depth.  Theorems quantify over
  all environments: all sources, all clocks (also ones that go backwards), all
  failures.
* A run is `run c e f`: `process` with configuration `c` in environment `e` on the
  tree `f`.  `instants c e f` are all trees that exist during it.  A kill leaves
  one of them, and the next run starts from it.
* `mirror P c base name f` (`History.v`): `f` is what any number of runs can leave,
  each completed, failed or killed at any instant, with any settings that keep the
  places, in any environment, with anything that is not krill-sync's changed in
  between.  `setting c base name e f`: a run that continues such a history.  Nearly
  all theorems about runs are about settings, so about all histories.
* Each Rust function is one Gallina definition with the cited lines.  `Result` is
  `Ok`/`Err`, a panic is the third outcome `Panic`.
* Functions of external crates (rpki, uuid, sha2, reqwest) are fields of the record
  `ext` or answers of the environment; theorems hold for all of them, with what
  each theorem needs as a hypothesis.

Vocabulary of the statements, apart from the model itself: `Spec.v`
(runs, places, what is published), `ValidatorSpec.v` (validation), `History.v`
(histories, sources).

## Hypotheses that recur

* `cfg_ok c base name` (part of `setting`): directory names are proper; the RRDP and
  rsync directories, the staging directory and the two state files do not lie
  in one another; the notification URI is `base` followed by the file name `name`.
* `good_world`: what follows `base` in the URIs of an offered notification is a
  proper relative path other than the notification's own names; snapshot object
  URIs have no empty, `.` or `..` segments.  Violations are a finding (C26).
* `honest_run` / `no_bad_304`: an unconditional request is not answered with 304,
  the staging directory has no symbolic links, no two listed files share a path.
  `C03_304_refuted` shows what happens otherwise.
* `~ may_copy e`: renaming from staging to the RRDP directory does not fail (the
  fallback copies, which is not atomic).  Only `C03_verified` assumes it
  (`C03_copied` says what holds otherwise).  The histories of C01 allow failing
  renames in a run that starts from a `settled` tree: the served notification
  lists only files of the recorded state.
* `order_ok`: the order in which the rpki crate hands out manifest entries is a
  permutation of the manifest.

## Trusted base

* Coq 8.16.1's kernel, including `vm_compute` (the examples and `_refuted`
  theorems compute runs of the model), and coqchk if used.
* `Print Assumptions` says "Closed under the global context" for every theorem in
  `MANIFEST.json` (the commands are at the end of each `Props*.v` file).
  The development declares no axioms, has no admitted proofs, no functors or
  module types, and switches off no check.
* std++ (which loads ssreflect) is used for finite maps and lists.  It loads the
  standard library's `Coq.ssr.ssrunder`, whose opaque module `Under_rel` coqchk
  lists as axioms (seven constants `Coq.ssr.ssrunder.Under_rel.*`).  No
  theorem here depends on them.
* That the model says what the code does: by reading, function by function; the
  code was not run.

## What is modelled

| source | model | remarks |
|---|---|---|
| main.rs `main`, `try_main`, `lock` | `Main.v`, `Process.v`, `Lock.v` | `Lock.v` interleaves any number of processes at single operations; locks belong to inodes as with flock(2) |
| process.rs `process` | `Process.v` | complete |
| rrdp.rs | `State.v`, `Rrdp.v` | complete |
| rsync.rs | `State.v`, `Rsync.v` | complete; the snapshot file is read in one step |
| fetch.rs | `Fetch.v` | complete up to the HTTP exchange itself |
| file_ops.rs | `FileOps.v` | complete |
| config.rs | `Config.v`, `Cli.v` | post_configure, fetcher, paths, log levels; the options and their defaults, with clap's parsing as documented; not: help texts, writing log lines |
| util.rs `Time` | `Monad.v` | with `i64` wrap-around |
| validation/tal.rs | `Tal.v` | complete |
| validation/validator.rs | `Validator.v` | complete; objects by URI text |
| validation/report.rs | `Report.v` | everything that ends up in a report; not: `Display` and serde of a report (krill-sync does not store or print reports) |
| serde derives of the state files | `Codec.v`, `Json.v` | JSON text as serde_json writes and reads it |

Not modelled: permissions, hard links, symbolic links in other than the last
component of a path, loss of names or directories in a power failure (C75 models the
loss of data in files: their ends, or all of their content),
concurrent changes by others during a run other than other krill-sync processes
(between runs, others may change what krill-sync does not own), message texts of
errors, log output, the bodies of pre-validation scripts (they are an oracle, and
do not change the tree), TLS and HTTP themselves.

Simplifications (each also in a comment at the definition):

* All configured directories are absolute; `..` is resolved when joining.
* Unix. Elsewhere directories are always moved, as with `c_force_moves`; renaming is POSIX's in the model.
* clap 2 and structopt 0.3 as documented; for spellings the documentation does not settle the outcome is `Odd` and no theorem says anything.
* Writing through a symbolic link is an error.
* The times of the validator stored in the state file are integers instead of
  RFC 3339 texts; keys and hashes are plain strings there; integers are not range
  checked; of two equal field names the first counts (serde rejects).
* Serial numbers are unbounded; in the code they are `u64`, and `serial + 1` of the
  largest one would overflow (validator.rs:684,694,741).
* No fractions and exponents in JSON; `\u` escapes only below 128.
* Signature checks, DER and XML parsing, hashes: functions of `ext`.
* The validator's recursion uses fuel `e_stack`; running out is `Panic`
  (a stack overflow).

## Properties, how they are proved, and where

Every theorem is for all configurations, environments, trees and histories its
statement quantifies over.  Theorems named `_refuted` are the exception: they are
existence statements, each gives an execution of the model that shows that the
code does not have a property one would expect; the other theorems of the same
property say what holds instead.

| id | property | method | theorems |
|---|---|---|---|
| C01 | Served notification never dangles | invariant over histories of a source whose versions are published one after the other; every instant | `C01_never_dangles` (PropsServed.v), `C01_settled` (PropsCopied.v), `C01_copied_refuted` (PropsCopied.v) |
| C02 | Notification file is replaced atomically | phases of a run: the notification path at every instant | `C02_atomic` (PropsRun.v) |
| C03 | Only hash-verified files are published | weakest precondition of staging and moving; computed witness for the 304 case | `C03_verified` (PropsRun.v), `C03_copied` (PropsRun.v), `C03_completed` (PropsRun.v), `C03_304_refuted` (Refuted.v) |
| C04 | A refused update leaves the published data alone | frame: phases before publishing touch only staging; errors after it are a fixed set | `C04_not_prepared` (PropsSource.v), `C04_refused` (PropsSource.v), `C04_bad_state` (PropsSource.v) |
| C05 | No change at the source means no change on disk | evaluation of a run that ends before staging | `C05_unmodified` (PropsSource.v), `C05_same_version` (PropsSource.v) |
| C06 | Serial never goes backwards within a session | invariant over sequences of completed runs; evaluation | `C06_shows` (PropsHistory.v), `C06_history` (PropsHistory.v), `C06_behind` (PropsSource.v), `C06_not_newer` (PropsSource.v) |
| C07 | The published version is the source's version | phases of a completed run | `C07_version` (PropsRun.v) |
| C08 | Published deltas form an unbroken chain | delta lists as intervals; invariant over histories | `C08_unbroken` (PropsHistory.v), `C08_history` (PropsHistory.v) |
| C09 | The delta limit is honoured | as C08 | `C09_limit` (PropsHistory.v) |
| C10 | Published deltas are a suffix of the source's deltas | as C08 | `C10_suffix` (PropsHistory.v) |
| C11 | A session change drops everything of the old session | as C08, and the records made | `C11_new_session` (PropsHistory.v) |
| C12 | Dropped files are kept for the cleanup time | fate of a path through the phases of a run | `C12_kept` (PropsClean.v), `C12_recorded` (PropsClean.v), `C12_remembered` (PropsClean.v) |
| C13 | Expired files are removed and forgotten | characterisation of cleaning in a completed run; induction over the climb | `C13_forgotten` (PropsClean.v), `C13_no_empty_directory` (PropsClean.v) |
| C14 | Cleanup deletes nothing else | induction over the records and the climb | `C14_only_expired` (PropsClean.v) |
| C15 | A served file is only deleted by its own expired record | fate of a path; computed witness | `C15_served` (PropsHolds.v), `C15_refuted` (Refuted.v) |
| C16 | What a kill leaves of the recorded state | phases, round trip and prefix rejection; computed witness | `C16_kill` (PropsKill.v), `C16_history` (PropsKill.v), `C16_refuted` (Refuted.v) |
| C17 | State file round-trips | JSON print/parse round trip, no prefix accepted | `C17_rrdp_state` (PropsDecide.v), `C17_rsync_state` (PropsDecide.v), `C17_saved` (PropsHistory.v) |
| C18 | Rsync tree mirrors the snapshot exactly | induction over snapshot elements, phases | `C18_rsync_tree` (PropsRsync.v), `C18_after_retry` (PropsRsync.v) |
| C19 | Rsync 'current' always resolves to a complete tree | intermediate trees of the rsync step at every instant | `C19_instants` (PropsRsync.v), `C19_switch` (PropsRsync.v) |
| C20 | Directory-move mode: what clients of 'current' see, and where it gets stuck | as C19; invariant over later runs; computed witness | `C20_instants` (PropsHoldsRsync.v), `C20_stuck` (PropsHoldsRsync.v), `C20_refuted` (Refuted.v) |
| C21 | Old rsync trees are kept for the cleanup time, then removed | as C18 | `C21_old_trees` (PropsRsync.v), `C21_moved_aside` (PropsRsync.v) |
| C22 | The served rsync tree is removed only by its own expired record | as C18; computed witness | `C22_link` (PropsHoldsRsync.v), `C22_refuted` (Refuted.v) |
| C23 | Different revisions use different directories | injectivity of texts | `C23_revision_dirs_distinct` (PropsUri.v) |
| C24 | Objects of different hosts do not collide with --rsync-include-host | string lemmas | `C24_include_host` (PropsUri.v) |
| C25 | Modification times depend only on the object | as C18 | `C25_times` (PropsRsync.v), `C25_stamped` (PropsRsync.v), `C25_servers_agree` (PropsRsync.v) |
| C26 | Writes stay inside the configured directories | invariant: which paths every program touches, from any tree of a history | `C26_frame` (PropsRun.v), `C26_parents` (PropsRun.v) |
| C27 | Public URIs and local paths correspond | string lemmas | `C27_uri_path_correspondence` (PropsUri.v) |
| C28 | Pre-validation decides as configured | case analysis over all outcomes | `C28_decision` (PropsDecide.v) |
| C29 | When rejection looks at the content being published | weakest preconditions along staging, pre-validation and publishing; computed witness | `C29_examined` (PropsHoldsFresh.v), `C29_refuted` (Refuted.v) |
| C30 | Pre-validation scripts all run | induction over the scripts | `C30_all_run` (PropsDecide.v), `C30_cannot_start` (PropsDecide.v) |
| C31 | Offline validation contacts no other repository | trace invariant of validation | `C31_offline` (PropsValidator.v) |
| C32 | Cached repository data is never a mixture | induction over deltas against a fold | `C32_lookup` (PropsValidator.v) |
| C33 | Validation report totals add up | induction over the report | `C33_totals` (PropsValidator.v), `C33_totals_built` (PropsValidator.v) |
| C34 | Every manifest entry is accounted for exactly once | induction over manifest entries | `C34_entries` (PropsValidator.v) |
| C35 | Revoked objects are not reported as valid, except router certificates | characterisation of each reported certificate; computed witness | `C35_not_revoked` (PropsValidator.v), `C35_routers_refuted` (PropsValidator.v) |
| C36 | Validation stops unless a chain of CA certificates is as long as the stack | induction over the fuel; a tree that refers to itself, for every stack | `C36_only_long_chains` (PropsValidator.v), `C36_refuted` (PropsValidator.v) |
| C37 | How often a repository is fetched in a validation run | invariant over lookups; computed witness | `C37_not_again` (PropsValidator.v), `C37_run` (PropsHoldsWalk.v), `C37_refuted` (PropsValidator.v) |
| C38 | Trust anchors must match their TAL | case analysis | `C38_trust_anchor` (PropsValidator.v), `C38_location` (PropsValidator.v) |
| C39 | A stored validator is reused only for the same trust anchors and source | case analysis | `C39_reuse` (PropsDecide.v) |
| C40 | Directory defaults follow --state-dir | string lemmas | `C40_dirs_follow_state_dir` (PropsConfig.v) |
| C41 | Source mapping and TLS strictness follow the command line | trace invariant of a run | `C41_requests` (PropsRequests.v), `C41_refused` (PropsRequests.v) |
| C42 | Only one instance works on a state directory | invariant over all interleavings of a transition system | `C42_exclusive` (PropsLock.v), `C42_sequential` (PropsLock.v), `C42_waiting` (PropsLock.v), `C42_refused` (PropsLock.v), `C42_try_main` (PropsLock.v) |
| C43 | Verbosity is monotone and as documented | case analysis | `C43_verbosity` (PropsConfig.v) |
| C44 | No request is conditional | trace invariant of a run in a history; computed witness | `C44_unconditional` (PropsRequests.v), `C44_refuted` (PropsRequests.v) |
| C45 | All requests of a run: where they go and how strict they are | trace invariant of a run, invariant of the stored validator over histories; computed witness | `C45_all_requests` (PropsHoldsRequests.v), `C45_strictness` (PropsHoldsRequests.v), `C45_refuted` (PropsValidator.v) |
| C46 | The retention time counts from before the notification delay | the trace of a run in two parts; computed witness | `C46_order` (PropsHoldsDelay.v), `C46_refuted` (Refuted.v) |
| C47 | Every file in the RRDP directory is accounted for between completed runs | accounting of every path through a run, induction over runs; computed witness | `C47_accounted` (PropsHolds.v), `C47_history` (PropsHolds.v), `C47_refuted` (Refuted.v) |
| C48 | What a run does when the RRDP directory is changed | weakest preconditions over the whole run; computed witness | `C48_old_directory` (PropsHoldsMoved.v), `C48_refuted` (Refuted.v) |
| C49 | What version a lookup of cached repository data gives | case analysis of lookups; computed witness | `C49_not_older` (PropsValidator.v), `C49_refuted` (PropsValidator.v) |
| C50 | What follows a failed lookup of a repository within a validation run | invariant over lookups; computed witness | `C50_after_failure` (PropsHoldsLookup.v), `C50_without_data` (PropsHoldsLookup.v), `C50_refuted` (PropsValidator.v) |
| C51 | The report covers the whole certificate tree | induction over the tree | `C51_complete_tree` (PropsValidator.v) |
| C52 | A run that nothing stands in the way of publishes the new version | total correctness of every step, along the history invariants | `C52_completes` (PropsLive.v), `C52_with_anchors` (PropsLiveTal.v) |
| C53 | Validation uses current data when it is due | case analysis of lookups | `C53_refresh` (PropsHoldsFresh.v) |
| C54 | Options take effect as given | case analysis of the treatment of options | `C54_options` (PropsConfig.v), `C54_starts` (PropsConfig.v) |
| C55 | Recent copies of repositories are used without asking | case analysis of lookups | `C55_recent` (PropsHoldsCache.v) |
| C56 | Copies of repositories carry the ETag of their own notification | weakest preconditions of a lookup; induction over the tree | `C56_origin` (PropsHoldsCache.v), `C56_requests` (PropsHoldsCache.v) |
| C57 | What validation asks for | invariant over the walk of the tree | `C57_requests` (PropsHoldsWalk.v) |
| C58 | What can make a run panic | absence of panics part by part; evaluation | `C58_panic_only` (PropsPanic.v), `C58_zero_limit` (PropsPanic.v) |
| C59 | Rsync is updated before the notification | PropsOrder.v. From the phases of a run: a notification other than the one served before occurs only in the phases after the rsync step, which has then turned 'current' and saved its record. The history theorem is an induction over runs with the versions of the source numbered. | `C59_rsync_first` (PropsOrder.v), `C59_link_first` (PropsOrder.v), `C59_never_behind` (PropsOrder.v) |
| C60 | With --rsync-disable nothing of rsync is touched | PropsOrder.v. From the phases of a run: only the rsync step touches the rsync directory and record. | `C60_rsync_off` (PropsOrder.v) |
| C61 | Every directory in the rsync directory is accounted for between completed runs | PropsOrder.v. From C21 and C60 by cases on the name of the directory, then induction over completed runs; the refutation is an executed kill and a later completed run. | `C61_accounted` (PropsOrder.v), `C61_history` (PropsOrder.v), `C61_leftover` (PropsOrder.v), `C61_killed_refuted` (PropsOrder.v) |
| C62 | A client that has read the notification can fetch everything it lists | PropsClient.v. The invariant of C01 extended by a set of promised files: each is published, was listed by a version of the source, and any record of it as dropped carries a time at or after the start of the period. The instants of a run are put in order (before and after the new notification) to cover reading during a run. | `C62_fetchable` (PropsClient.v) |
| C63 | What a kill leaves of the rsync record | PropsRecord.v. The text being saved is a prefix of the new record (the write model), and a proper prefix of a record is rejected by the parser (CodecProofs.v). With an unreadable record the phases after the recovery of the record are excluded, so every instant is one of the front phases. | `C63_kill` (PropsRecord.v), `C63_stuck` (PropsRecord.v), `C63_stuck_for_good` (PropsRecord.v), `C63_refuted` (PropsRecord.v) |
| C64 | An rsync client finds the tree it was sent to until the cleanup time is over | PropsRecord.v. Invariant over the later runs: the directory is as at the start, and any record of the version as retired carries a time at or after the start; the clean-up time of each run is before that. For a client that starts during a run, TurnOrder.v splits the run at the turning of the link: before it the link is untouched, after it nothing touches the tree of a version whose record is not expired. | `C64_tree_kept` (PropsRecord.v) |
| C65 | Where the source's files are fetched from makes no difference | relational proof: the two programs side by side, stage by stage (`both`), and no program looks at its own trace (`Blind.v`) | `C65_same_run` (PropsSupply.v), `C65_local_copy` (PropsSupply.v) |
| C66 | A mirror recovers by itself | an invariant of all instants of all runs (`Way.v`): what krill-sync makes is a file only where it will want a file and a directory only where it will want one; then C52 | `C66_recovers` (PropsRecover.v), `C66_with_anchors` (PropsRecover.v) |
| C67 | A client that follows the deltas ends up with what the snapshot contains | Induction over histories: everything a served notification says about its files is said by some version of the source (new_state_inv, which C01 rests on) and the deltas have no gaps (C08). A client that has read it can still fetch what it lists (C62). Then induction on the serials. | `C67_catches_up` (PropsDeltaClient.v) |
| C68 | Rsync servers with the same revision serve the same tree | At every instant of every run the directories of revisions hold only files at places of objects of that very revision and the directories above them (tidy, an invariant of all operations of a run, kept together with 'nothing is in the way' of C66). A completed run writes all objects with their times (rsync_completed), so the tree is determined by the snapshot; two trees determined by the same snapshot are equal. | `C68_tree` (PropsServers.v), `C68_servers_agree` (PropsServers.v) |
| C69 | What the mirror keeps is bounded | From the accounting of C47 and C61, which hold along completed runs, what C13 and C21 say about the records a run keeps, and that the notification of a completed run lists exactly the recorded files (C06_shows). The refutation is a run of the example long after the last change, with C06_not_newer. | `C69_rrdp` (PropsBounded.v), `C69_rsync` (PropsBounded.v), `C69_idle_refuted` (PropsBounded.v) |
| C70 | Directory moves: which interruptions block all later updates | From the phases of a run: publishing the objects only adds entries (a new part of the invariant of the publication step), so what is in the way of the first rename stays there and op_rename onto a directory with entries fails; hence no run gets past the rsync step. The refutation evaluates the killed run and its retry, and then uses C70_for_good for all later runs. | `C70_blocked` (PropsBlocked.v), `C70_for_good` (PropsBlocked.v), `C70_retry` (PropsBlocked.v), `C70_refuted` (PropsBlocked.v) |
| C71 | What stays in the staging directory | C71_left instantiates the frame argument of C26 with the set of owned paths without the one in question: staging writes only the notification copy and files the source names, moving takes only those. C71_completed follows the staged names through staging (the state after it differs only at them) and moving (each of them is gone, and moving adds nothing in the staging directory), then shows that the steps after it stay outside. | `C71_left` (PropsStaging.v), `C71_for_good` (PropsStaging.v), `C71_completed` (PropsStaging.v), `C71_refuted` (PropsStaging.v) |
| C72 | With directory moves, a mirror recovers by itself unless it is blocked | The invariant of C66 with other places (`WayGen.v` has the runs for any way of switching): an object of any version may be in each of the directories that are renamed, so renaming one to another keeps files in places of files and directories in places of directories. Then C52, whose condition on the switch is the negation of C70's `blocked`; the converse is C70_blocked. | `C72_recovers` (PropsRecoverMoves.v), `C72_iff` (PropsRecoverMoves.v) |
| C73 | The command line means what it says | A grammar of command lines (`reads`) and a record of what options mean (`means`), both without reference to the parser of `Cli.v`; the parser, a state machine, accepts exactly the grammar (induction over the arguments for each state it can be in), and the conversion of the values agrees with `means` (decimal numbers by induction over the digits). | `C73_meaning` (PropsCli.v), `C73_refused` (PropsCli.v), `C73_unknown` (PropsCli.v), `C73_order` (PropsCli.v), `C73_swallowed` (PropsCli.v), `C73_started` (PropsCli.v) |
| C74 | What is parsed before it is published | Two runs in worlds that differ only in how data files are read are equal, by a traversal of every function of the run; that the snapshot was read comes from the account of the phases of a run (`seen_files`). The README's claim is refuted by computed runs. | `C74_not_read` (PropsParsed.v), `C74_snapshot_read` (PropsParsed.v), `C74_delta_refuted` (PropsParsed.v), `C74_snapshot_refuted` (PropsParsed.v) |
| C75 | What a power failure leaves | A history `battered` that adds losses to the steps of `mirror`; the invariant that the state file is missing or a beginning of a saved state survives a loss, and no proper beginning of a saved state can be read (`state_prefix`), so every run starts as in a `mirror`; the rest is from the account of the phases of a run. The failures are computed runs on trees with one emptied file. | `C75_record` (PropsPower.v), `C75_verified` (PropsPower.v), `C75_not_repaired` (PropsPower.v), `C75_failure` (PropsPower.v), `C75_notification_refuted` (PropsPower.v), `C75_delta_refuted` (PropsPower.v), `C75_state_refuted` (PropsPower.v) |
| C76 | What the exit status says | `main` is `configure` and then `try_main`. `Later.v` shows for each function that what a run does after some calls is what it does at the start with the later answers, so the theorems about `process` apply after the lock was taken; a failed write of the state file leaves a proper beginning of a saved state, which cannot be read. | `C76_zero` (PropsExit.v), `C76_failed` (PropsExit.v), `C76_busy` (PropsExit.v), `C76_crash` (PropsExit.v), `C76_unpublished_refuted` (PropsExit.v) |
| C77 | What a run downloads | The requests in the trace, in order. Each function's requests are computed from its result (`retrieve_reqs`, `entries`, `deltas_reqs`, `update_reqs`); staging one file does not change whether another is there. | `C77_requests` (PropsDownloads.v), `C77_exactly` (PropsDownloads.v) |
| C78 | RRDP servers with the same version show the same | Invariant of histories: the recorded state is exactly a version of the source under the limit. A run keeps what is recorded from the first listed serial on and adds what is newer; with intervals of serials that end at the version's serial, nothing is missing (`exact_step`). | `C78_shows` (PropsAgree.v), `C78_agree` (PropsAgree.v), `C78_elsewhere` (PropsAgree.v), `C78_raised_refuted` (PropsAgree.v) |
| C79 | What a run does when the notification URI is changed | The two runs side by side: the programs that send no request are the same in both worlds (`dry`), requests get the same answers (`sim`). For another directory: the first thing staged is the snapshot, whose URI is not below the recorded base. With anchors: nothing that is staged has the new name, the recorded check does not fit the new URI, and the new one has no notification to read. | `C79_other_name` (PropsNotifUri.v), `C79_old_name` (PropsNotifUri.v), `C79_other_base` (PropsNotifUri.v), `C79_with_anchors` (PropsNotifUri.v) |
| C80 | What runs do when the rsync directory is changed | `own_tree` says nothing of the rsync directory, so the phases of a run (`phase`, RunMaster.v) are known for the changed configuration too; induction over the runs with the frame of each (`phase_frame`), which is apart from the old directory. The other two from `rsync_instant` and `rsync_result` for the changed configuration. | `C80_left_alone` (PropsRsyncMoved.v), `C80_not_before` (PropsRsyncMoved.v), `C80_next_version` (PropsRsyncMoved.v) |
| C81 | What runs do when the state file is gone | Invariant over the runs: the record knows only files that a notification of the source has listed (`drawn`, PropsRecover.v). So no step of a run moves to, cleans or writes the path: by the phases of a run (`phase`, RunMaster.v). The other one from `ok_run` with the first state: no delta is kept, all are staged, and nothing is recorded as unused. | `C81_leftovers` (PropsStateLost.v), `C81_starts_over` (PropsStateLost.v) |
| C82 | Rsync trees that are not recorded stay for good | Invariant over the runs: the record does not name the revision (`record_instant`, PropsRecord.v, gives what the record can be at each instant). What a run does in the rsync directory (`rsync_instant`) is then only in other directories. The last one from `blocked` (PropsBlocked.v): without a record the run renames the new tree onto 'current', which is not empty. | `C82_unrecorded` (PropsRecordLost.v), `C82_record_gone` (PropsRecordLost.v), `C82_moves_stuck` (PropsRecordLost.v) |
| C83 | A directory in the place of the rsync link stops all publication | In the model, as on POSIX systems, a link cannot be renamed onto a directory. So no run gets past that step (`no_link`), and what comes before it changes only the RRDP files, the staging directory and directories of revisions (`rsync_instant`, `front_phase`). Then induction over the runs. | `C83_taken` (PropsLinkTaken.v), `C83_for_good` (PropsLinkTaken.v) |
| C84 | What changing --rsync-include-host does | `same_places` does not fix the option, so a mirror of the old setting is one of the new. `C84_next_version` is then `C18_rsync_tree` with the place of an object written out. `C84_others` by what a run does in the rsync directory (`rsync_instant`): it writes in the directory of the version it publishes and removes old ones. | `C84_others` (PropsLayout.v), `C84_next_version` (PropsLayout.v), `C84_mixed_refuted` (PropsLayout.v) |
| C85 | Options have no effect before the source has a new version | `C85_waits` by induction over the runs with `C06_not_newer`: what is recorded depends only on the state file, not on the options. `C85_rsync_on` from `C18_rsync_tree`: without a record and without directories every version is new. | `C85_waits` (PropsWaits.v), `C85_rsync_on` (PropsWaits.v) |
| C86 | A delta file that was lost or damaged is not repaired | `C86_stays` by induction over the runs: the state always has the session and a delta at least as new (`past`), so that nothing that is staged goes to the place of the damaged file (`damage_entry`), and the other steps leave it or remove it. `C86_listed` from `ok_run`: the recorded delta is kept, and the notification is made of the record. `C86_new` from `ok_run` and `arrives`. The last sentence is `C85_waits`, whose tree is any. | `C86_stays` (PropsDamage.v), `C86_listed` (PropsDamage.v), `C86_new` (PropsDamage.v), `C85_waits` (PropsWaits.v) |
| C87 | A mirror can be the source of another | From `C78_shows` for both mirrors: what the first shows is a suffix of a version's deltas, so the sequence is orderly again (`relay_orderly`; with a limit, a delta that the older of two shown versions leaves out is too old for the newer one), and limiting twice is limiting once to the smaller number (`tighter_use`). | `C87_accepted` (PropsRelay.v), `C87_relay` (PropsRelay.v), `C87_again` (PropsRelay.v) |
| C88 | The next version's rsync tree is complete, whatever happened to the last one | The tree that a completed run serves is built from the snapshot alone (`rsync_result`), for any tree with a good RRDP state file (`damaged_sane`); that nothing is repaired before is `C85_waits`. | `C88_rsync_tree` (PropsDamageRsync.v), `C88_leftovers` (PropsDamageRsync.v), `C85_waits` (PropsWaits.v) |

Main steps behind them: `Wp.v` (weakest preconditions that speak of the trace),
`Keeps.v`/`CoarseProofs.v`/`RunCoarse.v` (which paths each program touches),
`RunMaster.v` (`run_story`: what every instant of a run looks like, phase by phase),
`RunView.v`/`RunFate.v` (single paths through a run), `HistoryProofs.v` (invariants of
histories), `Chain.v` (delta lists as intervals), `Live*.v` (total correctness),
`ValidatorProofs.v`/`TreeProofs.v` (validation), `JsonProofs.v`/`CodecProofs.v` (state files).

## Findings about the code

1. The ETag of the notification is never stored: no request is conditional (C44).
2. Cleaning deletes a file whose path was dropped earlier and is listed again, even while
   publishing a notification that lists it (C15).
3. A kill while the state file is written leaves a torn file, and no later run
   does anything (C16).
4. A kill between publishing and saving the state makes krill-sync forget the files of the
   unsaved version; they are never removed (C47).
5. A 304 to an unconditional request publishes whatever is in the staging directory (C03).
6. The retention time starts before `--rrdp-notify-delay` (C46).
7. A listed URI with `//` after the base, or an object URI with empty segments, escapes
   the directories (C26).
8. Directory moves: an instant without `current`; a kill after the second rename blocks
   all later versions (C20).  Symlinks: repeated interrupted runs can
   remove the served tree (C22).
9. With a validator less than an hour old, `--tal-reject-invalid` decides on cached
   content, not on the content being published (C29).
10. Changing the RRDP directory splits the mirror: files go to the new directory, the
    notification to the old one (C48).
11. The validator ignores TLS errors, without `--insecure` (C45).
12. Revoked router certificates count as valid (C35); a CA that lists itself overflows the
    stack (C36); an unreachable repository is contacted for every CA (C37); a failed
    refresh is reported once and then forgotten (C50); a lookup can succeed with another
    serial than announced (C49).
13. `--rrdp-max-deltas 0` makes the run panic when the source lists deltas.
14. The trust anchor certificate is fetched even with `--offline-validation` (C31).
15. The fallback from rename to copy is not atomic over a live file; after a kill between
    publishing and saving the state, the next run copies over files that are being
    served (`C01_copied_refuted`).
16. Removing emptied parent directories does not stop at the RRDP directory (C26 allows it).
17. A kill while the objects of a revision are written leaves a directory that no record names;
    it stays for good unless the source offers that revision again (C61).
18. A kill while the rsync record is written leaves a record that cannot be read; every later
    run with rsync enabled and a new version then fails before it replaces the notification,
    so RRDP clients get no updates either (C63).
19. Only a run that finds a new version removes anything: while the source does not change,
    dropped files stay beyond the cleanup time (`C69_idle_refuted`).
20. With directory moves, a run interrupted after the rsync record is saved and before the RRDP
    state is saved (for instance killed during the notification delay) makes the retry of the same
    version fail, and after that no run with rsync ever succeeds (`C70_refuted`, `C70_retry`).
21. Files staged by a run that fails or is killed are removed only by a later run that names them;
    otherwise they stay in the staging directory for good (`C71_refuted`).
22. `--cleanup-after=-5` is accepted; whatever is no longer referenced is then
    old enough for removal at once (`C73_example_odd`). 256 times `-v` counts as none.
23. The README says that a run fails if a file cannot be parsed. Deltas are not parsed
    (without `--tal`), and the snapshot only for rsync: such files are published
    (`C74_delta_refuted`, `C74_snapshot_refuted`).
24. The README's `--disable-rsync` is refused, the option is `--rsync-disable`
    (`C73_example_readme`). Its default of 600 seconds for the cleanup is 3600 in the code.
25. Nothing is synced to the disk (there is no `sync_all` in the code), not even before a
    rename. After a power failure the notification can be empty and stay so until the source
    has news, a delta can be announced that is empty, and an emptied state file stops all
    runs (`C75_notification_refuted`, `C75_delta_refuted`, `C75_state_refuted`).
26. Raising `--rrdp-max-deltas` does not bring back deltas dropped before. Until they have
    aged out, such a server lists fewer than another with the same limit, and a client that
    is sent from the one to the other can miss files (`C78_raised_refuted`).
27. Once there is a state file, the file name in the notification URI on the command line has
    no effect: the notification is fetched from the new URI and published under the old name.
    If trust anchors are configured it is worse: the check looks for the new name in the staging
    directory, where the notification has the old name, and every update fails.
    With a URI in another directory every update fails, until the state file is removed (C79).
28. After a change of `--rsync-dir` the new directory stays empty until the source has a new
    version, and the trees in the old one are never removed, although their records are (C80).
29. Without its state file krill-sync forgets what it has published: those files are never
    removed, and an older version of the source is accepted (C81).
30. Rsync trees that the rsync record does not name (the record was removed, or a run was
    killed before saving it) are never removed. With directory moves, removing the record stops
    all publication (C82).
31. A directory named `current` in the rsync directory (there before krill-sync, or from a copy
    of the mirror that did not keep the link) stops all publication, also for RRDP (C83).
32. The directory that an interrupted run has left for a version is reused as it is. If
    `--rsync-include-host` was changed in between, the tree served has objects in both
    places (`C84_mixed_refuted`).
33. Changed options have no effect before the source has a new version: when rsync is switched
    on, there is no rsync tree until then (C85).
34. A published delta file that was lost or damaged is never downloaded again while the
    session lasts, but every new notification goes on listing it (`C86_stays`, `C86_listed`).

