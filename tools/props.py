#!/usr/bin/env python3
"""Generates /verif/properties.jsonl (one JSON object per line)."""
import json, os
P=[]
def p(title, statement, quantifier, why, *anchors):
    P.append(dict(id="C%02d"%(len(P)+1), title=title, statement=statement, quantifier=quantifier, why_tests_cant=why, anchors=list(anchors)))

p("Served notification never dangles",
  "At every instant of every sequence of krill-sync runs, if a notification file is present at its public path under the RRDP directory, it is one complete notification document, and every snapshot and delta file it lists is present under the RRDP directory at the path derived from its URI with bytes whose hash is the listed hash. Holds when the source never reuses a file path for other content or brings back a dropped path, a single run takes less than the cleanup-after time, and a run in which a file cannot be renamed from the staging into the RRDP directory (so that it is copied) starts from a tree whose notification lists only files of the recorded state. The last condition holds after every completed run that changed anything; it is needed: after a kill between publishing and saving the state, a run that copies overwrites a listed file in place.",
  "every history of runs under one configuration, every source behaviour, every clock, every I/O failure pattern, and every kill point inside a run",
  "the kill points, I/O failures and histories are unbounded; tests only look at the end of a handful of successful runs",
  "src/process.rs: process", "src/rrdp.rs: RrdpState::apply_staged_changed, clean, write_notification, persist", "src/file_ops.rs: move_file, write_buf")
p("Notification file is replaced atomically",
  "At every instant of a run, the bytes at the public notification path are either exactly the bytes (or absence) from before the run or exactly the complete new notification document; a partially written notification is never visible there.",
  "every configuration, prior file system, source, clock, I/O failure pattern, and instant inside the run",
  "a torn write is only visible at an instant a test cannot stop at",
  "src/rrdp.rs: RrdpState::write_notification", "src/file_ops.rs: write_buf")
p("Only hash-verified files are published",
  "A snapshot or delta file obtained from the source reaches the RRDP directory only with bytes whose hash is the one the source's notification listed for that URI. While a file is copied because it could not be renamed, and after a kill or failure during that copy, a beginning of those bytes can be there. Holds when the source does not answer an unconditional GET with 304; with such an answer and a stale file in the staging directory it fails.",
  "every source reply sequence, every prior content of the staging directory, every I/O failure",
  "the failing case needs an adversarial reply combined with a leftover from an earlier interrupted run",
  "src/fetch.rs: Fetcher::retrieve_file, FetchSource::fetch", "src/rrdp.rs: snapshot_stage, deltas_stage")
p("A refused update leaves the published data alone",
  "A run that ends with an error before it starts publishing (state unreadable, fetch or parse failure, hash mismatch, gap in deltas, serial going backwards, validation rejection, script rejection) leaves every file of the RRDP directory, of the rsync directory and both state files exactly as they were; only the staging directory may differ.",
  "every prior file system, configuration with separate directories, source behaviour and failure point before publication",
  "it is a frame property over the whole file system for every error path",
  "src/process.rs: process", "src/rrdp.rs: update_staged, pre_validate")
p("No change at the source means no change on disk",
  "When the source answers 'not modified', or its notification has the same session and serial as the recorded state (and its delta list, limited to the configured number, has no gap), the run succeeds and the file system is exactly unchanged at every instant.",
  "every prior state and file system, every notification content with equal session and serial",
  "quantifies over every state and file system",
  "src/rrdp.rs: update_staged", "src/process.rs: process")
p("Serial never goes backwards within a session",
  "Over any history of completed runs, whenever the published session stays the same between two successive published versions the serial strictly increases. A source notification with a lower serial for the recorded session (and a limited delta list without gap) makes the run fail with the serial error. A run whose source offers nothing newer than the recorded version of the same session changes nothing at any instant.",
  "every history of runs and every source notification sequence",
  "history property over unbounded sequences",
  "src/rrdp.rs: update_staged")
p("The published version is the source's version",
  "When a run completes with a change, the notification document at the public path carries exactly the session, serial, snapshot URI and snapshot hash of the notification fetched from the source in that run.",
  "every prior state, configuration, source content, clock and I/O failure pattern under which the run completes",
  "relates the final bytes to the fetched bytes for every input",
  "src/rrdp.rs: update_staged, snapshot_stage, make_notification_file, write_notification")
p("Published deltas form an unbroken chain",
  "Over any history, the delta list of the published notification is strictly descending with no gaps and, when non-empty, starts at the published serial, provided every source notification's non-empty delta list ends at its own serial.",
  "every history of runs, session resets, delta limits and source notifications",
  "invariant over histories with changing windows and limits",
  "src/rrdp.rs: deltas_stage, deltas_deprecate_before, deltas_deprecate_all, apply_staged_changed")
p("The delta limit is honoured",
  "With --rrdp-max-deltas N the published notification lists at most N deltas after any completed change, whatever was published before with any other limit, provided every source notification's non-empty delta list ends at its own serial.",
  "every prior state, limit and source notification",
  "needs all combinations of prior window and limit",
  "src/rrdp.rs: update_staged, apply_staged_changed", "rpki::rrdp::NotificationFile::sort_and_verify_deltas (external)")
p("Published deltas are a suffix of the source's deltas",
  "Provided every source notification's non-empty delta list ends at its own serial: after a change, the serials of the published deltas are exactly the newest K serials of the source's (limited) delta list for some K, including every source delta newer than all previously published deltas; after a session change they are the whole limited list.",
  "every well-formed prior state and source notification",
  "arithmetic over every pair of windows",
  "src/rrdp.rs: deltas_stage, apply_staged_changed")
p("A session change drops everything of the old session",
  "When the source's session differs from the recorded one, after the run no delta or snapshot entry of the old state is published; each of them is recorded as deprecated with the time of this run, and the new lists come from the source notification alone.",
  "every prior state and every notification with a different session",
  "for all states",
  "src/rrdp.rs: update_staged, apply_staged_changed, deltas_deprecate_all")
p("Dropped files are kept for the cleanup time",
  "A file that a run drops from the published set is recorded with the time it was dropped, and no run deletes a recorded file unless the clock reading of that run's cleanup is at least cleanup-after seconds later than the recorded time.",
  "every history, clock and cleanup-after value",
  "depends on clock values and on every previous run",
  "src/rrdp.rs: clean, DeprecatedFile::new", "src/util.rs: Time::seconds_ago")
p("Expired files are removed and forgotten",
  "A cleanup that completes has deleted every recorded file whose recorded time is at least cleanup-after seconds ago, has kept the record of exactly the others, and has left no directory empty that it emptied on the way.",
  "every deprecated list and file system",
  "unbounded lists and trees",
  "src/rrdp.rs: clean", "src/file_ops.rs: remove_file_and_empty_parent_dirs")
p("Cleanup deletes nothing else",
  "Cleanup changes no file other than expired recorded files and removes no directory other than ancestors of such a file that have become empty; in particular no non-empty directory is ever removed.",
  "every deprecated list, file system, and instant during cleanup",
  "frame property over the whole tree",
  "src/rrdp.rs: clean", "src/file_ops.rs: remove_file_and_empty_parent_dirs")
p("A served file is only deleted by its own expired record",
  "After a completed run every file that the published notification lists is there with the listed hash, provided that no record of having dropped that very path expires in the run, that the files served before were there, and that the source does not announce one of them with another hash. The proviso is needed: a path that was dropped earlier and is listed again is deleted when its old record expires, even though the same run publishes a notification listing it.",
  "every history of completed runs with an honest source",
  "the failure needs a three-run history with a particular clock",
  "src/rrdp.rs: apply_staged_changed, clean")
p("What a kill leaves of the recorded state",
  "After a kill at any instant of a run, the recorded RRDP state is as before the run; or the notification is that of the new version and the recorded state is the new one; or the notification is that of the new version and the state file cannot be read. The last case occurs: a kill while the state file is being written leaves a truncated one. Then every later run, with any settings and that state directory, fails without changing anything. In any history the state file can be used or no run does anything.",
  "every kill point in every run",
  "needs a kill inside a write",
  "src/rrdp.rs: persist, recover", "src/file_ops.rs: write_buf")
p("State file round-trips",
  "Reading back a state file written by a completed run gives exactly the state that run had (with the per-run 'already fetched' marks cleared), for every state whose paths are text that a path can be; no strict prefix of a state file is accepted as a state; a completed run that changes anything leaves a state file that can be read.",
  "every state value and every prefix length",
  "all states, including all strings, numbers and nesting",
  "src/rrdp.rs: persist, recover", "src/util.rs: ser_uuid, de_uuid", "src/validation/validator.rs: ser_bytes, de_bytes")
p("Rsync tree mirrors the snapshot exactly",
  "When a run with rsync enabled completes with a change, and its revision is not among the recorded ones and has no directory yet, then below the directory that 'current' stands for there is a file exactly for the objects of the snapshot (at the path derived from the object URI), with the bytes of the last snapshot element mapped to that path. If there is a directory for that revision already (from an interrupted run), it has these files and otherwise only files that were there before.",
  "every snapshot content and URI set, every configuration flag",
  "all object sets, including duplicate and colliding URIs",
  "src/rsync.rs: update_from_rrdp_state, RsyncFromSnapshotWriter::publish")
p("Rsync 'current' always resolves to a complete tree",
  "In symlink mode, at every instant of a run that offers a revision not among the recorded ones, 'current' is as it was before the run and all directories of other revisions are unchanged, or it points to the directory of the new revision and that has all objects of the new snapshot; it is never missing once it existed.",
  "every instant, I/O failure pattern, snapshot and prior tree",
  "instants inside a run are invisible to tests",
  "src/rsync.rs: symlink_current_to_new_revision_dir, update_from_rrdp_state")
p("Directory-move mode: what clients of 'current' see, and where it gets stuck",
  "With directory moves instead of symlinks, at every instant of a run 'current' is as it was before the run, or absent while its tree is preserved unchanged in the directory of its revision, or has all objects of the new snapshot. The instant without 'current' occurs. If a run is killed after the second rename and before the rsync state is saved, every later run with directory moves that succeeds changes nothing: none brings a new version.",
  "exists an instant, a kill point and all later runs",
  "needs a kill between two renames",
  "src/rsync.rs: rename_new_revision_dir_to_current")
p("Old rsync trees are kept for the cleanup time, then removed",
  "A completed rsync update removes the directories of the recorded old revisions whose recorded time is at least cleanup-after seconds ago and forgets them, keeps the records of the others, and removes nothing else in the rsync directory except what it works on itself ('current', its temporary name and the directory of the new revision).",
  "every recorded list, clock and tree",
  "clock and history dependent",
  "src/rsync.rs: RsyncDirState::clean_old, update_current")
p("The served rsync tree is removed only by its own expired record",
  "After a completed run with symlinks, 'current' points to the directory of the new revision. That directory has all objects of the snapshot, unless this very revision is recorded as old and the record expires in this run; then it has no files. The exception occurs: when a revision becomes current again after having been recorded as old (repeated runs that are killed after the rsync step), the tree that 'current' points to is removed.",
  "every history of runs",
  "needs a multi-run history",
  "src/rsync.rs: update_from_rrdp_state, clean_old, update_current")
p("Different revisions use different directories",
  "Two different (session, serial) pairs always get different rsync directory names, and none of them is 'current' or 'current.tmp'.",
  "every pair of sessions and serials",
  "2^192 pairs",
  "src/rsync.rs: RsyncRevision::dir_name")
p("Objects of different hosts do not collide with --rsync-include-host",
  "With --rsync-include-host, snapshot objects with different URIs are written to different files; without it, objects collide exactly when their URI paths are equal, whatever their host and module.",
  "every pair of rsync URIs",
  "all strings",
  "src/rsync.rs: RsyncFromSnapshotWriter::publish")
p("Modification times depend only on the object",
  "After a completed update to a new revision, the modification time of every served object depends only on its bytes and file name: validity start for .cer, this-update for .crl, signing time (or else EE validity start) for others, unset if the object cannot be parsed; or the operation that sets the time failed, which is ignored. So two servers that serve the same object under the same name show the same time.",
  "every object, path and file system; any two servers",
  "all contents",
  "src/rsync.rs: fix_since, publish")
p("Writes stay inside the configured directories",
  "Every path a run creates, changes or removes lies in the staging, RRDP or rsync directory, or is one of the two state files, or is a created or removed (empty) ancestor directory of those, provided the URIs in the source's notification, and the object URIs in snapshots, have no empty, '.' or '..' segments (a URI with an empty first segment escapes to an absolute path).",
  "every source notification and snapshot content, every instant",
  "adversarial inputs",
  "src/rrdp.rs: SourceMappings::relative, SourceMappings::path", "src/config.rs: staging_path", "src/file_ops.rs: move_file")
p("Public URIs and local paths correspond",
  "For every accepted snapshot or delta URI, the URI published in the local notification is the same URI, and the local file is the RRDP directory joined with the part of the URI after the notification's base; URIs not under the base are refused.",
  "every URI and base",
  "all strings",
  "src/rrdp.rs: SourceMappings::build, relative, uri, path, path_for_uri", "src/rrdp.rs: NotificationSource::build")
p("Pre-validation decides as configured",
  "Given the validation report, the run is stopped exactly when --tal-reject-invalid is set and the report either has issues for the synced repository or does not contain it; otherwise it continues. Without TAL files nothing is validated and any stored validator is dropped. Errors obtaining the staged data or the trust anchor stop the run regardless of the flag.",
  "every report, configuration and state",
  "all reports and flag combinations",
  "src/rrdp.rs: pre_validate, reconfigure_validator", "src/process.rs: process")
p("When rejection looks at the content being published",
  "With --tal-reject-invalid and trust anchors, if the copy of the repository kept from earlier validations is at least an hour old or there is none, and the source's deltas end at its serial, then a completed run that changes anything has validated the version it publishes: the objects examined are those of the published session and serial, at least one CA uses the repository, and each that does has an acceptable manifest and CRL there and no issues. When the stored validator fetched the repository less than 60 minutes ago this is false: the previously cached content is validated and the new content is published unseen; this occurs.",
  "every pair of runs and clocks",
  "needs two runs with the stored validator in between",
  "src/validation/validator.rs: VisitedRepositories::get_latest, Validator::initialise_staging_data", "src/rrdp.rs: pre_validate")
p("Pre-validation scripts all run",
  "When pre-validation gets as far as scripts, every configured script is started exactly once in the configured order even if earlier ones fail; the run stops with the script error exactly when at least one failed and --tal-reject-invalid is set. A script that cannot be started stops the run regardless of the flag.",
  "every script list and outcome vector",
  "all outcome combinations",
  "src/process.rs: process")
p("Offline validation contacts no other repository",
  "With --offline-validation, after the staged data is loaded, validating fetches nothing over the network except trust anchor certificates.",
  "every certificate tree, cache and staged content",
  "unbounded trees",
  "src/validation/validator.rs: get_latest, validate_tree_at", "src/validation/tal.rs: Tal::validate_at")
p("Cached repository data is never a mixture",
  "After an update attempt of cached repository data from a new notification, the cached objects are either unchanged, or exactly the result of applying, in order, every delta between the cached and the new serial (each update and withdrawal having matched the hash of the replaced object), or exactly the new snapshot's objects, or the data is removed; a partially applied delta set never survives.",
  "every cache, notification, delta and snapshot content, and every fetch failure",
  "failure points inside delta sequences",
  "src/validation/validator.rs: get_latest, update_repository_data_from_deltas, repository_data_from_snapshot")
p("Validation report totals add up",
  "For every repository URI in the report, each counter is the sum over the reported certificates with that URI of the corresponding list lengths, and its issues are the concatenation of theirs; certificates without an RRDP URI are counted nowhere.",
  "every sequence of certificates and merges",
  "all report trees",
  "src/validation/report.rs: ValidationReport::add_cert, add_other, RepositoryReport::process_cert, add_other")
p("Every manifest entry is accounted for exactly once",
  "When the manifest and CRL of a CA are acceptable, each manifest entry other than the CRL yields exactly one of: issue, child, router certificate, ROA, ASPA, ignored object; when they are not, exactly one issue is reported and nothing else.",
  "every manifest, repository content and iteration order",
  "all manifests and orders",
  "src/validation/validator.rs: validate_tree_at")
p("Revoked objects are not reported as valid, except router certificates",
  "No ROA, ASPA or child CA certificate whose EE or own serial number is on the issuer's CRL is reported as valid. For BGPsec router certificates this is false: they are not checked against the CRL, and a revoked one is reported as valid.",
  "every CA content and CRL",
  "all contents",
  "src/validation/validator.rs: validate_tree_at")
p("Validation stops unless a chain of CA certificates is as long as the stack",
  "Validation ends with a result or an error unless there is a chain of accepted CA certificates, from a trust anchor on, each listed on the manifest of the one before, as long as the stack allows. Such chains exist for every stack: a CA certificate that lists itself (or an ancestor) among its children makes validation overflow any stack.",
  "every repository content and stack size",
  "needs non-terminating input",
  "src/validation/validator.rs: validate_tree_at")
p("How often a repository is fetched in a validation run",
  "A validation run consists of fetches of trust anchor certificates and lookups of repositories; once a lookup of a repository has succeeded in the run, every later lookup of it gives the same data and sends no request. This is not so for a repository without data that cannot be fetched: it is contacted again for every CA that uses it.",
  "every sequence of lookups in a run",
  "all lookup sequences",
  "src/validation/validator.rs: get_latest")
p("Trust anchors must match their TAL",
  "A trust anchor certificate is accepted only if it decodes, validates at the given time and has exactly the TAL's public key; the location used is the given override or else the first https URI of the TAL.",
  "every TAL, source and certificate",
  "all inputs",
  "src/validation/tal.rs: Tal::parse, Tal::validate_at")
p("A stored validator is reused only for the same trust anchors and source",
  "The stored validator (and its cache) is reused exactly when its TAL list equals the configured one and it has a fetcher equal to the configured one; otherwise it is replaced by an empty one.",
  "every pair of validators",
  "all states",
  "src/validation/validator.rs: Validator::equivalent", "src/rrdp.rs: reconfigure_validator, new_validator_needed, create_validator")
p("Directory defaults follow --state-dir",
  "If the state directory is not the default, an RRDP or rsync directory left at its default becomes the same-named directory under the chosen state directory; any other directory setting is unchanged; with the default state directory nothing changes.",
  "every triple of directory strings",
  "all strings",
  "src/config.rs: post_configure, Replace::replace")
p("Source mapping and TLS strictness follow the command line",
  "With a source base, every fetch of a URI below the notification's base goes to the source base joined with the same relative part, and other URIs are refused; without one, the URI itself is fetched. All requests made while staging are TLS-strict unless --insecure is given, in which case all are lenient.",
  "every URI, base and flag combination",
  "all inputs",
  "src/config.rs: post_configure, fetcher", "src/fetch.rs: Fetcher::resolve_source, FetchMap::source, FetchSource::join")
p("Only one instance works on a state directory",
  "In every interleaving of any number of krill-sync processes with the same state directory, at most one is executing the sync at a time, and one that finds the lock taken ends with an error having changed nothing but the lock file and state directory existence.",
  "every number of processes and interleaving",
  "schedules",
  "src/main.rs: lock, try_main")
p("Verbosity is monotone and as documented",
  "Quiet shows only errors; each additional -v shows at least as much as before, the first three raising only krill-sync's own level to info, debug, trace and the next three those of other crates.",
  "every combination of flag counts",
  "all counts up to 255",
  "src/config.rs: initialize_logging")
p("No request is conditional",
  "In every run of every history, every request for the notification and the files it lists is sent without If-None-Match, although the source may have sent an ETag for it before. (The received ETag is never stored, so it is not used, contrary to what the recorded state provides for.)",
  "every history of runs",
  "all histories",
  "src/rrdp.rs: apply_staged_changed, NotificationSource::fetch, update_staged")
p("All requests of a run: where they go and how strict they are",
  "Every HTTPS request of a run is either one for the notification or a file that it lists, sent to the URI that the source base and notification URI on the command line prescribe, strict about TLS unless --insecure is given, and unconditional; or it is a request of the validator, which is only made if TAL files are given, and which ignores TLS errors even without --insecure. The second case occurs.",
  "every configuration and tree",
  "all trees",
  "src/validation/validator.rs: get_fetcher", "src/validation/tal.rs: Tal::parse", "src/rrdp.rs: create_validator")
p("The retention time counts from before the notification delay",
  "A completed run that changes anything first does all its other work, while the notification stays as it was, and makes its records of dropped files with times read from the clock in that part; then it waits for the configured delay; then it replaces the notification and saves its state, reading no clock any more. So a file may be deleted less than cleanup-after seconds after the notification that lists it was replaced; this occurs.",
  "every delay and clock",
  "timing over two runs",
  "src/rrdp.rs: apply_staged_changed, write_notification", "src/process.rs: process")
p("Every file in the RRDP directory is accounted for between completed runs",
  "If the RRDP directory has no files at first and all runs complete, then after each of them every file in the RRDP directory, other than the notification, is listed in the recorded state as published or as dropped (and thus removed in the end). A single completed run preserves this for each path. After a kill between publishing and saving the state it is false: the files of the unsaved version are forgotten.",
  "every history including kills",
  "needs a kill at one point",
  "src/process.rs: process", "src/rrdp.rs: apply_staged_changed, persist")
p("What a run does when the RRDP directory is changed",
  "When the recorded state was made with another RRDP directory than the one now configured (in another place), a run never touches the notification path in the configured directory, and brings no new file into the old directory except the notification (and its temporary file). If it succeeds and changes anything, the new notification is in the old directory and lists the offered snapshot, and that snapshot file is put in the configured directory only. So the notification that is served in the old directory may list a file that is not there, and there is none in the new one; this occurs.",
  "every pair of configurations",
  "two runs with different settings",
  "src/rrdp.rs: recover, apply_staged_changed, write_notification", "src/process.rs: process")

p("What version a lookup of cached repository data gives",
  "If the source's notification, in the cached session, has no lower serial than the cached data, and its delta list, unless empty, has its greatest serial at its own, then after a lookup that leaves data for a repository the data has the content that was cached, or the session and serial of the source's notification. A successful lookup may however give data of another serial than the announced one when those conditions do not hold; this occurs.",
  "every cache, notification and clock",
  "all caches and sources",
  "src/validation/validator.rs: VisitedRepositories::get_latest, update_repository_data_from_deltas")
p("What follows a failed lookup of a repository within a validation run",
  "If looking up a repository fails in a validation run, then after any further lookups of the same run, looking it up again either gives the content that was cached before the run, with no further request, or there is no cached data for it (there was none before, or the source offered another version and that could not be loaded). Without cached data a lookup gives the content of the snapshot of the offered notification, or fails. So the first lookup may report an error and a later one in the same run succeed with the old data; this occurs.",
  "every cache, source failure and order of lookups",
  "order of lookups in a tree of CAs",
  "src/validation/validator.rs: VisitedRepositories::get_latest")
p("The report covers the whole certificate tree",
  "When validation completes, the report contains, for every trust anchor that validated, an entry for it, and, for every entry, an entry for every accepted child CA certificate found on its manifest; every entry is justified by a certificate and repository content.",
  "every certificate tree of any depth and width",
  "unbounded trees",
  "src/validation/validator.rs: Validator::validate_at, validate_ca")

p("A run that nothing stands in the way of publishes the new version",
  "If no file operation fails, the validation scripts accept, the source has a newer version and every file it lists with the listed hash (each once), the places of the run are free or hold what belongs there, the rsync tree (if enabled) can be made, and the TAL files and trust anchors (if any) are in order and the snapshot can be read, then the run succeeds and the notification file served is that of the new version. The only exceptions are with trust anchors: rejecting is configured and the validation of the staged version finds no CA that uses the repository or an issue with one that does; or there is a chain of certificates, each a valid child of the one before, as long as the stack.",
  "every configuration, history of runs and kills, tree, source and clock meeting the conditions",
  "all trees, file lists and histories; tests see one successful run at a time",
  "src/process.rs: process", "src/rrdp.rs: update_staged, apply_staged_changed, clean, write_notification, persist", "src/rsync.rs: update_from_rrdp_state", "src/fetch.rs: retrieve")

p("Validation uses current data when it is due",
  "When a repository is looked up in a validation run, with fetching allowed, for the first time in the run, and there is no cached copy or it was fetched an hour or longer ago, then a successful lookup gives the content of a version the source offers at that time (the cached objects with all announced deltas applied, or the objects of the announced snapshot, or the cached objects if session and serial are the announced ones), or the cached content if the source answers 'not modified'.",
  "every cache, source, clock and repository",
  "all caches, delta chains and answers of the source",
  "src/validation/validator.rs: VisitedRepositories::get_latest, update_repository_data_from_deltas, repository_data_from_snapshot")

p("Options take effect as given",
  "Every option given on the command line (verbosity, quiet, state directory, notification delay, number of deltas, rsync switch, host in rsync paths, cleanup time, insecure, notification URI, trust anchor files, scripts, reject, offline) is the setting that is used. With a source base, URIs below the notification's base are looked for below it (with TLS checks off if --insecure is given), without one at their own place. krill-sync starts exactly if the notification URI names a file in a directory and the source base, if given, is an existing directory (or link to one) or an https URI that ends in a slash.",
  "every combination of options and every tree at start-up",
  "all combinations of options",
  "src/config.rs: post_configure, Config", "src/fetch.rs: FetchSource::is_dir")

p("Recent copies of repositories are used without asking",
  "When a repository is looked up for validation, and the copy kept of it was already looked up in this run or fetched less than an hour ago, then the lookup succeeds with the content of that copy, the copy stays as it is, and nothing is requested, online or offline.",
  "every cache, source and clock",
  "every cache and clock reading",
  "src/validation/validator.rs: VisitedRepositories::get_latest")

p("Copies of repositories carry the ETag of their own notification",
  "A copy of a repository after a lookup is the earlier copy with its content, time and ETag, or it is made from a notification that the source sent, and recorded with the time of the lookup and exactly the ETag sent with that notification (none if there was none, or for a local source). In a whole validation a conditional request is only sent for the notification of a repository of which there was a copy at the start, fetched an hour or longer ago and not looked up since, and with the ETag of that copy; all other requests are unconditional.",
  "every cache, tree of certificates, source and clock",
  "all orders of lookups in a tree and all answers of the sources",
  "src/validation/validator.rs: VisitedRepositories::get_latest, RepositoryData", "src/fetch.rs: FetchSource::fetch, NotificationFileResponse")

p("What validation asks for",
  "Every request sent in a validation run is an unconditional request for a trust anchor certificate named in a configured trust anchor locator, or, unless validation is offline, for the notification of a repository, or for a snapshot or delta listed in a notification offered by that repository, where the repository is named in a certificate that was found valid below a trust anchor.",
  "every certificate tree, cache and source",
  "all trees and answers of the sources",
  "src/validation/validator.rs: Validator::validate_at, VisitedRepositories::get_latest", "src/validation/tal.rs: Tal::validate_at")

p("What can make a run panic",
  "A run ends with success, with an error, or with a panic, and with a panic only if the number of deltas is limited to 0 while the source's notification lists deltas, or if below a configured trust anchor there is a chain of accepted CA certificates longer than the stack allows. In the first case it does panic on every such run, before anything on disk has changed.",
  "every configuration, tree, source, clock and pattern of I/O failures",
  "an abort needs an unforeseen combination; that there are no others can only be shown over all of them",
  "src/rrdp.rs: NotificationSource::build, RrdpState::update_staged", "src/fetch.rs: Fetcher::read_notification_file", "src/validation/validator.rs: Validator::validate_tree_at", "src/process.rs: process")

p("Rsync is updated before the notification",
  "Whenever, during a run with rsync enabled, the served notification is no longer the one served before the run, rsync clients already get the tree of the version it announces: 'current' leads to the directory of that session and serial, all objects of its snapshot are there, and the rsync record names it. Over any sequence of runs with the symbolic link, each completed, failed or killed at any instant, against a source that goes from version to version, the version rsync clients get is never older than the one the notification announces. It can be newer: a kill between the two steps leaves rsync ahead.",
  "every configuration with rsync enabled, every tree left by any history, every source, fault and kill instant; for the history part all sequences of such runs",
  "The two publications are separate steps with many file operations between them; only an argument over all instants shows that no crash point leaves RRDP ahead of rsync.",
  "src/rrdp.rs:RrdpState::write_notification", "src/process.rs:process", "src/rsync.rs:update_from_rrdp_state")
p("With --rsync-disable nothing of rsync is touched",
  "A run with rsync disabled changes nothing in the rsync directory and does not change the rsync record, at no instant, whatever it publishes for RRDP and however it ends.",
  "every configuration with rsync disabled, every tree left by any history, every source, fault and kill instant",
  "A frame property: it says what does not happen, for all runs.",
  "src/process.rs:process", "src/rsync.rs:update_from_rrdp_state", "src/config.rs:Config::rsync_enabled")
p("Every directory in the rsync directory is accounted for between completed runs",
  "As long as all runs complete, every directory in the rsync directory is 'current', or belongs to a revision the rsync record names as current or as old, so that cleaning will come to it; this holds for both ways of turning to a new revision and also if rsync is disabled in some runs. It does not hold after a kill: a run killed while it writes the objects of a revision leaves a directory that no record names, and as long as the source does not offer that revision again, no later run removes or changes it.",
  "every sequence of completed runs with any options from a tree without rsync data; for the leftovers every completed run on any tree",
  "What accumulates over time is a question about all histories.",
  "src/rsync.rs:update_from_rrdp_state", "src/rsync.rs:RsyncDirState::update_current", "src/rsync.rs:RsyncDirState::clean_old")

p("A client that has read the notification can fetch everything it lists",
  "A client reads the notification, between runs or while a run is under way. At every instant after that, every file the notification lists is at its place with the listed content, as long as the runs that take place meanwhile (completed, failed or killed at any instant, any number of them) read the clock less than the cleanup time after the start of the period: after the client read the notification or, if it did so during a run, after that run began. This needs a source at which a URI always means the same file and a file once dropped is not listed again, and staged files that can be renamed into place.",
  "every configuration, history before, moment of reading, sequence of later runs and instant of them, with the cleanup time as the only bound",
  "It is about all interleavings of a slow client with runs and kills.",
  "src/rrdp.rs:RrdpState::clean", "src/rrdp.rs:RrdpState::apply_staged_changed", "src/rrdp.rs:RrdpState::write_notification", "src/process.rs:process")

p("What a kill leaves of the rsync record",
  "A run killed at any instant leaves the rsync record as it was, or the complete record of the new version (that version as the current one, the previous one retired, expired ones dropped), or part of that text, which cannot be read; in the last two cases rsync clients already get the new version. If the record cannot be read, no later run with rsync enabled (completed, failed or killed, any number of them) changes the notification, the RRDP state, the rsync directory or the record, and such a run succeeds only if it changes nothing at all.",
  "every configuration, history, instant of a run, and sequence of later runs with rsync enabled",
  "The record is torn only by a kill in the middle of a write; that no later run gets past it is a statement about all runs.",
  "src/rsync.rs:update_from_rrdp_state", "src/rsync.rs:RsyncDirState::recover", "src/rsync.rs:RsyncDirState::persist", "src/process.rs:process")
p("An rsync client finds the tree it was sent to until the cleanup time is over",
  "With the symbolic link, an rsync client that was sent to the directory of a version, between two runs or at any instant of a run, finds everything in it unchanged, whatever runs are completed, fail or are killed meanwhile, as long as they read the clock less than the cleanup time after the client started, and do not publish that same version once more.",
  "every configuration with the symbolic link, history, version, instant at which the client follows the link, sequence of later runs and instant of them, with the cleanup time as the only bound",
  "It is about all interleavings of a slow client with runs and kills.",
  "src/rsync.rs:RsyncDirState::update_current", "src/rsync.rs:RsyncDirState::clean_old", "src/rsync.rs:update_from_rrdp_state")

p("Where the source's files are fetched from makes no difference",
  "Two runs that differ only in where the source's files are fetched from (directly, from another server, from a local directory; with or without --insecure), and that get the same for the notification and the files it lists, do the same: they show the same trees, step by step, and both succeed or both fail. In particular a run on a local copy of the source, given with --source-uri-base, publishes exactly what a run that fetches from the source publishes. ETags and other details of the replies do not matter.",
  "every configuration, history, pair of supplies that agree on the files wanted, world around the runs (clock, faults, scripts)",
  "It compares two runs step by step, for all contents and all faults.",
  "src/config.rs:Config::fetcher", "src/config.rs:Config::post_configure", "src/fetch.rs:FetchMap", "src/fetch.rs:FetchSource::fetch", "src/fetch.rs:Fetcher::retrieve_file")

p("A mirror recovers by itself",
  "Whatever happened to a mirror before (runs that completed, failed, or were killed at any instant, for any versions of the source, with changing configurations): as long as the two state files can be read, the next run that nothing disturbs completes and publishes the source's version, if that is another one than the recorded one. Nobody has to clean up what an interrupted run left behind: no half-made directory, staged file, prepared notification or prepared symbolic link is ever in the way of a later run.",
  "every history of runs and kill points of a source whose files fit into one tree, every later undisturbed run with an rsync directory kept with symbolic links",
  "The leftovers of all kill points of all runs cannot be listed, and each must be harmless to every later run.",
  "src/rrdp.rs:RrdpState::update", "src/rsync.rs:RsyncFromSnapshotWriter::for_rrdp_state", "src/rsync.rs:symlink_current_to_new_revision_dir", "src/rsync.rs:RsyncState::clean_old", "src/file_ops.rs:write_buf", "src/process.rs:try_process")

p("A client that follows the deltas ends up with what the snapshot contains",
  "Suppose the source's files are consistent: each delta turns the objects of one serial into those of the next, and each snapshot lists the objects of its serial. A relying party that holds the objects of an earlier serial and reads the mirror's notification, which lists the delta for the next serial, can fetch all further deltas from the mirror and apply them (no fetched file has another hash than the listed one, no change refers to an object it does not have), whatever runs go on meanwhile; it ends with exactly the objects of the notification's serial, which are also those in the snapshot it could have fetched instead.",
  "all histories of runs (completed, failed, killed anywhere) and readings between runs or during one; all starting serials; each file fetched at its own time until the cleanup time is over; all consistent sources that obey RFC 8182",
  "It combines what the mirror wrote in several runs with the source's versions those runs saw; a test sees one history and one order of fetches.",
  "src/rrdp.rs: RrdpState::update_staged/deltas_stage/apply_staged_changed/clean/write_notification", "src/process.rs: process")

p("Rsync servers with the same revision serve the same tree",
  "Take any number of machines that run krill-sync against the same source, each with its own directories, clock, schedule, and history of runs that completed, failed, or were killed. When a run that changed something has completed on two of them and their 'current' links have the same name, the trees behind the links are the same (unless the run removed its own tree again, see C22): the same directories and the same files, with the same contents and modification times, and nothing else. In particular, nothing that failed or killed runs have left behind is in the tree.",
  "all pairs of configurations with the same setting for host names in paths and symbolic links, all histories, all environments of the last runs in which setting a file time does not fail",
  "It compares what two independent histories leave behind; a test compares two chosen ones.",
  "src/rsync.rs: update_from_rrdp_state/RsyncFromSnapshotWriter::for_snapshot_path/publish", "src/process.rs: process", "src/file_ops.rs: write_buf")

p("What the mirror keeps is bounded",
  "Between completed runs nothing piles up: after a run that changed something, every file in the RRDP directory is the notification (or the file it is prepared in), a file that this notification lists, or one recorded as dropped less than cleanup-after seconds before this run; every directory in the rsync directory is 'current' (or the name it is prepared under), that of the revision just published, or that of an old revision recorded less than cleanup-after seconds before this run. The bound holds only after runs that found a new version: a run that finds nothing new removes nothing, however long ago it was dropped.",
  "every sequence of completed runs from a tree without data, every clock and every completed run after it",
  "It is a statement about all files that any sequence of runs leaves; a test sees the leftovers of one sequence.",
  "src/rrdp.rs: RrdpState::clean, apply_staged_changed", "src/rsync.rs: RsyncDirState::clean_old", "src/process.rs: process")

p("Directory moves: which interruptions block all later updates",
  "If 'current' is a directory, and the directory of the revision that is recorded as the current one holds something (or no revision is recorded and 'current' is not empty), then no run with rsync replaces the notification, the recorded state or anything in 'current' any more, in either mode, however long one keeps retrying: such a mirror is blocked. Interruptions do lead there: a run killed between saving the rsync record and saving the RRDP state leaves a tree on which the next run for the same version fails, and its failure leaves the mirror blocked.",
  "every tree with a directory 'current' and such a record, every environment (all faults, answers and clocks), every instant of every run and every sequence of runs and kills after it",
  "It is a claim about every later run under every source; a test can only watch a few retries fail.",
  "src/rsync.rs: rename_new_revision_dir_to_current, symlink_current_to_new_revision_dir", "src/rsync.rs: update_from_rrdp_state", "src/process.rs: process")

p("What stays in the staging directory",
  "A run that completes leaves no new or changed file in the staging directory except its copy of the notification: everything it staged has been moved. A file that a failed or interrupted run left there stays, unchanged, at every instant of every later run whose source does not name it (nor a file at a directory above it), so such leftovers accumulate: nothing ever removes them.",
  "every configuration, tree with a history, environment (all faults, answers, clocks), every path in the staging directory, every instant of every run and every sequence of runs and kills after it",
  "Leftovers depend on where earlier runs stopped and on which names all later versions use; a test sees one of these histories.",
  "src/config.rs: staging_dir/staging_path", "src/rrdp.rs: RrdpState::apply_staged_changed", "src/file_ops.rs: move_file")

p("With directory moves, a mirror recovers by itself unless it is blocked",
  "Where directories are moved instead of switching a symbolic link (on systems without them, or by the setting rsync_dir_force_moves): whatever happened to the mirror before (runs that completed, failed, or were killed at any instant, also between the two renames, when there is no current directory), as long as the two state files can be read, the next run that nothing disturbs publishes the source's version, if that is another one than both recorded ones, exactly if the mirror is not blocked: blocked means that there is a current directory and that the directory it would have to be moved to is not empty (or, if no revision is recorded, that the current directory is not empty). Nothing else that an earlier run left behind is in the way.",
  "every history of runs with directory moves and their kill points, of a source whose files (and the objects of all its versions) fit into one tree; every later undisturbed run",
  "The trees that interrupted runs leave depend on all kill points of all runs and on where each revision had been moved; each must be harmless to every later run unless it is the one named.",
  "src/rsync.rs:rename_new_revision_dir_to_current", "src/rsync.rs:update_from_rrdp_state", "src/rsync.rs:RsyncState::clean_old", "src/rrdp.rs:RrdpState::update", "src/process.rs:try_process")

p("The command line means what it says",
  "krill-sync starts with the settings that the command line spells, and only then: options in any order, in every documented spelling (two words, with an equals sign, short, short ones in one word), each with its documented default if not given; trust anchor files and scripts in the order given, several after one option or each with its own; the notification URI anywhere, or after '--'. It does not start if an option is unknown, given twice (other than -v, --tal, --pre-validate), if -v and -q are both given, if a number is none or out of range, if there is no URI, or more than one, or one that does not parse. A URI right after the values of --tal or --pre-validate is taken as one more of these values (so krill-sync does not start); '--' in between prevents that. No command line turns on directory moves.",
  "every list of arguments and every order and spelling of every combination of options",
  "The number of command lines is unbounded: any number of options, values and spellings, in any order.",
  "src/config.rs: Config, configure, DEFAULT_CLEANUP_SECONDS, DEFAULT_STATE_DIR, rsync_dir_force_moves", "src/fetch.rs: FetchSource, from_str", "src/main.rs: configure_and_try_main")

p("What is parsed before it is published",
  "With rsync enabled, the notification that is served changes only after the snapshot it names was parsed to its end and each object in it could be decoded, and the snapshot that is served is that document. Nothing else in the data files is looked at, unless there are trust anchors: what a delta says, and with --rsync-disable what the snapshot says, has no influence on the run, its requests, its trees or its outcome. So the README's claim that a run fails if a file cannot be parsed does not hold for deltas, nor with --rsync-disable for snapshots.",
  "every configuration, source and starting tree, every pair of ways to read the content of data files, every instant of a run",
  "That the content of a file has no influence is a statement about all contents and all runs; a test compares a few.",
  "src/rsync.rs: update_from_rrdp_state, for_snapshot_path, publish", "src/rrdp.rs: update_staged, pre_validate, apply_staged_changed", "src/process.rs: process")

p("What a power failure leaves",
  "krill-sync never waits for its writes to reach the disk, so a power failure may cut off any file that was written, though its name is there. Whenever and however often this happens: either the next run starts from a state that was saved whole, or no run gets anywhere until the state file is removed; what a run adds to the RRDP directory was verified in that run; a failure during a run leaves the notification as it was or as a beginning of the new one, and leaves the files that were served before alone, unless the source announces them in this run or their time was up. But nothing that was damaged is repaired: after a completed run each listed file is right, or it was listed before and is as it was. So after a power failure a run can complete and leave an empty notification, announce a delta that is empty, or find no state it can read.",
  "every history of runs (completed, failed or killed), of other changes to files that krill-sync does not own, and of losses of the ends of any files; every source and every instant of a run",
  "Needs a power failure at every point of every history; the file systems of tests do not lose data.",
  "src/file_ops.rs: write_buf, create_file, move_file", "src/rrdp.rs: persist, recover, write_notification, apply_staged_changed, deltas_stage", "src/process.rs: process")

p("What the exit status says",
  "Exit status 0: no other process held the lock, the state file records a version, and either nothing was changed because the source said it has nothing new or its version is the recorded one, or the version the source offered is now the one served, and is recorded. Exit status 1, or a crash: the record is as it was or no run gets anywhere until the state file is removed, and the notification is as it was or a complete new one. When another process holds the lock the status is 1, and nothing is done but to make the state directory and the lock file. A crash needs a limit of no deltas, or a chain of certificates longer than the stack allows. Status 1 does not say that nothing was published: when only the state file could not be written, the new version is served.",
  "every command line that is accepted, every tree that a history of runs can leave, every source, every fault of the file system",
  "Needs every way in which a run can end, from the command line to the exit status.",
  "src/main.rs: main, try_main, lock", "src/process.rs: process", "src/config.rs: configure, post_configure")

p("What a run downloads",
  "A run asks the source for its notification, once and unconditionally, and, when the version is a new one, for its snapshot and then for those of its deltas that are new (of another session, or newer than all recorded ones), in the order of their serials, each once at most and without retries. It asks for nothing else, except that the validator, when there are trust anchors, asks for what the certificates name. When reading the disk works and the notification lists no file twice, a file that an earlier attempt has staged with the right hash is not asked for again: a run that succeeds and changes something has asked for exactly the others, and one that fails for the first of them. A run that asks for no more than the notification changes nothing when it succeeds.",
  "every tree that a history of runs can leave, every source, every fault, however long the list of deltas",
  "The requests depend on what earlier runs recorded and on what failed attempts left behind.",
  "src/fetch.rs: retrieve_file, read_notification_file, resolve_source", "src/rrdp.rs: update_staged, snapshot_stage, deltas_stage", "src/process.rs: process")

p("RRDP servers with the same version show the same",
  "Take any number of machines that run krill-sync against the same source, each with its own directories, schedule and history of runs that completed, failed or were killed. At every instant, the notification a machine shows, if any, is exactly a version of the source: session, serial, snapshot, and the newest deltas, as many as its limit allows, newest first, whatever it has seen before. So two that show the same session and serial show the same snapshot and deltas, up to their limits, and with the same limit the same document; and a client that has read the notification of one can fetch every file it lists from another that shows the same version or did so within the cleanup time, if its limit is not lower. This needs a source that gives a session and serial to one version only, lists a delta to its own serial if any, and lists no old delta that it did not list before; and a limit that stays as it is: after the limit was raised, a server may lack deltas that another with the same limit shows.",
  "all numbers and histories of servers, all limits, every instant of their runs",
  "Relates the results of two unbounded histories that need not have seen the same versions.",
  "src/rrdp.rs: update_staged, deltas_stage, deltas_deprecate_before, apply_staged_changed, make_notification_file", "src/config.rs: rrdp_max_deltas")

p("What a run does when the notification URI is changed",
  "The notification URI of the first run is recorded in the state file, and its directory and file name are used from then on, whatever the command line says. Given another URI in the same directory of the server, a later run fetches the notification from there and otherwise does exactly what it would do with the old command line: it publishes the version found there under the old file name, and puts nothing under the new one (unless the source lists a file of that name). Given a URI whose notification lists its snapshot outside of the recorded directory, a run changes nothing outside of the staging directory, at no instant, and succeeds only if it has nothing to do: the answer was not modified, or the session and serial are the recorded ones. The same holds for a new file name in the same directory if trust anchors are configured, even if the version found there is in order: the check before publishing looks for the notification under the new name in the staging directory, where it has the old one.",
  "all histories before the change, all new URIs, source contents, faults and kill points",
  "Needs every history that leaves a state, every instant of the later run, and the comparison of two runs step by step.",
  "src/rrdp.rs: recover, create, notification_source, mappings, update_staged, write_notification", "src/config.rs: fetcher, notification_uri", "src/fetch.rs: read_notification_file")

p("What runs do when the rsync directory is changed",
  "Which revisions were written for rsync is recorded without the directory they are in. After --rsync-dir is changed, no later run, completed, failed or killed, changes anything at or below the old directory: it goes on serving what it served, and the trees kept there are never removed, also when their time is over and their records are gone. The new directory stays as it is until the source has a version that is newer than the recorded one or of another session: also if the new directory is empty. The first run that then publishes, if the new directory was empty and the revision is not one recorded, serves exactly the objects of the new snapshot from there.",
  "all histories before the change, all runs after it, with all faults, source contents and kill points",
  "Needs every history before the change and any number of runs after it, and every instant of them.",
  "src/rsync.rs: update_from_rrdp_state, RsyncDirState, clean_old, path, recover", "src/config.rs: rsync_state_path, rsync_dir, rsync_dir_current", "src/process.rs: process")

p("What runs do when the state file is gone",
  "Without a state file (removed, or a new --state-dir) krill-sync starts over. Whatever is in the RRDP directory by then, other than the notification file and its temporary file, and is not listed by the source afterwards, is never changed and never removed by any later run, completed, failed or killed. The first run that completes publishes the version that the source has, whatever was served before, also one with a lower serial of the same session: the notification lists the deltas that krill-sync takes from the source's and no others, and every file it lists is there with its hash.",
  "all trees without a state file, all sequences of runs after that, with all faults, source contents, option changes and kill points",
  "Needs every tree to start on and any number of runs after it, and every instant of them.",
  "src/process.rs: process", "src/rrdp.rs: create, recover, update_staged, apply_staged_changed, clean, make_notification_file", "src/config.rs: rrdp_state_path")

p("Rsync trees that are not recorded stay for good",
  "The directory of an rsync revision that the rsync record names neither as the current one nor as an old one, for instance because a run was killed after it had written the tree and before it had saved the record, is never changed and never removed by any later run, completed, failed or killed, as long as the source does not have that version again. So when the rsync record is removed, this holds for all revision directories that are there. With directory moves, when the record is removed and there is anything in 'current', no later run with rsync enabled publishes anything: the notification file, the RRDP state and everything in 'current' stay as they are.",
  "all trees that krill-sync can have left, with and without the rsync record, all sequences of runs after that, with all faults, source contents, option changes and kill points",
  "Needs any number of runs after the loss, and every instant of them.",
  "src/rsync.rs: update_from_rrdp_state, symlink_current_to_new_revision_dir, rename_new_revision_dir_to_current, recover, update_current, clean_old", "src/process.rs: process", "src/config.rs: rsync_state_path")

p("A directory in the place of the rsync link stops all publication",
  "When 'current' in the rsync directory is a directory (it was there before krill-sync, or a copy of the mirror was restored in which the link had become a directory), no run that updates the rsync tree with links changes what clients get, with rsync or with RRDP, or what is recorded: at every instant of every later run, completed, failed or killed, the notification file, the RRDP state, the rsync record and everything in 'current' are as they were. A run that completes has changed nothing at all.",
  "all trees that krill-sync can have left or that only share its RRDP state, all sequences of runs with links after that, with all faults, source contents, option changes and kill points",
  "Needs every tree and any number of runs, and every instant of them.",
  "src/rsync.rs: update_from_rrdp_state, symlink_current_to_new_revision_dir", "src/process.rs: process")

p("What changing --rsync-include-host does",
  "When --rsync-include-host is given to an existing mirror, or no longer given, then with links: at every instant of the next run, each file of an rsync tree of another version than the one the source has is as it was, or gone; it is never put in another place. The first completed run that publishes a version for which there is no directory yet serves it in the new layout: its files are exactly the snapshot's objects at their new places. If an interrupted run has left a directory for that version, the tree that is served afterwards can have the same object in both places (refuted: that a tree has one layout).",
  "all histories of a mirror with any value of the option before, both values of the option after, all faults, source contents and kill points",
  "Needs every history before the change and every instant after it.",
  "src/config.rs: rsync_include_host", "src/rsync.rs: update_from_rrdp_state, create_out_path_if_missing, publish, clean_old")

p("Options have no effect before the source has a new version",
  "Once krill-sync has a recorded version, then as long as all that the source offers is of that session and not newer, no run on the same state directory changes anything in the file system at any instant, whether it completes, fails or is killed, and whatever its other options are, also other directories, another notification URI, rsync switched on, fewer deltas or a shorter cleanup time. When rsync is switched on and there is nothing of it yet, the first run that completes and changes anything serves exactly the objects of the snapshot of the version it publishes.",
  "all trees with a recorded version, all numbers of runs with all options, faults and kill points; for the last part all histories of a mirror",
  "Needs any number of runs, all combinations of options and every instant.",
  "src/process.rs: process", "src/rrdp.rs: update_staged, recover", "src/rsync.rs: update_from_rrdp_state")

p("A delta file that was lost or damaged is not repaired",
  "When the file of a delta that krill-sync has recorded is missing from the RRDP directory, or has other content, it is not downloaded again: at no instant of any later run, completed, failed or killed and with whatever other options, is the right file there, as long as the source stays with the session, still lists a delta with that serial, and lists nothing else at, above or below that place. Nevertheless every run that completes and changes anything publishes a notification that lists the delta with its hash, as long as the source's deltas, after the limit on their number, reach back to it. Such a run does put the new notification in place and, if the source answers properly and the staging directory has no links in it, the new snapshot and the deltas newer than all recorded ones, each with its hash unless its place is due for removal. Before the source has a new version nothing at all is changed, so nothing is repaired.",
  "all trees that differ from krill-sync's in anything but the RRDP state file, all recorded deltas, all numbers of runs with all faults, kill points and options",
  "Needs any number of later runs, every instant of them, and all kinds of damage.",
  "src/rrdp.rs: deltas_stage, update_staged, apply_staged_changed, make_notification_file")

p("A mirror can be the source of another",
  "Let the source be orderly: a session and serial stand for one version, each version lists its deltas once and ends at its own serial, it lists no old delta that an earlier version of the session did not, and serials do not go down within a session. Then whatever a mirror of it shows, at any instant and after any history with one delta limit, is accepted as a source's notification under any delta limit but 0. A second mirror that reads, in an order in which serials do not go down, what the first shows, itself shows at every instant either nothing or exactly a version of the original source, with its newest deltas, as many as the smaller of the two limits allows. What a mirror shows is an orderly source again, so this goes for any number of mirrors in a row.",
  "all orderly sources, all histories of both mirrors with all faults and kill points, all limits",
  "Needs arbitrary histories of two programs, one of which feeds the other.",
  "src/rrdp.rs: update_staged, deltas_stage, make_notification_file", "src/process.rs: process")

p("The next version's rsync tree is complete, whatever happened to the last one",
  "Let others have changed or removed any files in krill-sync's directories, but not the RRDP state file. If the versions the source offers are new to what is there (not in the rsync record, no directory yet), then a run with rsync that completes and changes anything serves a tree with exactly the objects of the snapshot it publishes, each with its own content, and no links. If there is a directory for the version already, all objects are there with their own content, and any other file is one that was in that directory before. Before the source has a new version nothing is changed, so a damaged rsync tree is served until then.",
  "all trees that differ from krill-sync's in anything but the RRDP state file, all sources, clocks, faults and options of the run",
  "Needs all kinds of damage to the directories, for all snapshots.",
  "src/rsync.rs: update_from_rrdp_state, for_snapshot_path, publish", "src/rrdp.rs: RrdpState::recover")

def emit(): 
    with open(os.path.join(os.path.dirname(os.path.abspath(__file__)),"..","properties.jsonl"),"w") as f:
        for x in P: f.write(json.dumps(x)+"\n")
if __name__ == "__main__":
    emit(); print(len(P))
