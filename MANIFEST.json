{"claims": [
 {"property": "C01", "status": "proved", "theorems": ["C01_never_dangles", "C01_settled", "C01_copied_refuted"], "note": "The condition on copies is an explicit hypothesis of the histories (fo_run); C01_settled says when it holds, C01_copied_refuted that it is needed."},
 {"property": "C02", "status": "proved", "theorems": ["C02_atomic"], "note": ""},
 {"property": "C03", "status": "proved", "theorems": ["C03_verified", "C03_copied", "C03_completed", "C03_304_refuted"], "note": "The 304 exception is an explicit hypothesis; C03_304_refuted shows that it is needed."},
 {"property": "C04", "status": "proved", "theorems": ["C04_not_prepared", "C04_refused", "C04_bad_state"], "note": ""},
 {"property": "C05", "status": "proved", "theorems": ["C05_unmodified", "C05_same_version"], "note": ""},
 {"property": "C06", "status": "proved", "theorems": ["C06_shows", "C06_history", "C06_behind", "C06_not_newer"], "note": ""},
 {"property": "C07", "status": "proved", "theorems": ["C07_version"], "note": ""},
 {"property": "C08", "status": "proved", "theorems": ["C08_unbroken", "C08_history"], "note": ""},
 {"property": "C09", "status": "proved", "theorems": ["C09_limit"], "note": "Proved for sources whose delta lists end at their own serial."},
 {"property": "C10", "status": "proved", "theorems": ["C10_suffix"], "note": ""},
 {"property": "C11", "status": "proved", "theorems": ["C11_new_session"], "note": ""},
 {"property": "C12", "status": "proved", "theorems": ["C12_kept", "C12_recorded", "C12_remembered"], "note": ""},
 {"property": "C13", "status": "proved", "theorems": ["C13_forgotten", "C13_no_empty_directory"], "note": ""},
 {"property": "C14", "status": "proved", "theorems": ["C14_only_expired"], "note": ""},
 {"property": "C15", "status": "proved", "theorems": ["C15_served", "C15_refuted"], "note": "C15_refuted exhibits the run that deletes a served file; C15_served says when it does not happen."},
 {"property": "C16", "status": "proved", "theorems": ["C16_kill", "C16_history", "C16_refuted"], "note": "C16_refuted exhibits the kill after which no run works any more."},
 {"property": "C17", "status": "proved", "theorems": ["C17_rrdp_state", "C17_rsync_state", "C17_saved"], "note": ""},
 {"property": "C18", "status": "proved", "theorems": ["C18_rsync_tree", "C18_after_retry"], "note": "For revisions that are not recorded yet; C18_rsync_tree if there is no directory for them either."},
 {"property": "C19", "status": "proved", "theorems": ["C19_instants", "C19_switch"], "note": ""},
 {"property": "C20", "status": "proved", "theorems": ["C20_instants", "C20_stuck", "C20_refuted"], "note": "C20_refuted exhibits the instant without 'current'."},
 {"property": "C21", "status": "proved", "theorems": ["C21_old_trees", "C21_moved_aside"], "note": ""},
 {"property": "C22", "status": "proved", "theorems": ["C22_link", "C22_refuted"], "note": "C22_refuted exhibits a history in which the served tree is removed."},
 {"property": "C23", "status": "proved", "theorems": ["C23_revision_dirs_distinct"], "note": ""},
 {"property": "C24", "status": "proved", "theorems": ["C24_include_host"], "note": ""},
 {"property": "C25", "status": "proved", "theorems": ["C25_times", "C25_stamped", "C25_servers_agree"], "note": "The time is missing if setting it failed; the code ignores that error."},
 {"property": "C26", "status": "proved", "theorems": ["C26_frame", "C26_parents"], "note": ""},
 {"property": "C27", "status": "proved", "theorems": ["C27_uri_path_correspondence"], "note": ""},
 {"property": "C28", "status": "proved", "theorems": ["C28_decision"], "note": ""},
 {"property": "C29", "status": "proved", "theorems": ["C29_examined", "C29_refuted"], "note": "C29_refuted exhibits a run that publishes what the same run rejects an hour later."},
 {"property": "C30", "status": "proved", "theorems": ["C30_all_run", "C30_cannot_start"], "note": ""},
 {"property": "C31", "status": "proved", "theorems": ["C31_offline"], "note": ""},
 {"property": "C32", "status": "proved", "theorems": ["C32_lookup"], "note": ""},
 {"property": "C33", "status": "proved", "theorems": ["C33_totals", "C33_totals_built"], "note": ""},
 {"property": "C34", "status": "proved", "theorems": ["C34_entries"], "note": ""},
 {"property": "C35", "status": "proved", "theorems": ["C35_not_revoked", "C35_routers_refuted"], "note": "C35_routers_refuted exhibits a revoked router certificate that is reported as valid."},
 {"property": "C36", "status": "proved", "theorems": ["C36_only_long_chains", "C36_refuted"], "note": "C36_refuted exhibits a tree on which validation overflows any stack."},
 {"property": "C37", "status": "proved", "theorems": ["C37_not_again", "C37_run", "C37_refuted"], "note": "C37_refuted exhibits a repository that is contacted twice."},
 {"property": "C38", "status": "proved", "theorems": ["C38_trust_anchor", "C38_location"], "note": ""},
 {"property": "C39", "status": "proved", "theorems": ["C39_reuse"], "note": ""},
 {"property": "C40", "status": "proved", "theorems": ["C40_dirs_follow_state_dir"], "note": ""},
 {"property": "C41", "status": "proved", "theorems": ["C41_requests", "C41_refused"], "note": "Runs without trust anchors; C45_strictness covers the others."},
 {"property": "C42", "status": "proved", "theorems": ["C42_exclusive", "C42_sequential", "C42_waiting", "C42_refused", "C42_try_main"], "note": ""},
 {"property": "C43", "status": "proved", "theorems": ["C43_verbosity"], "note": ""},
 {"property": "C44", "status": "proved", "theorems": ["C44_unconditional", "C44_refuted"], "note": "C44_unconditional is for runs without trust anchors, C45_all_requests covers the others. C44_refuted exhibits a source that sends an ETag that the next run does not use."},
 {"property": "C45", "status": "proved", "theorems": ["C45_all_requests", "C45_strictness", "C45_refuted"], "note": "C45_refuted exhibits a strict configuration whose validator sends lenient requests."},
 {"property": "C46", "status": "proved", "theorems": ["C46_order", "C46_refuted"], "note": "C46_refuted exhibits a file that is deleted too early."},
 {"property": "C47", "status": "proved", "theorems": ["C47_accounted", "C47_history", "C47_refuted"], "note": "C47_refuted exhibits the kill after which files are forgotten."},
 {"property": "C48", "status": "proved", "theorems": ["C48_old_directory", "C48_refuted"], "note": "C48_refuted exhibits a run after which the notification in the old directory lists a missing file."},
 {"property": "C49", "status": "proved", "theorems": ["C49_not_older", "C49_refuted"], "note": "C49_refuted exhibits a lookup that succeeds with data of another serial than the announced one."},
 {"property": "C50", "status": "proved", "theorems": ["C50_after_failure", "C50_without_data", "C50_refuted"], "note": "C50_refuted exhibits a lookup that fails and then succeeds with the old data."},
 {"property": "C51", "status": "proved", "theorems": ["C51_complete_tree"], "note": ""},
 {"property": "C52", "status": "proved", "theorems": ["C52_completes", "C52_with_anchors"], "note": "C52_completes: without trust anchors, no exceptions. C52_with_anchors: with or without, and the exceptions."},
 {"property": "C53", "status": "proved", "theorems": ["C53_refresh"], "note": ""},
 {"property": "C54", "status": "proved", "theorems": ["C54_options", "C54_starts"], "note": ""},
 {"property": "C55", "status": "proved", "theorems": ["C55_recent"], "note": ""},
 {"property": "C56", "status": "proved", "theorems": ["C56_origin", "C56_requests"], "note": ""},
 {"property": "C57", "status": "proved", "theorems": ["C57_requests"], "note": ""},
 {"property": "C58", "status": "proved", "theorems": ["C58_panic_only", "C58_zero_limit"], "note": "Panics in the formatting of log messages (a recorded time outside the calendar) and of arithmetic overflow checks in debug builds are not modelled."},
 {"property": "C59", "status": "proved", "theorems": ["C59_rsync_first", "C59_link_first", "C59_never_behind"], "note": "C59_rsync_first holds in both modes for revisions that are not recorded yet; C59_link_first for the symbolic link without that condition.  C59_never_behind is about histories with kills.  The example C59_ahead_applies is a killed run that leaves rsync ahead of RRDP."},
 {"property": "C60", "status": "proved", "theorems": ["C60_rsync_off"], "note": ""},
 {"property": "C61", "status": "proved", "theorems": ["C61_accounted", "C61_history", "C61_leftover", "C61_killed_refuted"], "note": "C61_killed_refuted: after a kill the accounting is lost; C61_leftover: such a directory stays."},
 {"property": "C62", "status": "proved", "theorems": ["C62_fetchable"], "note": "The notification document determines the notification (injectivity of the XML writer) is a hypothesis.  Without stable URIs see C15, for copies instead of renames C01_copied_refuted, for the time counted from before the delay C46."},
 {"property": "C63", "status": "proved", "theorems": ["C63_kill", "C63_stuck", "C63_stuck_for_good", "C63_refuted"], "note": "C63_refuted exhibits the kill: the property states what the code does, not what one would wish."},
 {"property": "C64", "status": "proved", "theorems": ["C64_tree_kept"], "note": "The client may follow the link between two runs or at any instant of a run; that the new tree is complete when the link names it is C19."},
 {"property": "C65", "status": "proved", "theorems": ["C65_same_run", "C65_local_copy"], "note": "Same environment for both runs; what is fetched must be the same during the whole run; a local directory is apart from the staging directory and free of symbolic links."},
 {"property": "C66", "status": "proved", "theorems": ["C66_recovers", "C66_with_anchors"], "note": "C66_recovers: without trust anchors. C66_with_anchors: with them, a run may also be refused for what it found. In symlink mode (the default on Unix); the snapshot's name must be new, as in C52. Others may change what krill-sync does not own but put no file where it needs a directory."},
 {"property": "C67", "status": "proved", "theorems": ["C67_catches_up"], "note": "The client applies deltas as in RFC 8182, by a relation of its own (changes) that does not use the code's validator. Hypotheses on source and runs as in C62, and delta lists that end at the notification's serial as in C08."},
 {"property": "C68", "status": "proved", "theorems": ["C68_tree", "C68_servers_agree"], "note": "The source does not change the objects of a revision, and its files fit into one tree (as in C66). The machines start with no directories of revisions and nothing in the way; others leave alone what krill-sync owns. Symbolic links only (the default on Unix)."},
 {"property": "C69", "status": "proved", "theorems": ["C69_rrdp", "C69_rsync", "C69_idle_refuted"], "note": "C69_idle_refuted: after a run that finds nothing new a file dropped longer ago than the cleanup time is still there."},
 {"property": "C70", "status": "proved", "theorems": ["C70_blocked", "C70_for_good", "C70_retry", "C70_refuted"], "note": "C70_refuted: with directory moves a run that would have succeeded, killed between the two records, is followed by a failing run, after which no run with rsync replaces the notification."},
 {"property": "C71", "status": "proved", "theorems": ["C71_left", "C71_for_good", "C71_completed", "C71_refuted"], "note": "C71_refuted: a run that fails on a delta leaves the snapshot it had staged; the next run publishes another session, completes, and the file is still there and stays."},
 {"property": "C72", "status": "proved", "theorems": ["C72_recovers", "C72_iff"], "note": "As C66, with directory moves (systems other than Unix, or the setting rsync_dir_force_moves, which has no command line option) and without trust anchors. The recorded current revision is not the one to be made (see C70_retry for that case) and is not recorded as an old one too. C72_iff: the other direction is C70."},
 {"property": "C73", "status": "proved", "theorems": ["C73_meaning", "C73_refused", "C73_unknown", "C73_order", "C73_swallowed", "C73_started"], "note": "The argument parser (clap 2, structopt 0.3) is modelled from its documentation, its source is not at hand. Spellings that the documentation does not settle (--flag=value, three dashes, an option with a value directly followed by another option) have the outcome Odd, and nothing is claimed about them. 256 times -v counts as none (the counter is a u8)."},
 {"property": "C74", "status": "proved", "theorems": ["C74_not_read", "C74_snapshot_read", "C74_delta_refuted", "C74_snapshot_refuted"], "note": "The README's sentence 'if a file cannot be retrieved or parsed then the run will fail' is refuted for deltas, and for snapshots with --rsync-disable (both without trust anchors); what is true instead is proved. With trust anchors the validator reads snapshots and deltas (C32, C49)."},
 {"property": "C75", "status": "proved", "theorems": ["C75_record", "C75_verified", "C75_not_repaired", "C75_failure", "C75_notification_refuted", "C75_delta_refuted", "C75_state_refuted"], "note": "Losses are losses of the ends of files (possibly the whole content); names, directories and links are as they were. That a completed run survives a power failure right after it is refuted in three ways by computed runs."},
 {"property": "C76", "status": "proved", "theorems": ["C76_zero", "C76_failed", "C76_busy", "C76_crash", "C76_unpublished_refuted"], "note": "From the command line to the exit status. Command lines that are refused exit before any of this (C73). Status 1 meaning that nothing was published is refuted by a computed run in which the state file could not be written."},
 {"property": "C77", "status": "proved", "theorems": ["C77_requests", "C77_exactly"], "note": "Requests are those in the trace of the run, where the command line says that the source is (C41), none when it is a local directory."},
 {"property": "C78", "status": "proved", "theorems": ["C78_shows", "C78_agree", "C78_elsewhere", "C78_raised_refuted"], "note": "For C78_elsewhere the hypotheses of C62 on the second server. That the limit must stay the same is shown by a computed pair of runs (C78_raised_refuted)."},
 {"property": "C79", "status": "proved", "theorems": ["C79_other_name", "C79_old_name", "C79_other_base", "C79_with_anchors"], "note": "C79_other_name and C79_old_name: the source is fetched over HTTPS, not read from a local directory, and no trust anchors are configured. C79_with_anchors: the case with trust anchors, if the staging directory has no file of the new name and the source lists none."},
 {"property": "C80", "status": "proved", "theorems": ["C80_left_alone", "C80_not_before", "C80_next_version"], "note": "The old and the new directory are apart."},
 {"property": "C81", "status": "proved", "theorems": ["C81_leftovers", "C81_starts_over"], "note": "C81_starts_over assumes, as C03 does, a source that does not answer 304 to a request without ETag and lists no URI with two hashes, and no symbolic links in the staging directory."},
 {"property": "C82", "status": "proved", "theorems": ["C82_unrecorded", "C82_record_gone", "C82_moves_stuck"], "note": ""},
 {"property": "C83", "status": "proved", "theorems": ["C83_taken", "C83_for_good"], "note": ""},
 {"property": "C84", "status": "proved", "theorems": ["C84_others", "C84_next_version", "C84_mixed_refuted"], "note": "C84_mixed_refuted exhibits a run that is killed while it writes the objects without host names, and a completed one with them after it."},
 {"property": "C85", "status": "proved", "theorems": ["C85_waits", "C85_rsync_on"], "note": ""},
 {"property": "C86", "status": "proved", "theorems": ["C86_stays", "C86_listed", "C86_new", "C85_waits"], "note": ""},
 {"property": "C87", "status": "proved", "theorems": ["C87_accepted", "C87_relay", "C87_again"], "note": ""},
 {"property": "C88", "status": "proved", "theorems": ["C88_rsync_tree", "C88_leftovers", "C85_waits"], "note": ""}
]}
