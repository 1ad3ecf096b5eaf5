"""Writes MANIFEST.json."""
import json, os
M=[]
def m(prop, status, theorems, note=""):
    M.append({"property":prop,"status":status,"theorems":theorems.split(),"note":note})
R="The property is violated by the code: the theorem exhibits a concrete run that breaks it. "
m("C23","proved","C23_revision_dirs_distinct")
m("C24","proved","C24_include_host")
m("C27","proved","C27_uri_path_correspondence")
m("C31","proved","C31_offline")
m("C32","proved","C32_lookup")
m("C33","proved","C33_totals C33_totals_built")
m("C34","proved","C34_entries")
m("C35","proved","C35_not_revoked C35_routers_refuted","C35_routers_refuted exhibits a revoked router certificate that is reported as valid.")
m("C36","proved","C36_only_long_chains C36_refuted","C36_refuted exhibits a tree on which validation overflows any stack.")
m("C37","proved","C37_not_again C37_run C37_refuted","C37_refuted exhibits a repository that is contacted twice.")
m("C38","proved","C38_trust_anchor C38_location")
m("C40","proved","C40_dirs_follow_state_dir")
m("C43","proved","C43_verbosity")
m("C45","proved","C45_all_requests C45_strictness C45_refuted","C45_refuted exhibits a strict configuration whose validator sends lenient requests.")
m("C49","proved","C49_not_older C49_refuted","C49_refuted exhibits a lookup that succeeds with data of another serial than the announced one.")
m("C50","proved","C50_after_failure C50_without_data C50_refuted","C50_refuted exhibits a lookup that fails and then succeeds with the old data.")
m("C51","proved","C51_complete_tree")
m("C17","proved","C17_rrdp_state C17_rsync_state C17_saved")
m("C28","proved","C28_decision")
m("C30","proved","C30_all_run C30_cannot_start")
m("C39","proved","C39_reuse")
m("C01","proved","C01_never_dangles C01_settled C01_copied_refuted","The condition on copies is an explicit hypothesis of the histories (fo_run); C01_settled says when it holds, C01_copied_refuted that it is needed.")
m("C02","proved","C02_atomic")
m("C03","proved","C03_verified C03_copied C03_completed C03_304_refuted","The 304 exception is an explicit hypothesis; C03_304_refuted shows that it is needed.")
m("C07","proved","C07_version")
m("C12","proved","C12_kept C12_recorded C12_remembered")
m("C13","proved","C13_forgotten C13_no_empty_directory")
m("C14","proved","C14_only_expired")
m("C26","proved","C26_frame C26_parents")
m("C04","proved","C04_not_prepared C04_refused C04_bad_state")
m("C05","proved","C05_unmodified C05_same_version")
m("C06","proved","C06_shows C06_history C06_behind C06_not_newer")
m("C08","proved","C08_unbroken C08_history")
m("C09","proved","C09_limit","Proved for sources whose delta lists end at their own serial.")
m("C10","proved","C10_suffix")
m("C11","proved","C11_new_session")
m("C15","proved","C15_served C15_refuted","C15_refuted exhibits the run that deletes a served file; C15_served says when it does not happen.")
m("C16","proved","C16_kill C16_history C16_refuted","C16_refuted exhibits the kill after which no run works any more.")
m("C20","proved","C20_instants C20_stuck C20_refuted","C20_refuted exhibits the instant without 'current'.")
m("C22","proved","C22_link C22_refuted","C22_refuted exhibits a history in which the served tree is removed.")
m("C29","proved","C29_examined C29_refuted","C29_refuted exhibits a run that publishes what the same run rejects an hour later.")
m("C46","proved","C46_order C46_refuted","C46_refuted exhibits a file that is deleted too early.")
m("C47","proved","C47_accounted C47_history C47_refuted","C47_refuted exhibits the kill after which files are forgotten.")
m("C48","proved","C48_old_directory C48_refuted","C48_refuted exhibits a run after which the notification in the old directory lists a missing file.")
m("C41","proved","C41_requests C41_refused","Runs without trust anchors; C45_strictness covers the others.")
m("C44","proved","C44_unconditional C44_refuted","C44_unconditional is for runs without trust anchors, C45_all_requests covers the others. C44_refuted exhibits a source that sends an ETag that the next run does not use.")
m("C18","proved","C18_rsync_tree C18_after_retry","For revisions that are not recorded yet; C18_rsync_tree if there is no directory for them either.")
m("C19","proved","C19_instants C19_switch")
m("C21","proved","C21_old_trees C21_moved_aside")
m("C25","proved","C25_times C25_stamped C25_servers_agree","The time is missing if setting it failed; the code ignores that error.")
m("C42","proved","C42_exclusive C42_sequential C42_waiting C42_refused C42_try_main")
m("C52","proved","C52_completes C52_with_anchors","C52_completes: without trust anchors, no exceptions. C52_with_anchors: with or without, and the exceptions.")
m("C53","proved","C53_refresh")
m("C54","proved","C54_options C54_starts")
m("C55","proved","C55_recent")
m("C56","proved","C56_origin C56_requests")
m("C57","proved","C57_requests")
m("C58","proved","C58_panic_only C58_zero_limit","Panics in the formatting of log messages (a recorded time outside the calendar) and of arithmetic overflow checks in debug builds are not modelled.")
m("C59","proved","C59_rsync_first C59_link_first C59_never_behind","C59_rsync_first holds in both modes for revisions that are not recorded yet; C59_link_first for the symbolic link without that condition.  C59_never_behind is about histories with kills.  The example C59_ahead_applies is a killed run that leaves rsync ahead of RRDP.")
m("C60","proved","C60_rsync_off","")
m("C61","proved","C61_accounted C61_history C61_leftover C61_killed_refuted","C61_killed_refuted: after a kill the accounting is lost; C61_leftover: such a directory stays.")
m("C62","proved","C62_fetchable","The notification document determines the notification (injectivity of the XML writer) is a hypothesis.  Without stable URIs see C15, for copies instead of renames C01_copied_refuted, for the time counted from before the delay C46.")
m("C63","proved","C63_kill C63_stuck C63_stuck_for_good C63_refuted","C63_refuted exhibits the kill: the property states what the code does, not what one would wish.")
m("C64","proved","C64_tree_kept","The client may follow the link between two runs or at any instant of a run; that the new tree is complete when the link names it is C19.")
m("C65","proved","C65_same_run C65_local_copy","Same environment for both runs; what is fetched must be the same during the whole run; a local directory is apart from the staging directory and free of symbolic links.")

m("C66","proved","C66_recovers C66_with_anchors","C66_recovers: without trust anchors. C66_with_anchors: with them, a run may also be refused for what it found. In symlink mode (the default on Unix); the snapshot's name must be new, as in C52. Others may change what krill-sync does not own but put no file where it needs a directory.")

m("C67","proved","C67_catches_up","The client applies deltas as in RFC 8182, by a relation of its own (changes) that does not use the code's validator. Hypotheses on source and runs as in C62, and delta lists that end at the notification's serial as in C08.")
m("C68","proved","C68_tree C68_servers_agree","The source does not change the objects of a revision, and its files fit into one tree (as in C66). The machines start with no directories of revisions and nothing in the way; others leave alone what krill-sync owns. Symbolic links only (the default on Unix).")
m("C69","proved","C69_rrdp C69_rsync C69_idle_refuted","C69_idle_refuted: after a run that finds nothing new a file dropped longer ago than the cleanup time is still there.")
m("C70","proved","C70_blocked C70_for_good C70_retry C70_refuted","C70_refuted: with directory moves a run that would have succeeded, killed between the two records, is followed by a failing run, after which no run with rsync replaces the notification.")
m("C71","proved","C71_left C71_for_good C71_completed C71_refuted","C71_refuted: a run that fails on a delta leaves the snapshot it had staged; the next run publishes another session, completes, and the file is still there and stays.")
m("C72","proved","C72_recovers C72_iff","As C66, with directory moves (systems other than Unix, or the setting rsync_dir_force_moves, which has no command line option) and without trust anchors. The recorded current revision is not the one to be made (see C70_retry for that case) and is not recorded as an old one too. C72_iff: the other direction is C70.")
m("C73","proved","C73_meaning C73_refused C73_unknown C73_order C73_swallowed C73_started","The argument parser (clap 2, structopt 0.3) is modelled from its documentation, its source is not at hand. Spellings that the documentation does not settle (--flag=value, three dashes, an option with a value directly followed by another option) have the outcome Odd, and nothing is claimed about them. 256 times -v counts as none (the counter is a u8).")
m("C74","proved","C74_not_read C74_snapshot_read C74_delta_refuted C74_snapshot_refuted","The README's sentence 'if a file cannot be retrieved or parsed then the run will fail' is refuted for deltas, and for snapshots with --rsync-disable (both without trust anchors); what is true instead is proved. With trust anchors the validator reads snapshots and deltas (C32, C49).")
m("C75","proved","C75_record C75_verified C75_not_repaired C75_failure C75_notification_refuted C75_delta_refuted C75_state_refuted","Losses are losses of the ends of files (possibly the whole content); names, directories and links are as they were. That a completed run survives a power failure right after it is refuted in three ways by computed runs.")
m("C76","proved","C76_zero C76_failed C76_busy C76_crash C76_unpublished_refuted","From the command line to the exit status. Command lines that are refused exit before any of this (C73). Status 1 meaning that nothing was published is refuted by a computed run in which the state file could not be written.")
m("C77","proved","C77_requests C77_exactly","Requests are those in the trace of the run, where the command line says that the source is (C41), none when it is a local directory.")
m("C78","proved","C78_shows C78_agree C78_elsewhere C78_raised_refuted","For C78_elsewhere the hypotheses of C62 on the second server. That the limit must stay the same is shown by a computed pair of runs (C78_raised_refuted).")
m("C79","proved","C79_other_name C79_old_name C79_other_base C79_with_anchors","C79_other_name and C79_old_name: the source is fetched over HTTPS, not read from a local directory, and no trust anchors are configured. C79_with_anchors: the case with trust anchors, if the staging directory has no file of the new name and the source lists none.")
m("C80","proved","C80_left_alone C80_not_before C80_next_version","The old and the new directory are apart.")
m("C81","proved","C81_leftovers C81_starts_over","C81_starts_over assumes, as C03 does, a source that does not answer 304 to a request without ETag and lists no URI with two hashes, and no symbolic links in the staging directory.")
m("C82","proved","C82_unrecorded C82_record_gone C82_moves_stuck","")
m("C83","proved","C83_taken C83_for_good","")
m("C84","proved","C84_others C84_next_version C84_mixed_refuted","C84_mixed_refuted exhibits a run that is killed while it writes the objects without host names, and a completed one with them after it.")
m("C85","proved","C85_waits C85_rsync_on","")
m("C86","proved","C86_stays C86_listed C86_new C85_waits","")
m("C87","proved","C87_accepted C87_relay C87_again","")
m("C88","proved","C88_rsync_tree C88_leftovers C85_waits","")
M.sort(key=lambda x:x["property"])
def emit():
    with open(os.path.join(os.path.dirname(os.path.abspath(__file__)),"..","MANIFEST.json"),"w") as f:
        f.write('{"claims": [\n'+",\n".join(" "+json.dumps(x) for x in M)+"\n]}\n")
if __name__=="__main__":
    emit(); print(len(M))
