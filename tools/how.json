{
 "C01": "invariant over histories of a source whose versions are published one after the other; every instant",
 "C02": "phases of a run: the notification path at every instant",
 "C03": "weakest precondition of staging and moving; computed witness for the 304 case",
 "C04": "frame: phases before publishing touch only staging; errors after it are a fixed set",
 "C05": "evaluation of a run that ends before staging",
 "C06": "invariant over sequences of completed runs; evaluation",
 "C07": "phases of a completed run",
 "C08": "delta lists as intervals; invariant over histories",
 "C09": "as C08",
 "C10": "as C08",
 "C11": "as C08, and the records made",
 "C12": "fate of a path through the phases of a run",
 "C13": "characterisation of cleaning in a completed run; induction over the climb",
 "C14": "induction over the records and the climb",
 "C15": "fate of a path; computed witness",
 "C16": "phases, round trip and prefix rejection; computed witness",
 "C17": "JSON print/parse round trip, no prefix accepted",
 "C18": "induction over snapshot elements, phases",
 "C19": "intermediate trees of the rsync step at every instant",
 "C20": "as C19; invariant over later runs; computed witness",
 "C21": "as C18",
 "C22": "as C18; computed witness",
 "C23": "injectivity of texts",
 "C24": "string lemmas",
 "C25": "as C18",
 "C26": "invariant: which paths every program touches, from any tree of a history",
 "C27": "string lemmas",
 "C28": "case analysis over all outcomes",
 "C29": "weakest preconditions along staging, pre-validation and publishing; computed witness",
 "C30": "induction over the scripts",
 "C31": "trace invariant of validation",
 "C32": "induction over deltas against a fold",
 "C33": "induction over the report",
 "C34": "induction over manifest entries",
 "C35": "characterisation of each reported certificate; computed witness",
 "C36": "induction over the fuel; a tree that refers to itself, for every stack",
 "C37": "invariant over lookups; computed witness",
 "C38": "case analysis",
 "C39": "case analysis",
 "C40": "string lemmas",
 "C41": "trace invariant of a run",
 "C42": "invariant over all interleavings of a transition system",
 "C43": "case analysis",
 "C44": "trace invariant of a run in a history; computed witness",
 "C45": "trace invariant of a run, invariant of the stored validator over histories; computed witness",
 "C46": "the trace of a run in two parts; computed witness",
 "C47": "accounting of every path through a run, induction over runs; computed witness",
 "C48": "weakest preconditions over the whole run; computed witness",
 "C49": "case analysis of lookups; computed witness",
 "C50": "invariant over lookups; computed witness",
 "C51": "induction over the tree",
 "C52": "total correctness of every step, along the history invariants",
 "C53": "case analysis of lookups",
 "C54": "case analysis of the treatment of options",
 "C55": "case analysis of lookups",
 "C56": "weakest preconditions of a lookup; induction over the tree",
 "C57": "invariant over the walk of the tree",
 "C58": "absence of panics part by part; evaluation",
 "C59": "PropsOrder.v. From the phases of a run: a notification other than the one served before occurs only in the phases after the rsync step, which has then turned 'current' and saved its record. The history theorem is an induction over runs with the versions of the source numbered.",
 "C60": "PropsOrder.v. From the phases of a run: only the rsync step touches the rsync directory and record.",
 "C61": "PropsOrder.v. From C21 and C60 by cases on the name of the directory, then induction over completed runs; the refutation is an executed kill and a later completed run.",
 "C62": "PropsClient.v. The invariant of C01 extended by a set of promised files: each is published, was listed by a version of the source, and any record of it as dropped carries a time at or after the start of the period. The instants of a run are put in order (before and after the new notification) to cover reading during a run.",
 "C63": "PropsRecord.v. The text being saved is a prefix of the new record (the write model), and a proper prefix of a record is rejected by the parser (CodecProofs.v). With an unreadable record the phases after the recovery of the record are excluded, so every instant is one of the front phases.",
 "C64": "PropsRecord.v. Invariant over the later runs: the directory is as at the start, and any record of the version as retired carries a time at or after the start; the clean-up time of each run is before that. For a client that starts during a run, TurnOrder.v splits the run at the turning of the link: before it the link is untouched, after it nothing touches the tree of a version whose record is not expired.",
 "C65": "relational proof: the two programs side by side, stage by stage (`both`), and no program looks at its own trace (`Blind.v`)",
 "C66": "an invariant of all instants of all runs (`Way.v`): what krill-sync makes is a file only where it will want a file and a directory only where it will want one; then C52",
 "C67": "Induction over histories: everything a served notification says about its files is said by some version of the source (new_state_inv, which C01 rests on) and the deltas have no gaps (C08). A client that has read it can still fetch what it lists (C62). Then induction on the serials.",
 "C68": "At every instant of every run the directories of revisions hold only files at places of objects of that very revision and the directories above them (tidy, an invariant of all operations of a run, kept together with 'nothing is in the way' of C66). A completed run writes all objects with their times (rsync_completed), so the tree is determined by the snapshot; two trees determined by the same snapshot are equal.",
 "C69": "From the accounting of C47 and C61, which hold along completed runs, what C13 and C21 say about the records a run keeps, and that the notification of a completed run lists exactly the recorded files (C06_shows). The refutation is a run of the example long after the last change, with C06_not_newer.",
 "C70": "From the phases of a run: publishing the objects only adds entries (a new part of the invariant of the publication step), so what is in the way of the first rename stays there and op_rename onto a directory with entries fails; hence no run gets past the rsync step. The refutation evaluates the killed run and its retry, and then uses C70_for_good for all later runs.",
 "C71": "C71_left instantiates the frame argument of C26 with the set of owned paths without the one in question: staging writes only the notification copy and files the source names, moving takes only those. C71_completed follows the staged names through staging (the state after it differs only at them) and moving (each of them is gone, and moving adds nothing in the staging directory), then shows that the steps after it stay outside.",
 "C72": "The invariant of C66 with other places (`WayGen.v` has the runs for any way of switching): an object of any version may be in each of the directories that are renamed, so renaming one to another keeps files in places of files and directories in places of directories. Then C52, whose condition on the switch is the negation of C70's `blocked`; the converse is C70_blocked.",
 "C73": "A grammar of command lines (`reads`) and a record of what options mean (`means`), both without reference to the parser of `Cli.v`; the parser, a state machine, accepts exactly the grammar (induction over the arguments for each state it can be in), and the conversion of the values agrees with `means` (decimal numbers by induction over the digits).",
 "C74": "Two runs in worlds that differ only in how data files are read are equal, by a traversal of every function of the run; that the snapshot was read comes from the account of the phases of a run (`seen_files`). The README's claim is refuted by computed runs.",
 "C75": "A history `battered` that adds losses to the steps of `mirror`; the invariant that the state file is missing or a beginning of a saved state survives a loss, and no proper beginning of a saved state can be read (`state_prefix`), so every run starts as in a `mirror`; the rest is from the account of the phases of a run. The failures are computed runs on trees with one emptied file.",
 "C76": "`main` is `configure` and then `try_main`. `Later.v` shows for each function that what a run does after some calls is what it does at the start with the later answers, so the theorems about `process` apply after the lock was taken; a failed write of the state file leaves a proper beginning of a saved state, which cannot be read.",
 "C77": "The requests in the trace, in order. Each function's requests are computed from its result (`retrieve_reqs`, `entries`, `deltas_reqs`, `update_reqs`); staging one file does not change whether another is there.",
 "C78": "Invariant of histories: the recorded state is exactly a version of the source under the limit. A run keeps what is recorded from the first listed serial on and adds what is newer; with intervals of serials that end at the version's serial, nothing is missing (`exact_step`).",
 "C79": "The two runs side by side: the programs that send no request are the same in both worlds (`dry`), requests get the same answers (`sim`). For another directory: the first thing staged is the snapshot, whose URI is not below the recorded base. With anchors: nothing that is staged has the new name, the recorded check does not fit the new URI, and the new one has no notification to read.",
 "C80": "`own_tree` says nothing of the rsync directory, so the phases of a run (`phase`, RunMaster.v) are known for the changed configuration too; induction over the runs with the frame of each (`phase_frame`), which is apart from the old directory. The other two from `rsync_instant` and `rsync_result` for the changed configuration.",
 "C81": "Invariant over the runs: the record knows only files that a notification of the source has listed (`drawn`, PropsRecover.v). So no step of a run moves to, cleans or writes the path: by the phases of a run (`phase`, RunMaster.v). The other one from `ok_run` with the first state: no delta is kept, all are staged, and nothing is recorded as unused.",
 "C82": "Invariant over the runs: the record does not name the revision (`record_instant`, PropsRecord.v, gives what the record can be at each instant). What a run does in the rsync directory (`rsync_instant`) is then only in other directories. The last one from `blocked` (PropsBlocked.v): without a record the run renames the new tree onto 'current', which is not empty.",
 "C83": "In the model, as on POSIX systems, a link cannot be renamed onto a directory. So no run gets past that step (`no_link`), and what comes before it changes only the RRDP files, the staging directory and directories of revisions (`rsync_instant`, `front_phase`). Then induction over the runs.",
 "C84": "`same_places` does not fix the option, so a mirror of the old setting is one of the new. `C84_next_version` is then `C18_rsync_tree` with the place of an object written out. `C84_others` by what a run does in the rsync directory (`rsync_instant`): it writes in the directory of the version it publishes and removes old ones.",
 "C85": "`C85_waits` by induction over the runs with `C06_not_newer`: what is recorded depends only on the state file, not on the options. `C85_rsync_on` from `C18_rsync_tree`: without a record and without directories every version is new.",
 "C86": "`C86_stays` by induction over the runs: the state always has the session and a delta at least as new (`past`), so that nothing that is staged goes to the place of the damaged file (`damage_entry`), and the other steps leave it or remove it. `C86_listed` from `ok_run`: the recorded delta is kept, and the notification is made of the record. `C86_new` from `ok_run` and `arrives`. The last sentence is `C85_waits`, whose tree is any.",
 "C87": "From `C78_shows` for both mirrors: what the first shows is a suffix of a version's deltas, so the sequence is orderly again (`relay_orderly`; with a limit, a delta that the older of two shown versions leaves out is too old for the newer one), and limiting twice is limiting once to the smaller number (`tighter_use`).",
 "C88": "The tree that a completed run serves is built from the snapshot alone (`rsync_result`), for any tree with a good RRDP state file (`damaged_sane`); that nothing is repaired before is `C85_waits`."
}
