(** * The persistent state: struct definitions of src/rrdp.rs and src/rsync.rs *)
From Verif Require Export Config Validator.

(** rrdp.rs:592-596 *)
Record notif_source := mkNS { ns_uri : https; ns_name : string; ns_etag : option string }.
(** rrdp.rs:636-645 *)
Record mappings := mkMap { mp_base : https; mp_dir : path }.
(** rrdp.rs:693-700 *)
Record snap_state := mkSnap {
  ss_session : uuid; ss_serial : N; ss_hash : hash; ss_rel : string; ss_since : Z }.
(** rrdp.rs:736-741 *)
Record delta_state := mkDelta { ds_since : Z; ds_serial : N; ds_hash : hash; ds_rel : string }.
(** rrdp.rs:788-791 *)
Record deprecated := mkDep { dp_since : Z; dp_path : path }.
(** rrdp.rs:25-44 *)
Record rrdp_state := mkState {
  st_source : notif_source;
  st_map : mappings;
  st_snap : option snap_state;
  st_deltas : list delta_state;
  st_deprecated : list deprecated;
  st_validator : option validator }.
(** rrdp.rs:770-776 *)
Record staged_changes := mkStaged {
  sg_etag : option string; sg_snap : snap_state; sg_deltas : list delta_state;
  sg_cutoff : N; sg_reset : bool }.

(** rsync.rs:232-236 *)
Record revision := mkRev { rv_session : uuid; rv_serial : N }.
Global Instance revision_eq_dec : EqDecision revision.
Proof. solve_decision. Defined.
(** rsync.rs:256-259 *)
Record old_revision := mkOld { or_since : Z; or_rev : revision }.
(** rsync.rs:150-153 *)
Record rsync_state := mkRs { rs_current : option revision; rs_old : list old_revision }.
