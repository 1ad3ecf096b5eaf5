(** * src/rsync.rs *)
From Verif Require Export Rrdp.

(** rsync.rs:239-241 *)
Definition dir_name (r : revision) : string :=
  "session_" +:+ uuid_str (rv_session r) +:+ "_serial_" +:+ pretty (rv_serial r).
(** rsync.rs:243-245 *)
Definition rev_path (c : config) (r : revision) : path := path_join (c_rsync_dir c) (dir_name r).

(** rsync.rs:158-176 *)
Definition rsync_recover (c : config) : M rsync_state :=
  ex ← f_exists (rsync_state_path c);
  if (ex : bool) then
    b ← read_file (rsync_state_path c);
    of_option EParseState (rsync_state_parse b)
  else mret (mkRs None []).

(** rsync.rs:179-183 *)
Definition rsync_persist (s : rsync_state) (c : config) : M unit :=
  write_buf (rsync_state_path c) (rsync_state_text s).

(** rsync.rs:187-192, deprecate 247-252 *)
Definition update_current (s : rsync_state) (r : revision) : M rsync_state :=
  match rs_current s with
  | Some existing =>
      now ← time_now;
      mret (mkRs (Some r) (rs_old s ++ [mkOld now existing]))
  | None => mret (mkRs (Some r) (rs_old s))
  end.

(** rsync.rs:198-227 *)
Definition clean_old (s : rsync_state) (c : config) : M rsync_state :=
  clean_before ← seconds_ago (c_cleanup_after c);
  for_each (filter (fun o => (or_since o <= clean_before)%Z) (rs_old s))
    (fun o =>
       let p := rev_path c (or_rev o) in
       ex ← f_exists p;
       when_ ex (f_remove_dir_all p)) ;;
  mret (mkRs (rs_current s) (filter (fun o => (clean_before < or_since o)%Z) (rs_old s))).

(** rsync.rs:270-281 *)
Definition create_out_path_if_missing (out : path) : M unit :=
  ex ← f_exists out;
  unless_ ex (create_dir_all out).

(** rsync.rs:305-314 *)
Definition object_path (include_host : bool) (out : path) (u : rsync_uri) : path :=
  if include_host
  then path_join out (ru_auth u +:+ "/" +:+ ru_module u +:+ "/" +:+ ru_path u)
  else path_join out (ru_path u).

(** rsync.rs:343-356 *)
Definition object_time (x : ext) (p : path) (b : string) : option Z :=
  let s := path_str p in
  if ends_with ".cer" s then ct_not_before <$> x_cert x b
  else if ends_with ".crl" s then cl_this_update <$> x_crl x b
  else (fun '(signing, nb) => default nb signing) <$> x_sigobj x b.
(** rsync.rs:340-370 *)
Definition fix_since (p : path) (b : string) : M unit :=
  x ← getext;
  match object_time x p b with
  | None => mret tt
  | Some t => _ ← catch (f_set_mtime p t); mret tt
  end.

(** rsync.rs:300-334 *)
Definition publish (include_host : bool) (out : path) (u : rsync_uri) (data : option string) : M unit :=
  let p := object_path include_host out u in
  b ← of_option ESnapshotXml data;
  write_buf p b ;;
  fix_since p b.

(** rsync.rs:285-290.  [ProcessSnapshot::process] calls [publish] for each
    element as it reads it.  Simplification: the snapshot file is read in one
    go. *)
Definition for_snapshot_path (include_host : bool) (out snapshot : path) : M unit :=
  b ← read_file snapshot;
  x ← getext;
  let '(els, fine) := x_snapshot x b in
  for_each els (fun '(u, data) => publish include_host out u data) ;;
  if (fine : bool) then mret tt else fail ESnapshotXml.

(** rsync.rs:65-102; config.rs:27 TMP_FILE_EXT *)
Definition symlink_current (r : revision) (c : config) : M unit :=
  let current := rsync_current c in
  let tmp := path_with_extension current "tmp" in
  ex ← f_exists tmp;
  when_ ex (f_remove_file tmp) ;;
  f_symlink (dir_name r) tmp ;;
  f_rename tmp current.

(** rsync.rs:107-147 *)
Definition rename_new_revision (r : revision) (s : rsync_state) (c : config) : M unit :=
  let current := rsync_current c in
  (match rs_current s with
   | Some cur =>
       ex ← f_exists current;
       when_ ex (f_rename current (rev_path c cur))
   | None => mret tt
   end) ;;
  f_rename (rev_path c r) current.

(** rsync.rs:25-60 *)
Definition update_from_rrdp_state (st : rrdp_state) (c : config) : M unit :=
  match st_snap st with
  | None => mret tt
  | Some snap =>
      let snap_path := mp_path (st_map st) (ss_rel snap) in
      rs ← rsync_recover c;
      let r := mkRev (ss_session snap) (ss_serial snap) in
      let out := rev_path c r in
      create_out_path_if_missing out ;;
      for_snapshot_path (c_include_host c) out snap_path ;;
      (if use_symlinks c then symlink_current r c else rename_new_revision r rs c) ;;
      rs1 ← update_current rs r;
      rs2 ← clean_old rs1 c;
      rsync_persist rs2 c
  end.
