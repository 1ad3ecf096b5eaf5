(** * src/rrdp.rs *)
From Verif Require Export Codec.

(** rrdp.rs:599-615 *)
Definition notif_source_build (u : https) : M notif_source :=
  parent ← of_option EParent (https_parent u);
  match strip_prefix parent u with
  | Some name => mret (mkNS u name None)
  | None => panic                        (* unwrap *)
  end.
(** rrdp.rs:628-630 *)
Definition tmp_name (s : notif_source) : string := ns_name s +:+ ".tmp".
(** rrdp.rs:617-622 *)
Definition notif_source_fetch (s : notif_source) (f : fetcher)
  : M (option (notification * option string)) :=
  r ← read_notification_file f (ns_etag s);
  match r with
  | NData n etag => mret (Some (n, etag))
  | NUnmodified => mret None
  end.

(** rrdp.rs:648-657 *)
Definition mappings_build (c : config) : M mappings :=
  base ← of_option EParent (https_parent (c_notif_uri c));
  mret (mkMap base (c_rrdp_dir c)).
(** rrdp.rs:661-666 *)
Definition mp_relative (m : mappings) (u : https) : M string :=
  of_option ENotRelative (strip_prefix (mp_base m) u).
(** rrdp.rs:669-673 *)
Definition mp_uri (m : mappings) (rel : string) : M https :=
  x ← getext; of_option EJoin (https_join x (mp_base m) rel).
(** rrdp.rs:676-678 *)
Definition mp_path (m : mappings) (rel : string) : path := path_join (mp_dir m) rel.

(** rrdp.rs:48-62 *)
Definition create (c : config) : M rrdp_state :=
  ns ← notif_source_build (c_notif_uri c);
  m ← mappings_build c;
  mret (mkState ns m None [] [] None).

(** rrdp.rs:66-88 *)
Definition recover (p : path) : M rrdp_state :=
  b ← read_file p;
  of_option EParseState (state_parse b).

(** rrdp.rs:486-505, with SnapshotState::create 703-713 *)
Definition snapshot_stage (st : rrdp_state) (n : notification) (f : fetcher) (c : config)
  : M snap_state :=
  rel ← mp_relative (st_map st) (n_snap_uri n);
  retrieve_file f (n_snap_uri n) (n_snap_hash n) (staging_path c rel) ;;
  rel' ← mp_relative (st_map st) (n_snap_uri n);
  now ← time_now;
  mret (mkSnap (n_session n) (n_serial n) (n_snap_hash n) rel' now).

(** rrdp.rs:536-541 *)
Definition delta_is_new (st : rrdp_state) (reset : bool) (serial : N) : bool :=
  reset || match st_deltas st with
           | [] => true
           | highest :: _ => (ds_serial highest <? serial)%N
           end.
(** rrdp.rs:518-559, with DeltaState::create 744-753 *)
Fixpoint deltas_stage (st : rrdp_state) (reset : bool) (f : fetcher) (c : config)
    (l : list delta_info) : M (list delta_state) :=
  match l with
  | [] => mret []
  | d :: l' =>
      if delta_is_new st reset (di_serial d) then
        rel ← mp_relative (st_map st) (di_uri d);
        retrieve_file f (di_uri d) (di_hash d) (staging_path c rel) ;;
        rel' ← mp_relative (st_map st) (di_uri d);
        now ← time_now;
        r ← deltas_stage st reset f c l';
        mret (mkDelta now (di_serial d) (di_hash d) rel' :: r)
      else deltas_stage st reset f c l'
  end.

(** rrdp.rs:112-141: compare with what we have *)
Inductive verdict := VUpdate (reset : bool) | VSame | VBehind.
Definition compare_version (st : rrdp_state) (n : notification) : verdict :=
  match st_snap st with
  | None => VUpdate false
  | Some s =>
      if negb (bool_decide (ss_session s = n_session n)) then VUpdate true
      else match (ss_serial s ?= n_serial n)%N with
           | Lt => VUpdate false
           | Eq => VSame
           | Gt => VBehind
           end
  end.

(** rrdp.rs:164-168 *)
Definition cutoff_of (n : notification) : N :=
  match n_deltas n with [] => n_serial n | d :: _ => di_serial d end.

(** rrdp.rs:96-183 *)
Definition update_staged (st : rrdp_state) (c : config) : M (option staged_changes) :=
  let f := config_fetcher c in
  r ← notif_source_fetch (st_source st) f;
  match r with
  | None => mret None
  | Some (n0, etag) =>
      x ← getext;
      match sort_and_verify x (c_max_deltas c) n0 with
      | None => panic
      | Some (n, fine) =>
          if negb fine then fail EGap
          else
            match compare_version st n with
            | VSame => mret None
            | VBehind => fail ESerialBehind
            | VUpdate reset =>
                write_buf (staging_path c (ns_name (st_source st))) (x_write_notif x n) ;;
                snap ← snapshot_stage st n f c;
                deltas ← deltas_stage st reset f c (n_deltas n);
                mret (Some (mkStaged etag snap deltas (cutoff_of n) reset))
            end
      end
  end.

(** rrdp.rs:297-316 *)
Fixpoint read_tals (l : list path) : M (list tal) :=
  match l with
  | [] => mret []
  | p :: l' =>
      b ← read_file p;
      t ← tal_parse (path_str p) b None;
      r ← read_tals l';
      mret (t :: r)
  end.
Definition create_validator (c : config) : M validator :=
  tals ← read_tals (c_tal_files c);
  base ← of_option EParent (https_parent (c_notif_uri c));
  mret (validator_new tals
    [mkFetcher (c_notif_uri c) (Some (mkFM base (SFile (staging_dir c)))) Insecure]).

(** rrdp.rs:319-324 *)
Definition new_validator_needed (st : rrdp_state) (v : validator) : bool :=
  match st_validator st with
  | Some existing => negb (equivalent existing v)
  | None => true
  end.

Definition set_validator (st : rrdp_state) (v : option validator) : rrdp_state :=
  mkState (st_source st) (st_map st) (st_snap st) (st_deltas st) (st_deprecated st) v.

(** rrdp.rs:268-286 *)
Definition reconfigure_validator (st : rrdp_state) (c : config) : M rrdp_state :=
  st1 ← (if is_empty (c_tal_files c) then mret (set_validator st None)
         else
           v ← create_validator c;
           mret (if new_validator_needed st v then set_validator st (Some v) else st));
  match st_validator st1 with
  | Some v => v' ← initialise_staging_data v (c_notif_uri c); mret (set_validator st1 (Some v'))
  | None => mret st1
  end.

(** rrdp.rs:188-248 *)
Definition pre_validate (st : rrdp_state) (c : config) : M rrdp_state :=
  st1 ← reconfigure_validator st c;
  match st_validator st1 with
  | None => mret st1
  | Some v =>
      '(v', report) ← validate v (c_offline c);
      let st2 := set_validator st1 (Some v') in
      match rp_repos report !! c_notif_uri c with
      | Some rr =>
          if is_empty (rr_issues rr) then mret st2
          else if c_reject c then fail EInvalid else mret st2
      | None => if c_reject c then fail ENotSeen else mret st2
      end
  end.

(** rrdp.rs:793-799 *)
Definition deprecate_now (p : path) : M deprecated := now ← time_now; mret (mkDep now p).
Fixpoint deprecate_all (l : list path) : M (list deprecated) :=
  match l with
  | [] => mret []
  | p :: l' => d ← deprecate_now p; r ← deprecate_all l'; mret (d :: r)
  end.

(** rrdp.rs:507-511 *)
Definition snapshot_path (st : rrdp_state) : option path :=
  (fun s => mp_path (st_map st) (ss_rel s)) <$> st_snap st.

(** [Iterator::position] + [drain(idx..)]: kept and drained part *)
Fixpoint split_before (cutoff : N) (l : list delta_state) : list delta_state * list delta_state :=
  match l with
  | [] => ([], [])
  | d :: l' =>
      if (ds_serial d <? cutoff)%N then ([], l)
      else let '(k, r) := split_before cutoff l' in (d :: k, r)
  end.
Definition set_deltas (st : rrdp_state) (ds : list delta_state) (dp : list deprecated) : rrdp_state :=
  mkState (st_source st) (st_map st) (st_snap st) ds dp (st_validator st).

(** rrdp.rs:567-577 *)
Definition deltas_deprecate_before (st : rrdp_state) (cutoff : N) : M rrdp_state :=
  let '(keep, gone) := split_before cutoff (st_deltas st) in
  deps ← deprecate_all ((fun d => mp_path (st_map st) (ds_rel d)) <$> gone);
  mret (set_deltas st keep (st_deprecated st ++ deps)).

(** rrdp.rs:580-587 *)
Definition deltas_deprecate_all (st : rrdp_state) : M rrdp_state :=
  deps ← deprecate_all ((fun d => mp_path (st_map st) (ds_rel d)) <$> st_deltas st);
  mret (set_deltas st [] (st_deprecated st ++ deps)).

(** rrdp.rs:380-402 *)
Definition clean (st : rrdp_state) (c : config) : M rrdp_state :=
  clean_before ← seconds_ago (c_cleanup_after c);
  for_each (filter (fun d => (dp_since d <= clean_before)%Z) (st_deprecated st))
    (fun d =>
       ex ← f_exists (dp_path d);
       when_ ex (remove_file_and_empty_parent_dirs (dp_path d))) ;;
  mret (set_deltas st (st_deltas st)
          (filter (fun d => (clean_before < dp_since d)%Z) (st_deprecated st))).

(** rrdp.rs:353-370: the in-memory part of applying staged changes *)
Definition deprecate_snapshot (st : rrdp_state) : M rrdp_state :=
  match snapshot_path st with
  | Some p => d ← deprecate_now p; mret (set_deltas st (st_deltas st) (st_deprecated st ++ [d]))
  | None => mret st
  end.
Definition set_snap (st : rrdp_state) (s : snap_state) : rrdp_state :=
  mkState (st_source st) (st_map st) (Some s) (st_deltas st) (st_deprecated st) (st_validator st).
Definition merge_deltas (st : rrdp_state) (new : list delta_state) : rrdp_state :=
  set_deltas st (reverse (sort_by_key ds_serial (st_deltas st ++ new))) (st_deprecated st).

(** rrdp.rs:333-377 *)
Definition apply_staged_changed (st : rrdp_state) (sg : staged_changes) (c : config)
  : M rrdp_state :=
  move_file (staging_dir c) (c_rrdp_dir c) (ss_rel (sg_snap sg)) ;;
  for_each (sg_deltas sg) (fun d => move_file (staging_dir c) (c_rrdp_dir c) (ds_rel d)) ;;
  st1 ← deprecate_snapshot st;
  let st2 := set_snap st1 (sg_snap sg) in
  st3 ← (if sg_reset sg then deltas_deprecate_all st2
         else deltas_deprecate_before st2 (sg_cutoff sg));
  clean (merge_deltas st3 (sg_deltas sg)) c.

(** rrdp.rs:405-411 *)
Definition persist (st : rrdp_state) (p : path) : M unit := write_buf p (state_text st).

(** rrdp.rs:467-474 *)
Fixpoint delta_infos (m : mappings) (l : list delta_state) : M (list delta_info) :=
  match l with
  | [] => mret []
  | d :: l' =>
      u ← mp_uri m (ds_rel d);
      r ← delta_infos m l';
      mret (mkDI (ds_serial d) u (ds_hash d) :: r)
  end.
(** rrdp.rs:456-482 *)
Definition make_notification_file (st : rrdp_state) : M notification :=
  s ← of_option ENoSnapshot (st_snap st);
  u ← mp_uri (st_map st) (ss_rel s);
  ds ← delta_infos (st_map st) (st_deltas st);
  mret (mkNotif (ss_session s) (ss_serial s) u (ss_hash s) ds).

(** rrdp.rs:416-454 *)
Definition write_notification (st : rrdp_state) (delay : N) : M unit :=
  when_ (0 <? delay)%N (sleep delay) ;;
  let path_final := mp_path (st_map st) (ns_name (st_source st)) in
  let path_tmp := mp_path (st_map st) (tmp_name (st_source st)) in
  n ← make_notification_file st;
  x ← getext;
  write_buf path_tmp (x_write_notif x n) ;;
  f_rename path_tmp path_final.
