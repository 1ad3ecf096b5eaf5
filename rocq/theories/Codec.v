(** * The state files as JSON documents

    What the serde derives on the structs produce and accept, and the texts of
    Uuid, base64 and PathBuf values.  Simplifications: times of the embedded
    validator are integers instead of RFC 3339 texts; public keys and hashes are
    written as plain strings; integers are not range checked; the first of two
    equal field names counts (serde rejects the document). *)
From Verif Require Export Json State.

(** ** Uuid text (uuid crate, hyphenated) *)
Fixpoint hex_n (k : nat) (n : N) : string :=
  match k with
  | O => ""
  | S k' => hex_n k' (n / 16) +:+ String (hex_digit (n mod 16)) ""
  end.
Definition uuid_str (u : uuid) : string :=
  let n := uuid_n u in
  hex_n 8 (n / 2 ^ 96) +:+ "-" +:+ hex_n 4 (n / 2 ^ 80 mod 2 ^ 16) +:+ "-" +:+
  hex_n 4 (n / 2 ^ 64 mod 2 ^ 16) +:+ "-" +:+ hex_n 4 (n / 2 ^ 48 mod 2 ^ 16) +:+ "-" +:+
  hex_n 12 (n mod 2 ^ 48).

(** exactly [k] hexadecimal digits *)
Fixpoint read_hex (k : nat) (acc : N) (s : string) : option (N * string) :=
  match k with
  | O => Some (acc, s)
  | S k' =>
      match s with
      | String c s' => d ← hex_val c; read_hex k' (acc * 16 + d) s'
      | EmptyString => None
      end
  end.
Definition mk_uuid (n : N) : option uuid :=
  match Sumbool.sumbool_of_bool (n <? 2 ^ 128)%N with
  | left H => Some (mkUuid n H)
  | right _ => None
  end.
Definition uuid_parse (s : string) : option uuid :=
  '(a, s) ← read_hex 8 0 s; s ← strip_prefix "-" s;
  '(b, s) ← read_hex 4 0 s; s ← strip_prefix "-" s;
  '(c, s) ← read_hex 4 0 s; s ← strip_prefix "-" s;
  '(d, s) ← read_hex 4 0 s; s ← strip_prefix "-" s;
  '(e, s) ← read_hex 12 0 s;
  match s with
  | EmptyString =>
      mk_uuid (a * 2 ^ 96 + b * 2 ^ 80 + c * 2 ^ 64 + d * 2 ^ 48 + e)%N
  | _ => None
  end.

(** ** base64 (standard alphabet, padded), base64::encode / base64::decode *)
Definition b64_char (n : N) : ascii :=
  ascii_of_N (if n <? 26 then 65 + n
              else if n <? 52 then 71 + n
              else if n <? 62 then n - 4
              else if n =? 62 then 43 else 47)%N.
Definition b64_val (c : ascii) : option N :=
  let n := N_of_ascii c in
  (if (65 <=? n) && (n <=? 90) then Some (n - 65)
   else if (97 <=? n) && (n <=? 122) then Some (n - 71)
   else if (48 <=? n) && (n <=? 57) then Some (n + 4)
   else if n =? 43 then Some 62
   else if n =? 47 then Some 63
   else None)%N.
Definition pad : ascii := "="%char.
Fixpoint b64_enc (s : string) : string :=
  match s with
  | EmptyString => ""
  | String a EmptyString =>
      let x := N_of_ascii a in
      String (b64_char (x / 4)) (String (b64_char (x mod 4 * 16)) (String pad (String pad "")))
  | String a (String b EmptyString) =>
      let x := N_of_ascii a in
      let y := N_of_ascii b in
      String (b64_char (x / 4)) (String (b64_char (x mod 4 * 16 + y / 16))
        (String (b64_char (y mod 16 * 4)) (String pad "")))
  | String a (String b (String c s')) =>
      let x := N_of_ascii a in
      let y := N_of_ascii b in
      let z := N_of_ascii c in
      String (b64_char (x / 4)) (String (b64_char (x mod 4 * 16 + y / 16))
        (String (b64_char (y mod 16 * 4 + z / 64)) (String (b64_char (z mod 64)) (b64_enc s'))))
  end.
Fixpoint b64_dec (s : string) : option string :=
  match s with
  | EmptyString => Some ""
  | String a (String b (String c (String d s'))) =>
      x ← b64_val a;
      y ← b64_val b;
      if Ascii.eqb c pad then
        if Ascii.eqb d pad && String.eqb s' "" && (y mod 16 =? 0)%N
        then Some (String (ascii_of_N (x * 4 + y / 16)) "")
        else None
      else
        z ← b64_val c;
        if Ascii.eqb d pad then
          if String.eqb s' "" && (z mod 4 =? 0)%N
          then Some (String (ascii_of_N (x * 4 + y / 16))
                       (String (ascii_of_N (y mod 16 * 16 + z / 4)) ""))
          else None
        else
          t ← b64_val d;
          r ← b64_dec s';
          Some (String (ascii_of_N (x * 4 + y / 16))
                 (String (ascii_of_N (y mod 16 * 16 + z / 4))
                   (String (ascii_of_N (z mod 4 * 64 + t)) r)))
  | _ => None
  end.

(** ** serde pieces *)
Definition j_opt {A} (f : A -> json) (o : option A) : json :=
  match o with Some a => f a | None => JNull end.
Definition j_N (n : N) : json := JNum (Z.of_N n).
Definition j_list {A} (f : A -> json) (l : list A) : json := JArr (f <$> l).
Definition j_map {A} (f : A -> json) (m : gmap string A) : json :=
  JObj ((fun kv => (kv.1, f kv.2)) <$> map_to_list m).
Definition j_path (p : path) : json := JStr (path_str p).
Definition j_uuid (u : uuid) : json := JStr (uuid_str u).

Definition as_obj (j : json) : option (list (string * json)) :=
  match j with JObj l => Some l | _ => None end.
Definition as_str (j : json) : option string := match j with JStr s => Some s | _ => None end.
Definition as_Z (j : json) : option Z := match j with JNum z => Some z | _ => None end.
Definition as_N (j : json) : option N :=
  match j with JNum z => if (z <? 0)%Z then None else Some (Z.to_N z) | _ => None end.
Definition as_opt {A} (f : json -> option A) (j : json) : option (option A) :=
  match j with JNull => Some None | _ => a ← f j; Some (Some a) end.
Definition as_list {A} (f : json -> option A) (j : json) : option (list A) :=
  match j with JArr l => mapM f l | _ => None end.
Definition as_map {A} (f : json -> option A) (j : json) : option (gmap string A) :=
  l ← as_obj j;
  kvs ← mapM (fun kv => v ← f kv.2; Some (kv.1, v)) l;
  Some (list_to_map (reverse kvs)).
Definition as_path (j : json) : option path := path_of <$> as_str j.
Definition as_uuid (j : json) : option uuid := s ← as_str j; uuid_parse s.

Fixpoint lookup_field (k : string) (l : list (string * json)) : option json :=
  match l with
  | [] => None
  | (k', v) :: l' => if String.eqb k k' then Some v else lookup_field k l'
  end.
Definition field {A} (k : string) (f : json -> option A) (l : list (string * json)) : option A :=
  v ← lookup_field k l; f v.
(** [Option] field: absent is [None] *)
Definition field_opt {A} (k : string) (f : json -> option A) (l : list (string * json))
  : option (option A) :=
  match lookup_field k l with None => Some None | Some v => as_opt f v end.

(** ** Structs *)

(** fetch.rs:62-66 *)
Definition j_mode (m : fetch_mode) : json :=
  JStr (match m with Strict => "Strict" | Insecure => "Insecure" end).
Definition as_mode (j : json) : option fetch_mode :=
  s ← as_str j;
  if String.eqb s "Strict" then Some Strict
  else if String.eqb s "Insecure" then Some Insecure else None.

(** fetch.rs:75-79 *)
Definition j_source (s : fetch_source) : json :=
  match s with
  | SFile p => JObj [("File", j_path p)]
  | SUri u m => JObj [("Uri", JArr [JStr u; j_mode m])]
  end.
Definition as_source (j : json) : option fetch_source :=
  match j with
  | JObj [(k, v)] =>
      if String.eqb k "File" then p ← as_path v; Some (SFile p)
      else if String.eqb k "Uri" then
        match v with
        | JArr [u; m] => u' ← as_str u; m' ← as_mode m; Some (SUri u' m')
        | _ => None
        end
      else None
  | _ => None
  end.

(** fetch.rs:236-240 *)
Definition j_fetch_map (m : fetch_map) : json :=
  JObj [("base_uri", JStr (fm_base m)); ("base_fetch", j_source (fm_fetch m))].
Definition as_fetch_map (j : json) : option fetch_map :=
  l ← as_obj j;
  b ← field "base_uri" as_str l;
  s ← field "base_fetch" as_source l;
  Some (mkFM b s).

(** fetch.rs:267-272 *)
Definition j_fetcher (f : fetcher) : json :=
  JObj [("notification_uri", JStr (fe_notif f)); ("fetch_map", j_opt j_fetch_map (fe_map f));
        ("mode", j_mode (fe_mode f))].
Definition as_fetcher (j : json) : option fetcher :=
  l ← as_obj j;
  u ← field "notification_uri" as_str l;
  m ← field_opt "fetch_map" as_fetch_map l;
  md ← field "mode" as_mode l;
  Some (mkFetcher u m md).

(** validation/tal.rs:25-30 *)
Definition j_tal (t : tal) : json :=
  JObj [("name", JStr (tl_name t)); ("source", j_source (tl_source t));
        ("public_key", JStr (tl_key t))].
Definition as_tal (j : json) : option tal :=
  l ← as_obj j;
  n ← field "name" as_str l;
  s ← field "source" as_source l;
  k ← field "public_key" as_str l;
  Some (mkTal n s k).

(** validation/validator.rs:834-838, 852-866 *)
Definition j_object (b : string) : json := JObj [("bytes", JStr (b64_enc b))].
Definition as_object (j : json) : option string :=
  l ← as_obj j; s ← field "bytes" as_str l; b64_dec s.

(** validation/validator.rs:815-832; [fetched] is not written and reads as false *)
Definition j_repo_data (d : repo_data) : json :=
  JObj [("etag", j_opt JStr (rd_etag d)); ("last_fetch", JNum (rd_last_fetch d));
        ("session_id", j_uuid (rd_session d)); ("serial", j_N (rd_serial d));
        ("objects", j_map j_object (rd_objects d))].
Definition as_repo_data (j : json) : option repo_data :=
  l ← as_obj j;
  e ← field_opt "etag" as_str l;
  t ← field "last_fetch" as_Z l;
  s ← field "session_id" as_uuid l;
  n ← field "serial" as_N l;
  o ← field "objects" (as_map as_object) l;
  Some (mkRD e t false s n o).

(** validation/validator.rs:465-469 *)
Definition j_visited (v : visited) : json :=
  JObj [("fetchers", j_map j_fetcher (vi_fetchers v)); ("data", j_map j_repo_data (vi_data v))].
Definition as_visited (j : json) : option visited :=
  l ← as_obj j;
  f ← field "fetchers" (as_map as_fetcher) l;
  d ← field "data" (as_map as_repo_data) l;
  Some (mkVisited f d).

(** validation/validator.rs:25-29 *)
Definition j_validator (v : validator) : json :=
  JObj [("tals", j_list j_tal (vd_tals v)); ("repositories", j_visited (vd_repos v))].
Definition as_validator (j : json) : option validator :=
  l ← as_obj j;
  t ← field "tals" (as_list as_tal) l;
  r ← field "repositories" as_visited l;
  Some (mkValidator t r).

(** rrdp.rs:591-596 *)
Definition j_notif_source (s : notif_source) : json :=
  JObj [("uri", JStr (ns_uri s)); ("name", JStr (ns_name s)); ("etag", j_opt JStr (ns_etag s))].
Definition as_notif_source (j : json) : option notif_source :=
  l ← as_obj j;
  u ← field "uri" as_str l;
  n ← field "name" as_str l;
  e ← field_opt "etag" as_str l;
  Some (mkNS u n e).

(** rrdp.rs:635-645 *)
Definition j_mappings (m : mappings) : json :=
  JObj [("base_uri", JStr (mp_base m)); ("rrdp_dir", j_path (mp_dir m))].
Definition as_mappings (j : json) : option mappings :=
  l ← as_obj j;
  b ← field "base_uri" as_str l;
  d ← field "rrdp_dir" as_path l;
  Some (mkMap b d).

(** rrdp.rs:692-700 *)
Definition j_snap (s : snap_state) : json :=
  JObj [("session_id", j_uuid (ss_session s)); ("serial", j_N (ss_serial s));
        ("hash", JStr (ss_hash s)); ("rel_path", JStr (ss_rel s)); ("since", JNum (ss_since s))].
Definition as_snap (j : json) : option snap_state :=
  l ← as_obj j;
  s ← field "session_id" as_uuid l;
  n ← field "serial" as_N l;
  h ← field "hash" as_str l;
  r ← field "rel_path" as_str l;
  t ← field "since" as_Z l;
  Some (mkSnap s n h r t).

(** rrdp.rs:735-741 *)
Definition j_delta (d : delta_state) : json :=
  JObj [("since", JNum (ds_since d)); ("serial", j_N (ds_serial d));
        ("hash", JStr (ds_hash d)); ("rel_path", JStr (ds_rel d))].
Definition as_delta (j : json) : option delta_state :=
  l ← as_obj j;
  t ← field "since" as_Z l;
  n ← field "serial" as_N l;
  h ← field "hash" as_str l;
  r ← field "rel_path" as_str l;
  Some (mkDelta t n h r).

(** rrdp.rs:787-791 *)
Definition j_dep (d : deprecated) : json :=
  JObj [("since", JNum (dp_since d)); ("path", j_path (dp_path d))].
Definition as_dep (j : json) : option deprecated :=
  l ← as_obj j;
  t ← field "since" as_Z l;
  p ← field "path" as_path l;
  Some (mkDep t p).

(** rrdp.rs:24-44; [validator] is left out when absent *)
Definition j_state (s : rrdp_state) : json :=
  JObj ([("notification_source", j_notif_source (st_source s)); ("mappings", j_mappings (st_map s));
         ("snapshot", j_opt j_snap (st_snap s)); ("deltas", j_list j_delta (st_deltas s));
         ("deprecated_files", j_list j_dep (st_deprecated s))] ++
        match st_validator s with Some v => [("validator", j_validator v)] | None => [] end).
Definition as_state (j : json) : option rrdp_state :=
  l ← as_obj j;
  ns ← field "notification_source" as_notif_source l;
  m ← field "mappings" as_mappings l;
  sn ← field_opt "snapshot" as_snap l;
  ds ← field "deltas" (as_list as_delta) l;
  dp ← field "deprecated_files" (as_list as_dep) l;
  v ← field_opt "validator" as_validator l;
  Some (mkState ns m sn ds dp v).

(** rsync.rs:230-236 *)
Definition j_rev (r : revision) : json :=
  JObj [("session_id", j_uuid (rv_session r)); ("serial", j_N (rv_serial r))].
Definition as_rev (j : json) : option revision :=
  l ← as_obj j;
  s ← field "session_id" as_uuid l;
  n ← field "serial" as_N l;
  Some (mkRev s n).

(** rsync.rs:255-259 *)
Definition j_old (o : old_revision) : json :=
  JObj [("since", JNum (or_since o)); ("revision", j_rev (or_rev o))].
Definition as_old (j : json) : option old_revision :=
  l ← as_obj j;
  t ← field "since" as_Z l;
  r ← field "revision" as_rev l;
  Some (mkOld t r).

(** rsync.rs:149-153 *)
Definition j_rsync_state (s : rsync_state) : json :=
  JObj [("current", j_opt j_rev (rs_current s)); ("old", j_list j_old (rs_old s))].
Definition as_rsync_state (j : json) : option rsync_state :=
  l ← as_obj j;
  c ← field_opt "current" as_rev l;
  o ← field "old" (as_list as_old) l;
  Some (mkRs c o).

(** ** The texts: serde_json::to_string_pretty and from_slice *)
Definition state_text (s : rrdp_state) : string := json_text (j_state s).
Definition state_parse (b : string) : option rrdp_state := j ← json_parse b; as_state j.
Definition rsync_state_text (s : rsync_state) : string := json_text (j_rsync_state s).
Definition rsync_state_parse (b : string) : option rsync_state :=
  j ← json_parse b; as_rsync_state j.
