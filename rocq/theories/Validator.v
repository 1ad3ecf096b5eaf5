(** * src/validation/validator.rs *)
From Verif Require Export Report Tal.

(** validator.rs:816-832; objects by URI text; [rd_fetched] is not serialized *)
Record repo_data := mkRD {
  rd_etag : option string; rd_last_fetch : Z; rd_fetched : bool;
  rd_session : uuid; rd_serial : N; rd_objects : gmap string string }.

(** validator.rs:466-469 *)
Record visited := mkVisited { vi_fetchers : gmap string fetcher; vi_data : gmap string repo_data }.

(** validator.rs:26-29 *)
Record validator := mkValidator { vd_tals : list tal; vd_repos : visited }.

(** validator.rs:32-43; a later fetcher for the same URI replaces an earlier one *)
Definition validator_new (tals : list tal) (fetchers : list fetcher) : validator :=
  mkValidator tals
    (mkVisited (list_to_map (reverse ((fun f => (fe_notif f, f)) <$> fetchers))) ∅).

(** validator.rs:52-66 *)
Definition equivalent (self other : validator) : bool :=
  forallb (fun o => existsb (fun s => bool_decide (s = o))
                      (map_to_list (vi_fetchers (vd_repos self))).*2)
          (map_to_list (vi_fetchers (vd_repos other))).*2
  && bool_decide (vd_tals self = vd_tals other).

(** ** Repository data: validator.rs:523-813 *)

(** validator.rs:808-812 *)
Definition get_fetcher (v : visited) (u : https) : fetcher :=
  default (mkFetcher u None Insecure) (vi_fetchers v !! u).

(** validator.rs:803-806 *)
Definition read_bytes (f : fetcher) (u : https) (h : hash) : M string :=
  src ← resolve_source f u;
  r ← fetch src (Some h) None None;
  try_into_data r.

(** validator.rs:788-791 *)
Definition read_delta_file (f : fetcher) (u : https) (h : hash) : M (list delta_element) :=
  b ← read_bytes f u h;
  x ← getext;
  of_option EDeltaXml (x_delta x b).

(** rrdp::Snapshot::parse: all elements, or an error *)
Fixpoint all_some {A} (l : list (A * option string)) : option (list (A * string)) :=
  match l with
  | [] => Some []
  | (a, Some b) :: l' => r ← all_some l'; Some ((a, b) :: r)
  | (_, None) :: _ => None
  end.
Definition snapshot_parse (x : ext) (b : string) : option (list (rsync_uri * string)) :=
  let '(l, fine) := x_snapshot x b in
  if fine then all_some l else None.

(** validator.rs:793-801 *)
Definition read_snapshot_file (f : fetcher) (u : https) (h : hash)
  : M (list (rsync_uri * string)) :=
  b ← read_bytes f u h;
  x ← getext;
  of_option ESnapshotXml (snapshot_parse x b).

(** validator.rs:770-776; the last element for a URI wins *)
Definition snapshot_objects (l : list (rsync_uri * string)) : gmap string string :=
  list_to_map (reverse ((fun '(u, b) => (rsync_str u, b)) <$> l)).

(** validator.rs:752-786 *)
Definition data_from_snapshot (n : notification) (etag : option string) (f : fetcher) (when : Z)
  : M repo_data :=
  els ← read_snapshot_file f (n_snap_uri n) (n_snap_hash n);
  mret (mkRD etag when true (n_session n) (n_serial n) (snapshot_objects els)).

(** validator.rs:644-647 *)
Definition retrieve_new_repository (f : fetcher) (when : Z) : M repo_data :=
  r ← read_notification_file f None;
  '(n, etag) ← notif_content r;
  data_from_snapshot n etag f when.

(** validator.rs:699-739: one delta element *)
Definition apply_element (x : ext) (o : gmap string string) (el : delta_element)
  : option (gmap string string) :=
  match el with
  | DPublish u b => Some (<[rsync_str u := b]> o)
  | DUpdate u h b =>
      old ← o !! rsync_str u;
      if hash_matches x h old then Some (<[rsync_str u := b]> o) else None
  | DWithdraw u h =>
      old ← o !! rsync_str u;
      if hash_matches x h old then Some (delete (rsync_str u) o) else None
  end.
Fixpoint apply_elements (x : ext) (o : gmap string string) (l : list delta_element)
  : option (gmap string string) :=
  match l with
  | [] => Some o
  | el :: l' => o' ← apply_element x o el; apply_elements x o' l'
  end.

(** validator.rs:693-743 *)
Fixpoint apply_deltas (f : fetcher) (l : list delta_info) (serial : N) (o : gmap string string)
  : M (N * gmap string string) :=
  match l with
  | [] => mret (serial, o)
  | di :: l' =>
      if negb (di_serial di =? serial + 1)%N then apply_deltas f l' serial o
      else
        els ← read_delta_file f (di_uri di) (di_hash di);
        x ← getext;
        o' ← of_option EDelta (apply_elements x o els);
        apply_deltas f l' (serial + 1)%N o'
  end.

(** validator.rs:657-750.  In the code a failure leaves [data] half updated;
    the only caller then replaces or removes it (lines 612-628), so the model
    returns the new data on success and nothing on failure. *)
Definition data_from_deltas (n : notification) (etag : option string) (d : repo_data)
    (f : fetcher) (when : Z) : M repo_data :=
  if negb (bool_decide (n_session n = rd_session d)) then fail EDelta
  else
    x ← getext;
    match sort_and_verify x None n with
    | None => panic
    | Some (n', fine) =>
        if negb fine then fail EDelta
        else match n_deltas n' with
             | [] => fail EDelta
             | first :: _ =>
                 if (rd_serial d + 1 <? di_serial first)%N then fail EDelta
                 else
                   '(serial, o) ← apply_deltas f (n_deltas n') (rd_serial d) (rd_objects d);
                   mret (mkRD etag when true (rd_session d) serial o)
             end
    end.

Definition set_data (v : visited) (d : gmap string repo_data) : visited :=
  mkVisited (vi_fetchers v) d.
Definition mark_fetched (d : repo_data) : repo_data :=
  mkRD (rd_etag d) (rd_last_fetch d) true (rd_session d) (rd_serial d) (rd_objects d).

(** validator.rs:528-642.  [&mut self] becomes the returned [visited]; it is
    returned together with an error because the callers at validator.rs:145-155
    carry on after one. *)
Definition get_latest (v : visited) (u : https) (offline : bool) (when : Z)
  : M (visited * (repo_data + err)) :=
  let f := get_fetcher v u in
  let final (v' : visited) : M (visited * (repo_data + err)) :=
    mret (v', match vi_data v' !! u with Some d => inl d | None => inr ENoData end) in
  match vi_data v !! u with
  | None =>
      if offline then final v
      else
        r ← catch (retrieve_new_repository f when);
        match r with
        | inl d => final (set_data v (<[u := d]> (vi_data v)))
        | inr e => mret (v, inr e)
        end
  | Some d =>
      if rd_fetched d then final v
      else
        let v1 := set_data v (<[u := mark_fetched d]> (vi_data v)) in
        if offline then final v1
        else
          now ← clock;
          if (now - 3600 <? rd_last_fetch d)%Z then final v1
          else
            r ← catch (read_notification_file f (rd_etag d));
            match r with
            | inr e => mret (v1, inr e)
            | inl NUnmodified => final v1
            | inl (NData n etag) =>
                if bool_decide (n_session n = rd_session d) && (n_serial n =? rd_serial d)%N
                then final v1
                else
                  r1 ← catch (data_from_deltas n etag d f when);
                  match r1 with
                  | inl d' => final (set_data v (<[u := d']> (vi_data v)))
                  | inr _ =>
                      r2 ← catch (data_from_snapshot n etag f when);
                      match r2 with
                      | inl d' => final (set_data v (<[u := d']> (vi_data v)))
                      | inr _ => final (set_data v (delete u (vi_data v)))
                      end
                  end
            end
  end.

(** ** Validation of one CA: validator.rs:105-454 *)

(** validator.rs:479-484 *)
Definition extension (u : string) : string :=
  match rsplit_once dot u with None => "" | Some (_, r) => r end.

(** uri::Rsync::join of the CA repository URI and a manifest file name, as text *)
Definition ca_join (base name : string) : string :=
  base +:+ (if ends_with "/" base then "" else "/") +:+ name.

(** validator.rs:312-447: an object found with the right hash.  Second result:
    the child certificates to descend into. *)
Definition check_object (x : ext) (rc : rcert) (cr : crl) (when : Z) (uri b : string)
    (acc : ca_report * list (rcert * ca_info)) : ca_report * list (rcert * ca_info) :=
  let '(ca, children) := acc in
  let ext_ := extension uri in
  if String.eqb ext_ "roa" then
    match x_roa x b with
    | Some r =>
        if x_roa_valid x rc r && negb (crl_contains cr (ro_ee_serial r))
        then (add_roa ca (make_roa uri r), children)
        else (add_issue ca uri PRoaInvalid, children)
    | None => (add_issue ca uri PRoaDecode, children)
    end
  else if String.eqb ext_ "cer" then
    match x_cert x b with
    | Some c =>
        if ct_is_ca c then
          if crl_contains cr (ct_serial c) then (add_issue ca uri PCertRevoked, children)
          else match x_ca_valid x rc c when with
               | Some crc =>
                   match info_of_cert crc with
                   | Some info => (add_child ca (uri, info), children ++ [(crc, info)])
                   | None => (add_issue ca uri PCertInvalid, children)
                   end
               | None => (add_issue ca uri PCertInvalid, children)
               end
        else if x_router_valid x rc c when then (add_router ca uri, children)
             else (add_issue ca uri PRouterInvalid, children)
    | None => (add_issue ca uri PCertParse, children)
    end
  else if String.eqb ext_ "asa" then
    match x_aspa x b with
    | Some a =>
        if x_aspa_valid x rc a && negb (crl_contains cr (as_ee_serial a))
        then (add_aspa ca (make_aspa uri a), children)
        else (add_issue ca uri PAspaInvalid, children)
    | None => (add_issue ca uri PAspaParse, children)
    end
  else if String.eqb ext_ "gbr" then (add_ignored ca uri, children)
  else (add_issue ca uri PUnsupported, children).

(** validator.rs:290-450: the loop over the manifest entries *)
Fixpoint check_entries (x : ext) (rc : rcert) (cr : crl) (when : Z)
    (objs : gmap string string) (l : list (string * hash))
    (acc : ca_report * list (rcert * ca_info)) : ca_report * list (rcert * ca_info) :=
  match l with
  | [] => acc
  | (uri, h) :: l' =>
      check_entries x rc cr when objs l'
        match objs !! uri with
        | None => (add_issue acc.1 uri PNoObject, acc.2)
        | Some b =>
            if hash_matches x h b then check_object x rc cr when uri b acc
            else (add_issue acc.1 uri PObjectHash, acc.2)
        end
  end.

(** validator.rs:157-279: the manifest and CRL checks; [inl] is the reported
    problem, [inr] the CRL and the entries left to check *)
Definition mft_entries (info : ca_info) (m : mft) : gmap string hash :=
  list_to_map (reverse ((fun '(name, h) => (ca_join (ci_ca info) name, h)) <$> mf_entries m)).
Definition check_mft (x : ext) (rc : rcert) (info : ca_info) (objs : gmap string string) (when : Z)
  : (string * problem) + (crl * gmap string hash) :=
  let mft_uri := ci_mft info in
  match objs !! mft_uri with
  | None => inl (mft_uri, PNoMft)
  | Some mb =>
  match x_mft x mb with
  | None => inl (mft_uri, PMftParse)
  | Some m =>
  if negb (x_mft_valid x rc m when) then inl (mft_uri, PMftInvalid) else
  let entries := mft_entries info m in
  match mf_ee_crl m with
  | None => inl (mft_uri, PNoCrlUri)
  | Some crl_uri =>
  match entries !! crl_uri with
  | None => inl (mft_uri, PCrlNotListed)
  | Some ch =>
  match objs !! crl_uri with
  | None => inl (crl_uri, PNoCrl)
  | Some cb =>
  if negb (hash_matches x ch cb) then inl (crl_uri, PCrlHash) else
  match x_crl x cb with
  | None => inl (crl_uri, PCrlParse)
  | Some cr =>
  if negb (x_crl_signed x rc cr) then inl (crl_uri, PCrlSigned) else
  if (cl_next_update cr <? when)%Z then inl (crl_uri, PCrlStale) else
  if crl_contains cr (mf_ee_serial m) then inl (crl_uri, PMftRevoked) else
  inr (cr, delete crl_uri entries)
  end end end end end end.

(** validator.rs:157-450: everything the data of the repository decides *)
Definition check_ca (x : ext) (rc : rcert) (info : ca_info) (objs : gmap string string) (when : Z)
  : ca_report * list (rcert * ca_info) :=
  let ca := ca_empty info in
  match check_mft x rc info objs when with
  | inl (u, p) => (add_issue ca u p, [])
  | inr (cr, entries) =>
      check_entries x rc cr when objs (x_order x (map_to_list entries)) (ca, [])
  end.

Fixpoint fold_m {A B} (f : B -> A -> M B) (b : B) (l : list A) : M B :=
  match l with
  | [] => mret b
  | a :: l' => b' ← f b a; fold_m f b' l'
  end.

(** validator.rs:105-462.  [fuel] is the stack: the recursion has no other
    bound. *)
Fixpoint validate_tree_at (fuel : nat) (v : visited) (rc : rcert) (info : ca_info)
    (offline : bool) (when : Z) : M (visited * report) :=
  match fuel with
  | O => panic
  | S k =>
      let ca := ca_empty info in
      match ci_rrdp info with
      | None => mret (v, add_cert report_default (add_issue ca (ci_ca info) PNoRrdp))
      | Some u =>
          '(v1, r) ← get_latest v u offline when;
          match r with
          | inr _ => mret (v1, add_cert report_default (add_issue ca (ci_ca info) PNoRepo))
          | inl d =>
              x ← getext;
              let '(ca', children) := check_ca x rc info (rd_objects d) when in
              fold_m (fun '(v', rep) '(crc, cinfo) =>
                        '(v'', rep') ← validate_tree_at k v' crc cinfo offline when;
                        mret (v'', add_other rep rep'))
                     (v1, add_cert report_default ca') children
          end
      end
  end.

(** validator.rs:91-103 *)
Definition validate_ta_at (v : visited) (t : tal) (offline : bool) (when : Z)
  : M (visited * report) :=
  rc ← tal_validate_at t when;
  info ← of_option ETaCert (info_of_cert rc);
  e ← ask;
  validate_tree_at (e_stack e) v rc info offline when.

(** validator.rs:80-89 *)
Definition validate_at (vd : validator) (offline : bool) (when : Z) : M (validator * report) :=
  '(v, rep) ←
    fold_m (fun '(v, rep) t =>
              '(v', rep') ← validate_ta_at v t offline when;
              mret (v', add_other rep rep'))
           (vd_repos vd, report_default) (vd_tals vd);
  mret (mkValidator (vd_tals vd) v, rep).

(** validator.rs:76-78 *)
Definition validate (vd : validator) (offline : bool) : M (validator * report) :=
  now ← clock; validate_at vd offline now.

(** validator.rs:70-74 *)
Definition initialise_staging_data (vd : validator) (u : https) : M validator :=
  now ← clock;
  '(v, r) ← get_latest (vd_repos vd) u false now;
  match r with
  | inl _ => mret (mkValidator (vd_tals vd) v)
  | inr e => fail e
  end.
