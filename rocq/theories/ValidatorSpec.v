(** * What the properties of the validator mean

    Definitions used in statements only; none of them is used by the model. *)
From Verif Require Export Validator FetchProofs ReportProofs.

(** [v] is the value of the last entry for [k] in [l] *)
Definition last_for {A} (k : string) (l : list (string * A)) (v : A) : Prop :=
  exists l1 l2, l = l1 ++ (k, v) :: l2 /\ k ∉ l2.*1.

(** ** Repository data *)

(** The fetcher is offered the notification [n] (in an environment [e] and
    with a file system [g]). *)
Definition offered_notif (e : env) (g : fs) (f : fetcher) (n : notification) : Prop :=
  exists src b, located (e_ext e) f (fe_notif f) = Some src /\ served e g src b /\
                x_parse_notif (e_ext e) b = Some n.
(** It is offered the file [b] for URI [u], and the hash of [b] is [h]. *)
Definition offered_file (e : env) (g : fs) (f : fetcher) (u : https) (h : hash) (b : string) : Prop :=
  exists src, located (e_ext e) f u = Some src /\ served e g src b /\ x_hash (e_ext e) b = h.

(** The effect of one element of a delta on a set of objects. *)
Inductive patch1 (x : ext) (o : gmap string string) : delta_element -> gmap string string -> Prop :=
| patch_publish u b : patch1 x o (DPublish u b) (<[rsync_str u := b]> o)
| patch_update u h b old :
    o !! rsync_str u = Some old -> x_hash x old = h ->
    patch1 x o (DUpdate u h b) (<[rsync_str u := b]> o)
| patch_withdraw u h old :
    o !! rsync_str u = Some old -> x_hash x old = h ->
    patch1 x o (DWithdraw u h) (delete (rsync_str u) o).
Inductive patched (x : ext) : gmap string string -> list delta_element -> gmap string string -> Prop :=
| patched_nil o : patched x o [] o
| patched_cons o el o1 els o2 : patch1 x o el o1 -> patched x o1 els o2 -> patched x o (el :: els) o2.

(** From serial [s] with objects [o] to serial [s'] with objects [o'] by applying
    one complete delta of [n] for each serial in between, in order. *)
Inductive caught_up (e : env) (g : fs) (f : fetcher) (n : notification)
  : N -> gmap string string -> N -> gmap string string -> Prop :=
| caught_refl s o : caught_up e g f n s o s o
| caught_step s o di b els o1 s' o' :
    di ∈ n_deltas n -> di_serial di = (s + 1)%N ->
    offered_file e g f (di_uri di) (di_hash di) b -> x_delta (e_ext e) b = Some els ->
    patched (e_ext e) o els o1 ->
    caught_up e g f n (s + 1)%N o1 s' o' ->
    caught_up e g f n s o s' o'.

(** [o] holds exactly the objects of the snapshot of [n]. *)
Definition snapshot_of (e : env) (g : fs) (f : fetcher) (n : notification) (o : gmap string string) : Prop :=
  exists b els, offered_file e g f (n_snap_uri n) (n_snap_hash n) b /\
    x_snapshot (e_ext e) b = ((fun el => (el.1, Some el.2)) <$> els, true) /\
    forall uri c, o !! uri = Some c <-> last_for uri ((fun el => (rsync_str el.1, el.2)) <$> els) c.

(** Same data, whether or not it was looked at in this run. *)
Definition same_content (d d' : repo_data) : Prop :=
  rd_session d' = rd_session d /\ rd_serial d' = rd_serial d /\ rd_objects d' = rd_objects d /\
  rd_etag d' = rd_etag d /\ rd_last_fetch d' = rd_last_fetch d.

(** What a lookup may do to the cached data [old] of the repository of [f]. *)
Inductive lookup_outcome (e : env) (g : fs) (f : fetcher) : option repo_data -> option repo_data -> Prop :=
| out_none : lookup_outcome e g f None None
| out_same d d' : same_content d d' -> lookup_outcome e g f (Some d) (Some d')
| out_deltas d d' n :
    offered_notif e g f n -> n_session n = rd_session d -> n_serial n <> rd_serial d ->
    n_deltas n <> [] -> rd_session d' = n_session n ->
    (* the serial reached is that of the newest delta, or nothing was newer *)
    (forall di, di ∈ n_deltas n -> (di_serial di <= rd_serial d')%N) ->
    (rd_serial d' = rd_serial d \/ exists di, di ∈ n_deltas n /\ di_serial di = rd_serial d') ->
    caught_up e g f n (rd_serial d) (rd_objects d) (rd_serial d') (rd_objects d') ->
    lookup_outcome e g f (Some d) (Some d')
| out_snapshot old d' n :
    offered_notif e g f n ->
    rd_session d' = n_session n -> rd_serial d' = n_serial n ->
    snapshot_of e g f n (rd_objects d') ->
    lookup_outcome e g f old (Some d')
| out_removed d n :
    offered_notif e g f n -> (n_session n, n_serial n) <> (rd_session d, rd_serial d) ->
    lookup_outcome e g f (Some d) None.

(** [d'] is the content of the version [n] that the source of [f] offers: the
    cached data [d] had this version, was brought up to date with the deltas of
    [n], or the snapshot of [n] was taken. *)
Inductive up_to_date (e : env) (g : fs) (f : fetcher) (n : notification) : option repo_data -> repo_data -> Prop :=
| up_same d d' :
    rd_session d = n_session n -> rd_serial d = n_serial n -> same_content d d' ->
    up_to_date e g f n (Some d) d'
| up_deltas d d' :
    rd_session d = n_session n -> n_deltas n <> [] -> rd_session d' = n_session n ->
    (forall di, di ∈ n_deltas n -> (di_serial di <= rd_serial d')%N) ->
    (rd_serial d' = rd_serial d \/ exists di, di ∈ n_deltas n /\ di_serial di = rd_serial d') ->
    caught_up e g f n (rd_serial d) (rd_objects d) (rd_serial d') (rd_objects d') ->
    up_to_date e g f n (Some d) d'
| up_snapshot old d' :
    rd_session d' = n_session n -> rd_serial d' = n_serial n ->
    snapshot_of e g f n (rd_objects d') ->
    up_to_date e g f n old d'.

(** ** One CA *)

(** The URI of a file in a directory. *)
Definition file_uri (dir name : string) : string :=
  if ends_with "/" dir then dir +:+ name else dir +:+ "/" +:+ name.
(** The details [i] of a CA are those in its certificate: the URIs of its
    directory and manifest, which have to be there, that of the repository, if
    any, and the resources it was validated for. *)
Definition details (rc : rcert) (i : ca_info) : Prop :=
  ct_sia_ca (rc_cert rc) = Some (ci_ca i) /\ ct_sia_mft (rc_cert rc) = Some (ci_mft i) /\
  ct_sia_rrdp (rc_cert rc) = ci_rrdp i /\ rc_res rc = ci_res i.
(** What is reported about a ROA: one line for each of its prefixes. *)
Definition roa_lines (u : string) (r : roa) : validated_roa := {|
  vr_uri := u;
  vr_vrps := ((fun p => mkVrp (ro_asn r) V4 p.1 p.2) <$> ro_v4 r) ++
             ((fun p => mkVrp (ro_asn r) V6 p.1 p.2) <$> ro_v6 r) |}.
(** What is reported about an ASPA object. *)
Definition aspa_line (u : string) (a : aspa) : validated_aspa := {|
  va_uri := u; va_customer := as_customer a; va_providers := as_providers a |}.

(** [h] is the hash the manifest gives for the file with URI [u]. *)
Definition listed (info : ca_info) (m : mft) (u : string) (h : hash) : Prop :=
  last_for u ((fun en => (file_uri (ci_ca info) en.1, en.2)) <$> mf_entries m) h.

(** The manifest [m] and the CRL [cr] (found at [cu]) of a CA are acceptable. *)
Record acceptable (x : ext) (rc : rcert) (info : ca_info) (objs : gmap string string) (when : Z)
    (m : mft) (cr : crl) (cu : string) : Prop := mkAcceptable {
  acc_mft : exists mb, objs !! ci_mft info = Some mb /\ x_mft x mb = Some m;
  acc_mft_valid : x_mft_valid x rc m when = true;
  acc_crl_uri : mf_ee_crl m = Some cu;
  acc_crl : exists h cb, listed info m cu h /\ objs !! cu = Some cb /\ x_hash x cb = h /\
                         x_crl x cb = Some cr;
  acc_signed : x_crl_signed x rc cr = true;
  acc_fresh : (when <= cl_next_update cr)%Z;
  acc_mft_not_revoked : mf_ee_serial m ∉ cl_revoked cr }.

(** A manifest entry other than the CRL whose object is there with the listed
    hash, has the given file name extension and content [b]. *)
Definition entry_there (x : ext) (info : ca_info) (objs : gmap string string) (m : mft) (cu : string)
    (ext_ u b : string) : Prop :=
  u <> cu /\ listed info m u (x_hash x b) /\ objs !! u = Some b /\
  exists name, u = name +:+ "." +:+ ext_.

(** A HashMap iteration visits every entry once. *)
Definition order_ok (x : ext) : Prop := forall l, x_order x l ≡ₚ l.

(** [crc], with [i] its reported details, is a child CA of [rc] published at [u]. *)
Definition child_of (x : ext) (rc : rcert) (info : ca_info) (objs : gmap string string) (when : Z)
    (m : mft) (cr : crl) (cu : string) (u : string) (crc : rcert) (i : ca_info) : Prop :=
  exists b c, entry_there x info objs m cu "cer" u b /\ x_cert x b = Some c /\ ct_is_ca c = true /\
    ct_serial c ∉ cl_revoked cr /\ x_ca_valid x rc c when = Some crc /\ details crc i.

(** What is reported about a CA whose manifest and CRL are acceptable. *)
Record ca_listed (x : ext) (rc : rcert) (info : ca_info) (objs : gmap string string) (when : Z)
    (m : mft) (cr : crl) (cu : string) (ca : ca_report) : Prop := mkListed {
  (* each entry but the CRL is mentioned, once, in one of the lists *)
  li_once : NoDup (mentions ca);
  li_all : forall u, u ∈ mentions ca <-> u <> cu /\ exists h, listed info m u h;
  (* the ROAs are those decoded, valid and not revoked *)
  li_roas : forall v, v ∈ ca_roas ca <-> exists u b r,
    entry_there x info objs m cu "roa" u b /\ x_roa x b = Some r /\ x_roa_valid x rc r = true /\
    ro_ee_serial r ∉ cl_revoked cr /\ v = roa_lines u r;
  li_aspas : forall v, v ∈ ca_aspas ca <-> exists u b a,
    entry_there x info objs m cu "asa" u b /\ x_aspa x b = Some a /\ x_aspa_valid x rc a = true /\
    as_ee_serial a ∉ cl_revoked cr /\ v = aspa_line u a;
  (* the children are those parsed, valid, with the needed details, and not revoked *)
  li_children : forall u i, (u, i) ∈ ca_children ca <-> exists crc,
    child_of x rc info objs when m cr cu u crc i;
  (* router certificates: parsed and valid, whatever the CRL says *)
  li_routers : forall u, u ∈ ca_routers ca <-> exists b c,
    entry_there x info objs m cu "cer" u b /\ x_cert x b = Some c /\ ct_is_ca c = false /\
    x_router_valid x rc c when = true;
  li_ignored : forall u, u ∈ ca_ignored ca <-> exists b, entry_there x info objs m cu "gbr" u b }.

(** The report on a CA, given the objects of its repository. *)
Definition ca_right (x : ext) (rc : rcert) (info : ca_info) (objs : gmap string string) (when : Z)
    (ca : ca_report) : Prop :=
  ca_info_ ca = info /\
  (forall m cr cu, acceptable x rc info objs when m cr cu ->
     ca_listed x rc info objs when m cr cu ca) /\
  (~ (exists m cr cu, acceptable x rc info objs when m cr cu) ->
   exists u p, ca = mkCa info [] [] [] [] [] [mkIssue u p]).

(** ** The tree *)

(** [crc] is a child of [rc] according to repository data [v] looked up in this run. *)
Definition kid (x : ext) (when : Z) (v : visited) (rc crc : rcert) : Prop :=
  exists info u d m cr cu uri i, details rc info /\ ci_rrdp info = Some u /\
    vi_data v !! u = Some d /\ rd_fetched d = true /\
    acceptable x rc info (rd_objects d) when m cr cu /\
    child_of x rc info (rd_objects d) when m cr cu uri crc i.

(** What is reported about one certificate: the lack of data, or the right thing. *)
Definition explained (x : ext) (when : Z) (v : visited) (rc : rcert) (ca : ca_report) : Prop :=
  exists info, details rc info /\
  match ci_rrdp info with
  | None => ca = mkCa info [] [] [] [] [] [mkIssue (ci_ca info) PNoRrdp]
  | Some u =>
      ca = mkCa info [] [] [] [] [] [mkIssue (ci_ca info) PNoRepo] \/
      exists d, vi_data v !! u = Some d /\ rd_fetched d = true /\
                ca_right x rc info (rd_objects d) when ca
  end.

(** Every child certificate reported is itself reported on. *)
Definition children_covered (l : list ca_report) : Prop :=
  forall ca c, ca ∈ l -> c ∈ ca_children ca -> exists ca', ca' ∈ l /\ ca_info_ ca' = c.2.

(** ** Trust anchors *)

(** [rc] is the validated certificate of the trust anchor [t]. *)
Definition ta_of (e : env) (g : fs) (when : Z) (t : tal) (rc : rcert) : Prop :=
  exists b c, served e g (tl_source t) b /\ x_cert (e_ext e) b = Some c /\
    x_ta_valid (e_ext e) (tl_name t) c when = Some rc /\ ct_key (rc_cert rc) = tl_key t.
