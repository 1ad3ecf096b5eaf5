(** * Data of the external crates that krill-sync handles, and the crates'
    functions as parameters.

    Nothing here is krill-sync code.  [ext] collects the functions of the
    rpki, uuid and sha2 crates that the modelled code calls; every theorem
    holds for every [ext] (subject to the hypotheses it states). *)
From Verif Require Export Fs.

(** ** uuid::Uuid: a 128-bit number *)
Record uuid := mkUuid { uuid_n : N; uuid_lt : (uuid_n <? 2 ^ 128)%N = true }.

Global Instance uuid_eq_dec : EqDecision uuid.
Proof.
  intros [a pa] [b pb]. destruct (decide (a = b)) as [->|ne].
  - left. f_equal. apply Eqdep_dec.UIP_dec. apply Bool.bool_dec.
  - right. congruence.
Defined.

(** rpki::rrdp::Hash, kept as its hexadecimal text *)
Notation hash := string (only parsing).

(** rpki::uri::Https, kept as its text *)
Notation https := string (only parsing).

(** rpki::uri::Rsync *)
Record rsync_uri := mkRsync { ru_auth : string; ru_module : string; ru_path : string }.
Global Instance rsync_uri_eq_dec : EqDecision rsync_uri.
Proof. solve_decision. Defined.
Definition rsync_str (u : rsync_uri) : string :=
  "rsync://" +:+ ru_auth u +:+ "/" +:+ ru_module u +:+ "/" +:+ ru_path u.

(** rpki::rrdp::DeltaInfo, NotificationFile *)
Record delta_info := mkDI { di_serial : N; di_uri : https; di_hash : hash }.
Record notification := mkNotif {
  n_session : uuid; n_serial : N;
  n_snap_uri : https; n_snap_hash : hash;
  n_deltas : list delta_info }.
Global Instance delta_info_eq_dec : EqDecision delta_info.
Proof. solve_decision. Defined.
Global Instance notification_eq_dec : EqDecision notification.
Proof. solve_decision. Defined.

(** rpki::rrdp::DeltaElement *)
Inductive delta_element :=
| DPublish (u : rsync_uri) (b : string)
| DUpdate (u : rsync_uri) (h : hash) (b : string)
| DWithdraw (u : rsync_uri) (h : hash).

(** rpki::repository::Cert, the parts the code reads *)
Record cert := mkCert {
  ct_serial : N; ct_is_ca : bool; ct_key : string; ct_not_before : Z;
  ct_sia_ca : option string; ct_sia_mft : option string; ct_sia_rrdp : option https;
  ct_res : string }.
(** rpki::repository::ResourceCert: a validated certificate with its effective
    resources *)
Record rcert := mkRCert { rc_cert : cert; rc_res : string }.

(** rpki::repository::Crl *)
Record crl := mkCrl { cl_id : N; cl_this_update : Z; cl_next_update : Z; cl_revoked : list N }.
Definition crl_contains (c : crl) (serial : N) : bool :=
  existsb (N.eqb serial) (cl_revoked c).

(** rpki::repository::Manifest: EE certificate serial and CRL URI, and the
    (file name, hash) entries *)
Record mft := mkMft {
  mf_id : N; mf_ee_serial : N; mf_ee_crl : option string;
  mf_entries : list (string * hash) }.

(** rpki::repository::Roa and the content of a validated one *)
Record roa := mkRoa {
  ro_id : N; ro_ee_serial : N; ro_asn : N;
  ro_v4 : list (string * option N); ro_v6 : list (string * option N) }.
(** rpki::repository::aspa::Aspa *)
Record aspa := mkAspa { as_id : N; as_ee_serial : N; as_customer : N; as_providers : list N }.

(** One URI of a TAL file *)
Inductive tal_uri := TalHttps (u : https) | TalRsync (u : string).

Record ext := mkExt {
  (* SHA-256 as hex text: rrdp::Hash::matches, ManifestHash::verify *)
  x_hash : string -> hash;
  (* uri::Https::from_str accepts the text (also decides uri::Https::join) *)
  x_https_ok : string -> bool;
  (* NotificationFile::parse, NotificationFile::write_xml *)
  x_parse_notif : string -> option notification;
  x_write_notif : notification -> string;
  (* does sort_and_verify_deltas also insist that the last delta has the
     notification's serial?  (the crate's source is not at hand; both) *)
  x_sav_last : bool;
  (* ProcessSnapshot::process: the publish elements in document order, with
     [None] for an element whose data cannot be read, and whether the document
     ends well *)
  x_snapshot : string -> list (rsync_uri * option string) * bool;
  (* Delta::parse *)
  x_delta : string -> option (list delta_element);
  (* decoders *)
  x_cert : string -> option cert;
  x_crl : string -> option crl;
  x_sigobj : string -> option (option Z * Z);   (* signing time, EE not_before *)
  x_mft : string -> option mft;
  x_roa : string -> option roa;
  x_aspa : string -> option aspa;
  (* validation without revocation: issuer, object, time *)
  x_ta_valid : string -> cert -> Z -> option rcert;
  x_mft_valid : rcert -> mft -> Z -> bool;
  x_crl_signed : rcert -> crl -> bool;
  x_ca_valid : rcert -> cert -> Z -> option rcert;
  x_router_valid : rcert -> cert -> Z -> bool;
  x_roa_valid : rcert -> roa -> bool;    (* Roa::process uses its own clock *)
  x_aspa_valid : rcert -> aspa -> bool;
  (* iteration order of a HashMap with these entries *)
  x_order : list (string * hash) -> list (string * hash);
  (* repository::Tal::read_named: URIs and public key *)
  x_tal : string -> option (list tal_uri * string) }.

(** Hash::matches *)
Definition hash_matches (x : ext) (h : hash) (b : string) : bool := String.eqb (x_hash x b) h.

(** ** NotificationFile::sort_and_verify_deltas (rpki 0.18)

    Sorts by serial, keeps at most the newest [limit], reports whether the kept
    ones have no gaps.  [None] is the panic of indexing the emptied list when
    the limit is 0 and there are deltas. *)
Fixpoint no_gaps (last : N) (l : list delta_info) : bool :=
  match l with
  | [] => true
  | d :: l' => if (last + 1 =? di_serial d)%N then no_gaps (di_serial d) l' else false
  end.
Definition limit_deltas (limit : option nat) (l : list delta_info) : list delta_info :=
  match limit with
  | Some k => if (k <? length l)%nat then drop (length l - k) l else l
  | None => l
  end.
Definition sort_and_verify (x : ext) (limit : option nat) (n : notification)
  : option (notification * bool) :=
  match n_deltas n with
  | [] => Some (n, true)
  | _ =>
      let l := limit_deltas limit (sort_by_key di_serial (n_deltas n)) in
      let n' := mkNotif (n_session n) (n_serial n) (n_snap_uri n) (n_snap_hash n) l in
      match l with
      | [] => None
      | d :: l' =>
          Some (n', no_gaps (di_serial d) l' &&
                    (negb (x_sav_last x) ||
                     (di_serial (List.last l d) =? n_serial n)%N))
      end
  end.

(** ** uri::Https *)

(** authority part (with scheme) and path of an https URI *)
Fixpoint cut_at_slash (s : string) : string * string :=
  match s with
  | EmptyString => ("", "")
  | String a s' =>
      if Ascii.eqb a slash then ("", s)
      else let '(l, r) := cut_at_slash s' in (String a l, r)
  end.
Definition https_split (u : https) : option (string * string) :=
  match strip_prefix "https://" u with
  | Some rest => let '(auth, p) := cut_at_slash rest in Some ("https://" +:+ auth, p)
  | None => None
  end.
(** drop one trailing slash *)
Fixpoint chop_slash (s : string) : string :=
  match s with
  | EmptyString => ""
  | String a EmptyString => if Ascii.eqb a slash then "" else s
  | String a s' => String a (chop_slash s')
  end.
(** [Https::parent]: the URI up to and including the last slash before the
    final segment; [None] for the root. *)
Definition https_parent (u : https) : option https :=
  '(pre, p) ← https_split u;
  '(l, _) ← rsplit_once slash (chop_slash p);
  Some (pre +:+ l +:+ "/").
(** [Https::join] *)
Definition https_join (x : ext) (base : https) (rel : string) : option https :=
  let s := base +:+ (if ends_with "/" base then "" else "/") +:+ rel in
  if x_https_ok x s then Some s else None.
