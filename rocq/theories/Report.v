(** * src/validation/report.rs *)
From Verif Require Export Types.

(** The texts of [ValidationIssue::msg] as classes; interpolated details are
    left out. *)
Inductive problem :=
| PNoRrdp           (* No SIA RRDP entry                         validator.rs:138 *)
| PNoRepo           (* Could not get repo data                   validator.rs:150 *)
| PNoMft            (* No manifest found                         validator.rs:163 *)
| PMftParse         (* Cannot parse manifest                     validator.rs:175 *)
| PMftInvalid       (* Invalid manifest                          validator.rs:187 *)
| PNoCrlUri         (* Manifest EE has no CRL uri                validator.rs:205 *)
| PCrlNotListed     (* CRL is not on manifest                    validator.rs:217 *)
| PNoCrl            (* CRL not found                             validator.rs:227 *)
| PCrlHash          (* CRL does not match hash on manifest       validator.rs:236 *)
| PCrlParse         (* Could not parse CRL                       validator.rs:247 *)
| PCrlSigned        (* CRL not validly signed                    validator.rs:260 *)
| PCrlStale         (* CRL is stale                              validator.rs:267 *)
| PMftRevoked       (* Manifest was revoked                      validator.rs:275 *)
| PNoObject         (* Object not found                          validator.rs:299 *)
| PObjectHash       (* Object does not match manifest hash       validator.rs:307 *)
| PRoaInvalid       (* Invalid ROA                               validator.rs:329 *)
| PRoaDecode        (* Cannot decode ROA                         validator.rs:336 *)
| PCertRevoked      (* certificate was revoked                   validator.rs:348 *)
| PCertInvalid      (* certificate was invalid                   validator.rs:370,381 *)
| PRouterInvalid    (* invalid router certificate                validator.rs:398 *)
| PCertParse        (* Cannot parse child certificate            validator.rs:408 *)
| PAspaInvalid      (* Invalid ASPA                              validator.rs:428 *)
| PAspaParse        (* Cannot parse aspa object                  validator.rs:435 *)
| PUnsupported.     (* unsupported object type                   validator.rs:444 *)
Global Instance problem_eq_dec : EqDecision problem.
Proof. solve_decision. Defined.

(** report.rs:369-381.  Every issue is built [with_uri_and_msg]. *)
Record issue := mkIssue { is_uri : string; is_msg : problem }.

(** report.rs:394-399 *)
Record ca_info := mkInfo { ci_mft : string; ci_ca : string; ci_rrdp : option https; ci_res : string }.

(** report.rs:401-427; [None] is the error *)
Definition info_of_cert (rc : rcert) : option ca_info :=
  let c := rc_cert rc in
  sia_ca ← ct_sia_ca c;
  sia_mft ← ct_sia_mft c;
  Some (mkInfo sia_mft sia_ca (ct_sia_rrdp c) (rc_res rc)).

(** report.rs:200-206, 232-236 *)
Inductive family := V4 | V6.
Record vrp := mkVrp { vp_asn : N; vp_family : family; vp_prefix : string; vp_max : option N }.

(** report.rs:141-144 and 171-193 *)
Record validated_roa := mkVRoa { vr_uri : string; vr_vrps : list vrp }.
Definition make_roa (uri : string) (r : roa) : validated_roa :=
  mkVRoa uri (
    ((fun '(p, m) => mkVrp (ro_asn r) V4 p m) <$> ro_v4 r) ++
    ((fun '(p, m) => mkVrp (ro_asn r) V6 p m) <$> ro_v6 r)).

(** report.rs:212-229 *)
Record validated_aspa := mkVAspa { va_uri : string; va_customer : N; va_providers : list N }.
Definition make_aspa (uri : string) (a : aspa) : validated_aspa :=
  mkVAspa uri (as_customer a) (as_providers a).

(** report.rs:92-100 (children 147-150, router certs 153-156, ignored 354-357;
    the reason text of an ignored object is constant and left out) *)
Record ca_report := mkCa {
  ca_info_ : ca_info;
  ca_children : list (string * ca_info);
  ca_routers : list string;
  ca_roas : list validated_roa;
  ca_aspas : list validated_aspa;
  ca_ignored : list string;
  ca_issues : list issue }.

(** report.rs:103-113 *)
Definition ca_empty (i : ca_info) : ca_report := mkCa i [] [] [] [] [] [].
(** report.rs:115-137 *)
Definition add_child (c : ca_report) x := mkCa (ca_info_ c) (ca_children c ++ [x]) (ca_routers c) (ca_roas c) (ca_aspas c) (ca_ignored c) (ca_issues c).
Definition add_router (c : ca_report) x := mkCa (ca_info_ c) (ca_children c) (ca_routers c ++ [x]) (ca_roas c) (ca_aspas c) (ca_ignored c) (ca_issues c).
Definition add_roa (c : ca_report) x := mkCa (ca_info_ c) (ca_children c) (ca_routers c) (ca_roas c ++ [x]) (ca_aspas c) (ca_ignored c) (ca_issues c).
Definition add_aspa (c : ca_report) x := mkCa (ca_info_ c) (ca_children c) (ca_routers c) (ca_roas c) (ca_aspas c ++ [x]) (ca_ignored c) (ca_issues c).
Definition add_ignored (c : ca_report) x := mkCa (ca_info_ c) (ca_children c) (ca_routers c) (ca_roas c) (ca_aspas c) (ca_ignored c ++ [x]) (ca_issues c).
Definition add_issue (c : ca_report) (u : string) (p : problem) := mkCa (ca_info_ c) (ca_children c) (ca_routers c) (ca_roas c) (ca_aspas c) (ca_ignored c) (ca_issues c ++ [mkIssue u p]).

(** report.rs:47-54 *)
Record repo_report := mkRR {
  rr_ca_certs : nat; rr_roas : nat; rr_vrps : nat; rr_aspas : nat; rr_router_certs : nat;
  rr_issues : list issue }.
Definition rr_default : repo_report := mkRR 0 0 0 0 0 [].

(** report.rs:57-79 *)
Definition process_cert (r : repo_report) (c : ca_report) : repo_report :=
  mkRR (rr_ca_certs r + length (ca_children c))
       (rr_roas r + length (ca_roas c))
       (rr_vrps r + length (flat_map vr_vrps (ca_roas c)))
       (rr_aspas r + length (ca_aspas c))
       (rr_router_certs r + length (ca_routers c))
       (if is_empty (ca_issues c) then rr_issues r else rr_issues r ++ ca_issues c).

(** report.rs:81-88 *)
Definition rr_add (a b : repo_report) : repo_report :=
  mkRR (rr_ca_certs a + rr_ca_certs b) (rr_roas a + rr_roas b) (rr_vrps a + rr_vrps b)
       (rr_aspas a + rr_aspas b) (rr_router_certs a + rr_router_certs b)
       (rr_issues a ++ rr_issues b).

(** report.rs:19-22 *)
Record report := mkReport { rp_certs : list ca_report; rp_repos : gmap string repo_report }.
Definition report_default : report := mkReport [] ∅.

(** report.rs:25-31 *)
Definition add_cert (r : report) (c : ca_report) : report :=
  mkReport (rp_certs r ++ [c])
    match ci_rrdp (ca_info_ c) with
    | Some u => <[u := process_cert (default rr_default (rp_repos r !! u)) c]> (rp_repos r)
    | None => rp_repos r
    end.

(** report.rs:33-43; the loop visits every entry of [other] once *)
Definition add_other (r o : report) : report :=
  mkReport (rp_certs r ++ rp_certs o)
    (union_with (fun a b => Some (rr_add a b)) (rp_repos r) (rp_repos o)).
