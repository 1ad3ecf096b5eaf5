(** * src/validation/tal.rs *)
From Verif Require Export Fetch.

(** tal.rs:26-30 *)
Record tal := mkTal { tl_name : string; tl_source : fetch_source; tl_key : string }.
Global Instance tal_eq_dec : EqDecision tal.
Proof. solve_decision. Defined.

(** tal.rs:40-47: the first https URI *)
Fixpoint first_https (l : list tal_uri) : option https :=
  match l with
  | [] => None
  | TalHttps u :: _ => Some u
  | TalRsync _ :: l' => first_https l'
  end.

(** tal.rs:36-59 *)
Definition tal_parse (name : string) (b : string) (src : option fetch_source) : M tal :=
  x ← getext;
  '(uris, key) ← of_option ETal (x_tal x b);
  uri ← of_option ETal (first_https uris);
  mret (mkTal name (default (SUri uri Insecure) src) key).

(** tal.rs:65-83.  [x_ta_valid] includes that the certificate is self-signed and
    valid at [when]. *)
Definition tal_validate_at (t : tal) (when : Z) : M rcert :=
  fetched ← fetch (tl_source t) None None None;
  b ← try_into_data fetched;
  x ← getext;
  c ← of_option ETaCert (x_cert x b);
  rc ← of_option ETaCert (x_ta_valid x (tl_name t) c when);
  if String.eqb (ct_key (rc_cert rc)) (tl_key t) then mret rc else fail ETaCert.
