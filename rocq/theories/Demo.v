(** * A concrete world to run the model in.

    Used for the example beside each theorem and for the witnesses of
    properties that the code violates.  Documents are JSON texts instead of XML
    and DER; the hash is a checksum. *)
From Verif Require Export Process.

Fixpoint checksum (b : string) : N :=
  match b with EmptyString => 0 | String a b' => N_of_ascii a + 3 * checksum b' mod 1000 end%N.
Definition demo_hash (b : string) : hash := "h:" +:+ pretty (checksum b).

Definition as_di (j : json) : option delta_info :=
  l ← as_obj j;
  s ← field "serial" as_N l; u ← field "uri" as_str l; h ← field "hash" as_str l;
  Some (mkDI s u h).
Definition j_di (d : delta_info) : json :=
  JObj [("serial", j_N (di_serial d)); ("uri", JStr (di_uri d)); ("hash", JStr (di_hash d))].
Definition j_notif (n : notification) : json :=
  JObj [("session", j_uuid (n_session n)); ("serial", j_N (n_serial n));
        ("uri", JStr (n_snap_uri n)); ("hash", JStr (n_snap_hash n));
        ("deltas", j_list j_di (n_deltas n))].
Definition as_notif (j : json) : option notification :=
  l ← as_obj j;
  s ← field "session" as_uuid l; n ← field "serial" as_N l;
  u ← field "uri" as_str l; h ← field "hash" as_str l;
  d ← field "deltas" (as_list as_di) l;
  Some (mkNotif s n u h d).

Definition j_ruri (u : rsync_uri) : json :=
  JArr [JStr (ru_auth u); JStr (ru_module u); JStr (ru_path u)].
Definition as_ruri (j : json) : option rsync_uri :=
  match j with
  | JArr [JStr a; JStr m; JStr p] => Some (mkRsync a m p)
  | _ => None
  end.
Definition j_el (e : rsync_uri * string) : json := JArr [j_ruri e.1; JStr e.2].
Definition as_el (j : json) : option (rsync_uri * option string) :=
  match j with
  | JArr [u; JStr b] => u' ← as_ruri u; Some (u', Some b)
  | _ => None
  end.
Definition snap_text (l : list (rsync_uri * string)) : string := json_text (j_list j_el l).
Definition demo_snapshot (b : string) : list (rsync_uri * option string) * bool :=
  match json_parse b with
  | Some (JArr l) =>
      match mapM as_el l with Some els => (els, true) | None => ([], false) end
  | _ => ([], false)
  end.
Definition j_del (e : delta_element) : json :=
  match e with
  | DPublish u b => JArr [JStr "p"; j_ruri u; JStr b]
  | DUpdate u h b => JArr [JStr "u"; j_ruri u; JStr h; JStr b]
  | DWithdraw u h => JArr [JStr "w"; j_ruri u; JStr h]
  end.
Definition as_del (j : json) : option delta_element :=
  match j with
  | JArr [JStr "p"; u; JStr b] => u' ← as_ruri u; Some (DPublish u' b)
  | JArr [JStr "u"; u; JStr h; JStr b] => u' ← as_ruri u; Some (DUpdate u' h b)
  | JArr [JStr "w"; u; JStr h] => u' ← as_ruri u; Some (DWithdraw u' h)
  | _ => None
  end.
Definition delta_text (l : list delta_element) : string := json_text (j_list j_del l).

Definition j_cert (c : cert) : json :=
  JObj [("serial", j_N (ct_serial c)); ("is_ca", JBool (ct_is_ca c)); ("key", JStr (ct_key c));
        ("not_before", JNum (ct_not_before c)); ("ca", j_opt JStr (ct_sia_ca c));
        ("mft", j_opt JStr (ct_sia_mft c)); ("rrdp", j_opt JStr (ct_sia_rrdp c));
        ("res", JStr (ct_res c))].
Definition as_bool (j : json) : option bool := match j with JBool b => Some b | _ => None end.
Definition as_cert (j : json) : option cert :=
  l ← as_obj j;
  s ← field "serial" as_N l; i ← field "is_ca" as_bool l; k ← field "key" as_str l;
  n ← field "not_before" as_Z l; c ← field_opt "ca" as_str l; m ← field_opt "mft" as_str l;
  r ← field_opt "rrdp" as_str l; res ← field "res" as_str l;
  Some (mkCert s i k n c m r res).
Definition j_crl (c : crl) : json :=
  JObj [("id", j_N (cl_id c)); ("this", JNum (cl_this_update c)); ("next", JNum (cl_next_update c));
        ("revoked", j_list j_N (cl_revoked c))].
Definition as_crl (j : json) : option crl :=
  l ← as_obj j;
  i ← field "id" as_N l; t ← field "this" as_Z l; n ← field "next" as_Z l;
  r ← field "revoked" (as_list as_N) l;
  Some (mkCrl i t n r).
Definition j_entry (e : string * hash) : json := JArr [JStr e.1; JStr e.2].
Definition as_entry (j : json) : option (string * hash) :=
  match j with JArr [JStr a; JStr b] => Some (a, b) | _ => None end.
Definition j_mft (m : mft) : json :=
  JObj [("id", j_N (mf_id m)); ("ee", j_N (mf_ee_serial m)); ("crl", j_opt JStr (mf_ee_crl m));
        ("entries", j_list j_entry (mf_entries m))].
Definition as_mft (j : json) : option mft :=
  l ← as_obj j;
  i ← field "id" as_N l; e ← field "ee" as_N l; c ← field_opt "crl" as_str l;
  en ← field "entries" (as_list as_entry) l;
  Some (mkMft i e c en).
Definition j_roa (r : roa) : json :=
  JObj [("roa", j_N (ro_id r)); ("ee", j_N (ro_ee_serial r)); ("asn", j_N (ro_asn r));
        ("v4", j_list (fun p => JStr p.1) (ro_v4 r)); ("v6", j_list (fun p => JStr p.1) (ro_v6 r))].
Definition as_roa (j : json) : option roa :=
  l ← as_obj j;
  i ← field "roa" as_N l; e ← field "ee" as_N l; a ← field "asn" as_N l;
  v4 ← field "v4" (as_list as_str) l; v6 ← field "v6" (as_list as_str) l;
  Some (mkRoa i e a ((fun s => (s, None)) <$> v4) ((fun s => (s, None)) <$> v6)).
Definition j_aspa (a : aspa) : json :=
  JObj [("aspa", j_N (as_id a)); ("ee", j_N (as_ee_serial a)); ("customer", j_N (as_customer a));
        ("providers", j_list j_N (as_providers a))].
Definition as_aspa (j : json) : option aspa :=
  l ← as_obj j;
  i ← field "aspa" as_N l; e ← field "ee" as_N l; c ← field "customer" as_N l;
  p ← field "providers" (as_list as_N) l;
  Some (mkAspa i e c p).

Definition doc {A} (f : json -> option A) (b : string) : option A := j ← json_parse b; f j.

Definition demo_ext : ext := {|
  x_hash := demo_hash;
  x_https_ok := fun s => match strip_prefix "https://" s with Some _ => true | None => false end;
  x_parse_notif := doc as_notif;
  x_write_notif := fun n => json_text (j_notif n);
  x_sav_last := true;
  x_snapshot := demo_snapshot;
  x_delta := doc (as_list as_del);
  x_cert := doc as_cert;
  x_crl := doc as_crl;
  x_sigobj := fun b => if String.eqb b "" then None else Some (Some 7%Z, 5%Z);
  x_mft := doc as_mft;
  x_roa := doc as_roa;
  x_aspa := doc as_aspa;
  x_ta_valid := fun _ c _ => Some (mkRCert c (ct_res c));
  x_mft_valid := fun _ _ _ => true;
  x_crl_signed := fun _ _ => true;
  x_ca_valid := fun _ c _ => Some (mkRCert c (ct_res c));
  x_router_valid := fun _ _ _ => true;
  x_roa_valid := fun _ _ => true;
  x_aspa_valid := fun _ _ => true;
  x_order := fun l => l;
  x_tal := fun b => match json_parse b with
                    | Some (JArr [JStr u; JStr k]) => Some ([TalRsync "rsync://x/y/z.cer"; TalHttps u], k)
                    | _ => None
                    end |}.

(** ** Sources: URIs with bodies *)
Fixpoint assoc {A} (l : list (string * A)) (k : string) : option A :=
  match l with
  | [] => None
  | (k', a) :: l' => if String.eqb k k' then Some a else assoc l' k
  end.
Definition serve (docs : list (string * string)) : nat -> https -> fetch_mode -> option string -> http_reply :=
  fun _ u _ _ => match assoc docs u with
                 | Some b => HReply 200 None (Some b)
                 | None => HReply 404 None (Some "")
                 end.

Definition demo_env (docs : list (string * string)) (t : Z) : env :=
  mkEnv demo_ext (serve docs) (fun _ => t) (fun _ _ => None) (fun _ _ => SOk) 50.
Definition with_fault (e : env) (f : nat -> fs_op -> option nat) : env :=
  mkEnv (e_ext e) (e_http e) (e_clock e) f (e_script e) (e_stack e).
Definition with_ext (e : env) (x : ext) : env :=
  mkEnv x (e_http e) (e_clock e) (e_fault e) (e_script e) (e_stack e).
Definition with_script (e : env) s : env :=
  mkEnv (e_ext e) (e_http e) (e_clock e) (e_fault e) s (e_stack e).
Definition with_http (e : env) h : env :=
  mkEnv (e_ext e) h (e_clock e) (e_fault e) (e_script e) (e_stack e).

(** ** A publication server *)
Definition base : string := "https://h/rrdp/".
Definition notif_uri : https := "https://h/rrdp/notification.xml".
Lemma small_uuid_ok (n : N) : (n <? 2 ^ 128)%N = true -> (n <? 2 ^ 128)%N = true.
Proof. exact (fun H => H). Qed.
Definition uuid_A : uuid := mkUuid 10 eq_refl.
Definition uuid_B : uuid := mkUuid 11 eq_refl.

Definition obj (i : string) : rsync_uri * string := (mkRsync "h" "mod" ("ca/" +:+ i +:+ ".roa"), "object " +:+ i).
Definition sid (s : uuid) : string := pretty (uuid_n s).
Definition snap_doc (s : uuid) (n : N) : string := snap_text [obj (sid s); obj (pretty n)].
Definition delta_doc (s : uuid) (n : N) : string := delta_text [DPublish (obj (pretty n)).1 (obj (pretty n)).2].
Definition snap_rel (s : uuid) (n : N) : string := sid s +:+ "/" +:+ pretty n +:+ "/snapshot.xml".
Definition delta_rel (s : uuid) (n : N) : string := sid s +:+ "/" +:+ pretty n +:+ "/delta.xml".
Definition notif_for (s : uuid) (n : N) (ds : list N) : notification :=
  mkNotif s n (base +:+ snap_rel s n) (demo_hash (snap_doc s n))
    ((fun k => mkDI k (base +:+ delta_rel s k) (demo_hash (delta_doc s k))) <$> ds).
Definition docs_for (s : uuid) (n : N) (ds : list N) : list (string * string) :=
  (notif_uri, json_text (j_notif (notif_for s n ds))) ::
  (base +:+ snap_rel s n, snap_doc s n) ::
  ((fun k => (base +:+ delta_rel s k, delta_doc s k)) <$> ds).

Definition demo_config : config := {|
  c_verbose := 0; c_quiet := false;
  c_state_dir := ["var"; "ks"]; c_rrdp_dir := ["srv"; "rrdp"];
  c_notify_delay := 0; c_max_deltas := Some 100;
  c_rsync_dir := ["srv"; "rsync"]; c_force_moves := false; c_rsync_disable := false;
  c_include_host := false; c_cleanup_after := 7200; c_insecure := false;
  c_notif_uri := notif_uri; c_source_base := None; c_fetch_map := None;
  c_tal_files := []; c_scripts := []; c_reject := false; c_offline := false |}.

Definition start : world := mkWorld (<[["var"] := Dir]> (<[["srv"] := Dir]> ∅)) [] 0.
