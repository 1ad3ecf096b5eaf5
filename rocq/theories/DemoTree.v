(** * A concrete certificate tree for the examples *)
From Verif Require Export Demo.

Definition ruri (p : string) : rsync_uri := mkRsync "h" "mod" p.
Definition file_of (p b : string) : rsync_uri * string := (ruri p, b).

(** a CA certificate for directory [dir] in the repository [rrdp] *)
Definition ca_cert (serial : N) (key dir : string) (rrdp : https) : cert :=
  mkCert serial true key 5 (Some ("rsync://h/mod/" +:+ dir)) (Some ("rsync://h/mod/" +:+ dir +:+ "m.mft"))
    (Some rrdp) "all".
Definition router_cert (serial : N) : cert := mkCert serial false "r" 5 None None None "as1".
Definition text {A} (f : A -> json) (a : A) : string := json_text (f a).

(** manifest, CRL and objects of a CA *)
Definition ca_files (dir : string) (revoked : list N) (objs : list (string * string))
    (missing : list (string * string)) : list (rsync_uri * string) :=
  let crl_b := text j_crl (mkCrl 1 0 1000000 revoked) in
  let m := mkMft 1 77 (Some ("rsync://h/mod/" +:+ dir +:+ "c.crl"))
             (("c.crl", demo_hash crl_b) :: ((fun o => (o.1, demo_hash o.2)) <$> objs) ++
              ((fun o => (o.1, demo_hash o.2)) <$> missing)) in
  file_of (dir +:+ "m.mft") (text j_mft m) :: file_of (dir +:+ "c.crl") crl_b ::
  ((fun o => file_of (dir +:+ o.1) o.2) <$> objs).

Definition ta_cert : cert := ca_cert 1 "key" "ta/" notif_uri.
Definition other_uri : https := "https://other/notification.xml".
Definition ta_uri : https := "https://h/ta.cer".
Definition tal_doc : string := json_text (JArr [JStr ta_uri; JStr "key"]).

(** the trust anchor publishes two ROAs (the second revoked), an ASPA, two CAs
    in its own repository and two in another one, a revoked CA, a revoked
    router certificate, a ghostbusters record and an unknown object; one entry
    is missing *)
Definition ta_files : list (rsync_uri * string) :=
  ca_files "ta/" [5; 6; 9]%N
    [("a.roa", text j_roa (mkRoa 1 4 64512 [("10.0.0.0/8", None)] []));
     ("b.roa", text j_roa (mkRoa 2 5 64513 [("11.0.0.0/8", None)] []));
     ("a.asa", text j_aspa (mkAspa 1 7 64512 [64513%N]));
     ("kid.cer", text j_cert (ca_cert 8 "k2" "kid/" notif_uri));
     ("o1.cer", text j_cert (ca_cert 11 "k3" "o1/" other_uri));
     ("o2.cer", text j_cert (ca_cert 12 "k4" "o2/" other_uri));
     ("gone.cer", text j_cert (ca_cert 9 "k5" "gone/" notif_uri));
     ("router.cer", text j_cert (router_cert 6));
     ("g.gbr", "ghost"); ("t.txt", "text")]
    [("missing.roa", "nothing")].
Definition kid_files : list (rsync_uri * string) :=
  ca_files "kid/" [] [("k.roa", text j_roa (mkRoa 3 4 64514 [("12.0.0.0/8", None)] []))] [].
Definition tree_files : list (rsync_uri * string) := ta_files ++ kid_files.
Definition tree_objs : gmap string string := snapshot_objects tree_files.
Definition tree_data : repo_data := mkRD None 100 true uuid_A 1 tree_objs.
Definition tree_docs : list (string * string) := [(ta_uri, text j_cert ta_cert)].
Definition tree_tal : tal := mkTal "ta" (SUri ta_uri Insecure) "key".
Definition tree_validator : validator :=
  mkValidator [tree_tal] (mkVisited ∅ {[notif_uri := tree_data]}).
Definition tree_env : env := demo_env tree_docs 1000.
Definition tree_result : res (validator * report) * world := validate_at tree_validator false 1000 tree_env start.

(** a CA that lists a certificate of itself *)
Definition loop_files : list (rsync_uri * string) :=
  ca_files "ta/" [] [("self.cer", text j_cert ta_cert)] [].
Definition loop_data : repo_data := mkRD None 100 true uuid_A 1 (snapshot_objects loop_files).
Definition loop_validator : validator :=
  mkValidator [tree_tal] (mkVisited ∅ {[notif_uri := loop_data]}).
Definition with_stack (e : env) (k : nat) : env :=
  mkEnv (e_ext e) (e_http e) (e_clock e) (e_fault e) (e_script e) k.
