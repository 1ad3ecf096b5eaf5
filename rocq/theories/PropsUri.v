(** * Properties of names: C23, C24, C27 *)
From Verif Require Import UriProofs Demo.

(** C23 *)
Theorem C23_revision_dirs_distinct :
  forall (c : config) (r r' : revision),
    (r <> r' -> rev_path c r <> rev_path c r') /\
    dir_name r <> "current" /\ dir_name r <> "current.tmp" /\
    (* the directory is an immediate child of the rsync directory *)
    rev_path c r = c_rsync_dir c ++ [dir_name r] /\
    rsync_current c = c_rsync_dir c ++ ["current"] /\
    path_with_extension (rsync_current c) "tmp" = c_rsync_dir c ++ ["current.tmp"].
Proof.
  intros c r r'. split; [|split; [|split; [|split; [|split]]]].
  - intros Hne. rewrite !rev_path_eq. intros E%app_inv_head. apply Hne, dir_name_inj. by apply (f_equal (fun l => List.hd "" l)) in E.
  - apply dir_name_not_current.
  - apply dir_name_not_current.
  - apply rev_path_eq.
  - apply rsync_current_eq.
  - rewrite rsync_current_eq. unfold path_with_extension.
    destruct (c_rsync_dir c ++ ["current"]) as [|a l] eqn:E; [by destruct (c_rsync_dir c)|].
    rewrite <- E. rewrite removelast_last, last_last. done.
Qed.
Print Assumptions C23_revision_dirs_distinct.
Example C23_example : mkRev uuid_A 1 <> mkRev uuid_A 11 /\
  rev_path demo_config (mkRev uuid_A 1) = ["srv"; "rsync"; "session_00000000-0000-0000-0000-00000000000a_serial_1"].
Proof. split; [done|]. vm_compute. done. Qed.

(** C24: clean URIs have no empty, [.] or [..] parts. *)
Theorem C24_include_host :
  forall (out : path) (u u' : rsync_uri),
    clean_uri u -> clean_uri u' ->
    (object_path true out u = object_path true out u' <-> u = u') /\
    (object_path false out u = object_path false out u' <-> ru_path u = ru_path u').
Proof.
  intros out u u' H H'. split.
  - split; [by apply object_path_inj_host|by intros ->].
  - destruct H as (_ & _ & H), H' as (_ & _ & H'). by apply object_path_eq_nohost.
Qed.
Print Assumptions C24_include_host.
Example C24_example :
  clean_uri (mkRsync "a" "mod" "ca/x.roa") /\ clean_uri (mkRsync "b" "mod" "ca/x.roa") /\
  object_path true ["out"] (mkRsync "a" "mod" "ca/x.roa") = ["out"; "a"; "mod"; "ca"; "x.roa"] /\
  object_path false ["out"] (mkRsync "a" "mod" "ca/x.roa") =
  object_path false ["out"] (mkRsync "b" "mod" "ca/x.roa").
Proof.
  split; [|split; [|vm_compute; done]]; (split; [by vm_compute|split; [by vm_compute|]]);
    unfold clean_rel; cbn; repeat constructor; by vm_compute.
Qed.

(** C27: the mappings made from the configuration turn a URI under the
    notification's base into the rest, and back into the same URI; the file is
    the rest joined to the RRDP directory; other URIs are refused. *)
Theorem C27_uri_path_correspondence :
  forall (c : config) (e : env) (w : world) (m : mappings) (u : https),
    (mappings_build c e w).1 = Ok m ->
    exists base, https_parent (c_notif_uri c) = Some base /\ ends_with "/" base = true /\
    match (mp_relative m u e w).1 with
    | Ok rel => u = base +:+ rel /\
                mp_path m rel = path_join (c_rrdp_dir c) rel /\
                (clean_rel rel -> mp_path m rel = c_rrdp_dir c ++ split_on slash rel) /\
                (x_https_ok (e_ext e) u = true -> (mp_uri m rel e w).1 = Ok u)
    | Err x => x = ENotRelative /\ forall rel, u <> base +:+ rel
    | Panic => False
    end.
Proof.
  intros c e w m u. unfold mappings_build, of_option.
  destruct (https_parent (c_notif_uri c)) as [base|] eqn:Hp; [|done].
  cbn. intros H. injection H as <-. exists base. split; [done|].
  pose proof (https_parent_ends _ _ Hp) as He. split; [done|].
  unfold mp_relative, of_option. cbn [mp_base].
  destruct (strip_prefix base u) as [rel|] eqn:Hs; unfold mret, M_ret, fail; cbn [fst].
  - apply strip_prefix_spec in Hs. split; [done|]. split; [done|]. split.
    + intros Hc. unfold mp_path. cbn. by apply path_join_clean.
    + intros Hok.
      assert (E : https_join (e_ext e) base rel = Some u)
        by (rewrite https_join_base, <- Hs, Hok; done).
      unfold mp_uri, mbind, M_bind, getext. cbn [mp_base]. by rewrite E.
  - split; [done|]. by apply strip_prefix_none.
Qed.
Print Assumptions C27_uri_path_correspondence.
Example C27_example :
  let m := mkMap base ["srv"; "rrdp"] in
  (mappings_build demo_config (demo_env [] 0) start).1 = Ok m /\
  (mp_relative m (base +:+ "s/1/snap.xml") (demo_env [] 0) start).1 = Ok "s/1/snap.xml" /\
  mp_path m "s/1/snap.xml" = ["srv"; "rrdp"; "s"; "1"; "snap.xml"] /\
  (mp_relative m "https://other/x" (demo_env [] 0) start).1 = Err ENotRelative.
Proof. vm_compute. done. Qed.
