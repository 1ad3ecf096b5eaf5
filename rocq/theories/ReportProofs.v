(** * Proofs about validation reports *)
From Coq Require Import ZifyN ZifyNat ZifyBool.
From Verif Require Export WpTac StringProofs.

(** ** Totals *)
(** The reported certificates of a repository. *)
Definition certs_of (u : https) (rep : report) : list ca_report :=
  filter (fun c => ci_rrdp (ca_info_ c) = Some u) (rp_certs rep).
Definition total {A} (f : ca_report -> list A) (l : list ca_report) : nat :=
  sum_list ((fun c => length (f c)) <$> l).
(** Each repository of the report has certificates, and each of its counters is
    the total over its certificates. *)
Definition totals_ok (rep : report) : Prop :=
  forall u,
    (is_Some (rp_repos rep !! u) <-> certs_of u rep <> []) /\
    forall r, rp_repos rep !! u = Some r ->
      rr_ca_certs r = total ca_children (certs_of u rep) /\
      rr_roas r = total ca_roas (certs_of u rep) /\
      rr_vrps r = total (fun c => flat_map vr_vrps (ca_roas c)) (certs_of u rep) /\
      rr_aspas r = total ca_aspas (certs_of u rep) /\
      rr_router_certs r = total ca_routers (certs_of u rep) /\
      rr_issues r = flat_map ca_issues (certs_of u rep).

Definition tot (l : list ca_report) : repo_report :=
  mkRR (total ca_children l) (total ca_roas l) (total (fun c => flat_map vr_vrps (ca_roas c)) l)
       (total ca_aspas l) (total ca_routers l) (flat_map ca_issues l).
Definition totals_eq (rep : report) : Prop :=
  forall u, rp_repos rep !! u =
    match certs_of u rep with [] => None | _ => Some (tot (certs_of u rep)) end.

Lemma totals_eq_ok rep : totals_eq rep -> totals_ok rep.
Proof.
  intros H u. rewrite H. destruct (certs_of u rep) as [|c l]; split.
  - split; [by intros [? ?]|done].
  - done.
  - split; [done|by eexists].
  - intros r [= <-]. done.
Qed.

Lemma total_app {A} (f : ca_report -> list A) l k : total f (l ++ k) = total f l + total f k.
Proof. unfold total. rewrite fmap_app. induction l as [|c l IH]; cbn in *; [done|]. rewrite IH. lia. Qed.
Lemma rr_add_default r : rr_add rr_default r = r.
Proof. by destruct r. Qed.
Lemma tot_app l k : tot (l ++ k) = rr_add (tot l) (tot k).
Proof. unfold tot, rr_add. cbn. rewrite !total_app, flat_map_app. done. Qed.
Lemma tot_single c : tot [c] = process_cert rr_default c.
Proof.
  unfold tot, process_cert, total. cbn. rewrite !Nat.add_0_r, !app_nil_r.
  destruct (ca_issues c) eqn:E; cbn; congruence.
Qed.
Lemma process_cert_add r c : process_cert r c = rr_add r (process_cert rr_default c).
Proof.
  unfold process_cert, rr_add. cbn. destruct (ca_issues c); cbn; rewrite ?app_nil_r; done.
Qed.

Lemma totals_default : totals_eq report_default.
Proof. intros u. done. Qed.
Lemma totals_add_cert rep c : totals_eq rep -> totals_eq (add_cert rep c).
Proof.
  intros H u. unfold add_cert, certs_of. cbn. rewrite filter_app. fold (certs_of u rep).
  rewrite filter_cons. specialize (H u).
  destruct (ci_rrdp (ca_info_ c)) as [v|] eqn:E; cbn.
  - destruct (decide (v = u)) as [->|Hne].
    + rewrite decide_True by done. rewrite lookup_insert. change (filter _ []) with (@nil ca_report).
      rewrite process_cert_add, tot_app, tot_single, H.
      destruct (certs_of u rep) eqn:E2; done.
    + rewrite decide_False by congruence. change (filter _ []) with (@nil ca_report). rewrite app_nil_r.
      rewrite lookup_insert_ne by done. done.
  - rewrite decide_False by congruence. change (filter _ []) with (@nil ca_report). rewrite app_nil_r. done.
Qed.
Lemma totals_add_other a b : totals_eq a -> totals_eq b -> totals_eq (add_other a b).
Proof.
  intros Ha Hb u. unfold add_other, certs_of. cbn. rewrite filter_app.
  fold (certs_of u a) (certs_of u b). rewrite lookup_union_with, Ha, Hb, tot_app.
  destruct (certs_of u a) as [|c l], (certs_of u b) as [|c' l']; try done.
  rewrite <- tot_app, !app_nil_r. done.
Qed.

(** ** Entries of one CA *)
(** All URIs a CA report says something about. *)
Definition mentions (c : ca_report) : list string :=
  (is_uri <$> ca_issues c) ++ (ca_children c).*1 ++ ca_routers c ++
  (vr_uri <$> ca_roas c) ++ (va_uri <$> ca_aspas c) ++ ca_ignored c.

Lemma mentions_empty i : mentions (ca_empty i) = [].
Proof. done. Qed.

Lemma mentions_issue c u p : mentions (add_issue c u p) ≡ₚ u :: mentions c.
Proof. unfold mentions. cbn. rewrite fmap_app. cbn. rewrite <-app_assoc. cbn. symmetry. apply Permutation_middle. Qed.
Lemma mentions_child c u : mentions (add_child c u) ≡ₚ u.1 :: mentions c.
Proof.
  unfold mentions. cbn. rewrite fmap_app. rewrite <-!app_assoc. cbn.
  rewrite (app_assoc (_ <$> _) ((ca_children c).*1)).
  rewrite <- Permutation_middle. rewrite <- !app_assoc. done.
Qed.
Lemma mentions_router c u : mentions (add_router c u) ≡ₚ u :: mentions c.
Proof.
  unfold mentions. cbn. rewrite <-!app_assoc. cbn.
  rewrite (app_assoc (_ <$> _) ((ca_children c).*1)), (app_assoc _ (ca_routers c)).
  rewrite <- Permutation_middle. rewrite <- !app_assoc. done.
Qed.
Lemma mentions_roa c u : mentions (add_roa c u) ≡ₚ vr_uri u :: mentions c.
Proof.
  unfold mentions. cbn. rewrite fmap_app. rewrite <-!app_assoc. cbn.
  rewrite (app_assoc (_ <$> _) ((ca_children c).*1)), (app_assoc _ (ca_routers c)), (app_assoc _ (vr_uri <$> _)).
  rewrite <- Permutation_middle. rewrite <- !app_assoc. done.
Qed.
Lemma mentions_aspa c u : mentions (add_aspa c u) ≡ₚ va_uri u :: mentions c.
Proof.
  unfold mentions. cbn. rewrite fmap_app. rewrite <-!app_assoc. cbn.
  rewrite (app_assoc (_ <$> _) ((ca_children c).*1)), (app_assoc _ (ca_routers c)), (app_assoc _ (vr_uri <$> _)), (app_assoc _ (va_uri <$> _)).
  rewrite <- Permutation_middle. rewrite <- !app_assoc. done.
Qed.
Lemma mentions_ignored c u : mentions (add_ignored c u) ≡ₚ u :: mentions c.
Proof.
  unfold mentions. cbn. rewrite !app_assoc.
  rewrite Permutation_app_comm. cbn. done.
Qed.

Lemma check_object_mentions x rc cr when uri b acc :
  mentions (check_object x rc cr when uri b acc).1 ≡ₚ uri :: mentions acc.1.
Proof.
  unfold check_object. destruct acc as [ca ch]. cbn.
  repeat case_match; cbn;
    first [apply mentions_issue | apply mentions_roa | apply mentions_router | apply mentions_aspa
          | apply mentions_ignored | apply mentions_child].
Qed.
Lemma check_entries_mentions x rc cr when objs l acc :
  mentions (check_entries x rc cr when objs l acc).1 ≡ₚ l.*1 ++ mentions acc.1.
Proof.
  revert acc. induction l as [|[u h] l IH]; intros acc; cbn [check_entries]; [done|].
  rewrite IH. cbn. rewrite Permutation_middle. f_equiv.
  repeat case_match; cbn; first [apply check_object_mentions | apply mentions_issue].
Qed.

(** ** What an entry of the manifest contributes *)
Section entries.
  Context (x : ext) (rc : rcert) (cr : crl) (when : Z) (objs : gmap string string).

  (** the bytes of an entry that is present with the listed hash *)
  Definition present (eh : string * hash) : option string :=
    match objs !! eh.1 with
    | Some b => if hash_matches x eh.2 b then Some b else None
    | None => None
    end.

  Definition entry_roas (eh : string * hash) : list validated_roa :=
    match present eh with
    | Some b =>
        if String.eqb (extension eh.1) "roa" then
          match x_roa x b with
          | Some r => if x_roa_valid x rc r && negb (crl_contains cr (ro_ee_serial r))
                      then [make_roa eh.1 r] else []
          | None => []
          end
        else []
    | None => []
    end.
  Definition entry_aspas (eh : string * hash) : list validated_aspa :=
    match present eh with
    | Some b =>
        if String.eqb (extension eh.1) "asa" then
          match x_aspa x b with
          | Some r => if x_aspa_valid x rc r && negb (crl_contains cr (as_ee_serial r))
                      then [make_aspa eh.1 r] else []
          | None => []
          end
        else []
    | None => []
    end.
  Definition entry_kids (eh : string * hash) : list (rcert * ca_info) :=
    match present eh with
    | Some b =>
        if String.eqb (extension eh.1) "cer" then
          match x_cert x b with
          | Some c =>
              if ct_is_ca c && negb (crl_contains cr (ct_serial c)) then
                match x_ca_valid x rc c when with
                | Some crc => match info_of_cert crc with Some i => [(crc, i)] | None => [] end
                | None => []
                end
              else []
          | None => []
          end
        else []
    | None => []
    end.
  Definition entry_routers (eh : string * hash) : list string :=
    match present eh with
    | Some b =>
        if String.eqb (extension eh.1) "cer" then
          match x_cert x b with
          | Some c => if negb (ct_is_ca c) && x_router_valid x rc c when then [eh.1] else []
          | None => []
          end
        else []
    | None => []
    end.
  Definition entry_ignored (eh : string * hash) : list string :=
    match present eh with
    | Some b => if String.eqb (extension eh.1) "gbr" then [eh.1] else []
    | None => []
    end.

  Definition step (acc : ca_report * list (rcert * ca_info)) (eh : string * hash) :=
    match objs !! eh.1 with
    | None => (add_issue acc.1 eh.1 PNoObject, acc.2)
    | Some b =>
        if hash_matches x eh.2 b then check_object x rc cr when eh.1 b acc
        else (add_issue acc.1 eh.1 PObjectHash, acc.2)
    end.
  Lemma check_entries_foldl l acc : check_entries x rc cr when objs l acc = foldl step acc l.
  Proof. revert acc. induction l as [|[u h] l IH]; intros; cbn; [done|]. by rewrite IH. Qed.

  Lemma step_spec acc eh :
    ca_roas (step acc eh).1 = ca_roas acc.1 ++ entry_roas eh /\
    ca_aspas (step acc eh).1 = ca_aspas acc.1 ++ entry_aspas eh /\
    ca_routers (step acc eh).1 = ca_routers acc.1 ++ entry_routers eh /\
    ca_ignored (step acc eh).1 = ca_ignored acc.1 ++ entry_ignored eh /\
    ca_children (step acc eh).1 = ca_children acc.1 ++ ((fun k => (eh.1, k.2)) <$> entry_kids eh) /\
    (step acc eh).2 = acc.2 ++ entry_kids eh /\
    ca_info_ (step acc eh).1 = ca_info_ acc.1.
  Proof.
    unfold step, entry_roas, entry_aspas, entry_routers, entry_ignored, entry_kids, present.
    destruct eh as [u h]. cbn [fst snd]. destruct acc as [ca ch]. cbn [fst snd].
    destruct (objs !! u) as [b|]; [|cbn; rewrite ?app_nil_r; done].
    destruct (hash_matches x h b); [|cbn; rewrite ?app_nil_r; done].
    unfold check_object.
    destruct (String.eqb_spec (extension u) "roa") as [E|E].
    { rewrite E. cbn. repeat case_match; cbn; rewrite ?app_nil_r; done. }
    destruct (String.eqb_spec (extension u) "cer") as [E'|E'].
    { rewrite E'. cbn. destruct (x_cert x b) as [c|]; [|cbn; rewrite ?app_nil_r; done].
      destruct (ct_is_ca c); cbn.
      - destruct (crl_contains cr (ct_serial c)); cbn; [rewrite ?app_nil_r; done|].
        destruct (x_ca_valid x rc c when); cbn; [|rewrite ?app_nil_r; done].
        destruct (info_of_cert r); cbn; rewrite ?app_nil_r; done.
      - destruct (x_router_valid x rc c when); cbn; rewrite ?app_nil_r; done. }
    destruct (String.eqb_spec (extension u) "asa") as [E2|E2].
    { rewrite E2. cbn. repeat case_match; cbn; rewrite ?app_nil_r; done. }
    destruct (String.eqb (extension u) "gbr"); cbn; rewrite ?app_nil_r; done.
  Qed.

  Lemma check_entries_spec l acc :
    let res := check_entries x rc cr when objs l acc in
    ca_roas res.1 = ca_roas acc.1 ++ flat_map entry_roas l /\
    ca_aspas res.1 = ca_aspas acc.1 ++ flat_map entry_aspas l /\
    ca_routers res.1 = ca_routers acc.1 ++ flat_map entry_routers l /\
    ca_ignored res.1 = ca_ignored acc.1 ++ flat_map entry_ignored l /\
    ca_children res.1 = ca_children acc.1 ++ flat_map (fun eh => (fun k => (eh.1, k.2)) <$> entry_kids eh) l /\
    res.2 = acc.2 ++ flat_map entry_kids l /\
    ca_info_ res.1 = ca_info_ acc.1.
  Proof.
    cbv zeta. rewrite check_entries_foldl. revert acc.
    induction l as [|eh l IH]; intros acc; cbn; [rewrite ?app_nil_r; done|].
    destruct (IH (step acc eh)) as (H1 & H2 & H3 & H4 & H5 & H6 & H7).
    destruct (step_spec acc eh) as (G1 & G2 & G3 & G4 & G5 & G6 & G7).
    rewrite H1, H2, H3, H4, H5, H6, H7, G1, G2, G3, G4, G5, G6, G7, <- !app_assoc. done.
  Qed.
End entries.
