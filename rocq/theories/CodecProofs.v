(** * State files are read back as they were written *)
From Coq Require Import ZifyN ZifyNat ZifyBool.
From Verif Require Export Codec PathProofs.

Ltac Zify.zify_post_hook ::= Z.to_euclidean_division_equations.

(** ** Uuids *)
Lemma hex_digit_val d : (d < 16)%N -> hex_val (hex_digit d) = Some d.
Proof.
  intros H. assert (d = 0 \/ d = 1 \/ d = 2 \/ d = 3 \/ d = 4 \/ d = 5 \/ d = 6 \/ d = 7 \/ d = 8 \/ d = 9 \/
    d = 10 \/ d = 11 \/ d = 12 \/ d = 13 \/ d = 14 \/ d = 15)%N as Hd by lia.
  repeat (destruct Hd as [->|Hd]; [reflexivity|]). subst. reflexivity.
Qed.
Lemma read_hex_n k n acc j t :
  read_hex (k + j) acc (hex_n k n +:+ t) = read_hex j (acc * 16 ^ N.of_nat k + n mod 16 ^ N.of_nat k)%N t.
Proof.
  revert n acc j t. induction k as [|k IH]; intros n acc j t.
  - cbn [hex_n]. rewrite sapp_nil_l. cbn [Nat.add]. f_equal. change (16 ^ N.of_nat 0)%N with 1%N.
    rewrite N.mod_1_r. lia.
  - cbn [hex_n]. rewrite sapp_assoc, sapp_cons, sapp_nil_l.
    replace (S k + j) with (k + S j) by lia. rewrite IH. cbn [read_hex].
    rewrite hex_digit_val by (apply N.mod_lt; lia). cbn [mbind option_bind]. f_equal.
    rewrite Nnat.Nat2N.inj_succ, N.pow_succ_r by lia.
    rewrite (N.mod_mul_r n 16) by (try apply N.pow_nonzero; lia). lia.
Qed.
Lemma read_hex_n0 k n t : read_hex k 0 (hex_n k n +:+ t) = Some (n mod 16 ^ N.of_nat k, t)%N.
Proof.
  pose proof (read_hex_n k n 0 0 t) as H. rewrite Nat.add_0_r in H. rewrite H. cbn [read_hex].
  do 2 f_equal.
Qed.

Lemma mk_uuid_ok u : mk_uuid (uuid_n u) = Some u.
Proof.
  unfold mk_uuid. destruct u as [n H]. cbn [uuid_n].
  destruct (Sumbool.sumbool_of_bool (n <? 2 ^ 128)%N) as [H'|H']; [|congruence].
  do 2 f_equal. apply Eqdep_dec.UIP_dec, Bool.bool_dec.
Qed.

Theorem uuid_roundtrip u : uuid_parse (uuid_str u) = Some u.
Proof.
  unfold uuid_parse, uuid_str. set (n := uuid_n u).
  assert (Hn : (n < 2 ^ 128)%N) by (apply N.ltb_lt, uuid_lt).
  rewrite read_hex_n0. cbn [mbind option_bind].
  assert (Hs : forall s, strip_prefix "-" ("-" +:+ s) = Some s) by done.
  rewrite Hs. cbn [mbind option_bind]. rewrite read_hex_n0. cbn [mbind option_bind].
  rewrite Hs. cbn [mbind option_bind]. rewrite read_hex_n0. cbn [mbind option_bind].
  rewrite Hs. cbn [mbind option_bind]. rewrite read_hex_n0. cbn [mbind option_bind].
  rewrite Hs. cbn [mbind option_bind].
  rewrite <- (sapp_nil_r (hex_n 12 _)), read_hex_n0. cbn [mbind option_bind].
  rewrite <- (mk_uuid_ok u). fold n. f_equal.
  change (16 ^ N.of_nat 8)%N with (2 ^ 32)%N. change (16 ^ N.of_nat 4)%N with (2 ^ 16)%N.
  change (16 ^ N.of_nat 12)%N with (2 ^ 48)%N.
  rewrite !N.mod_mod by done.
  rewrite (N.mod_small (n / 2 ^ 96) (2 ^ 32)).
  2: { apply N.div_lt_upper_bound; [done|]. done. }
  assert (E1 : (n / 2 ^ 80 = n / 2 ^ 96 * 2 ^ 16 + n / 2 ^ 80 mod 2 ^ 16)%N).
  { rewrite (N.div_mod (n / 2 ^ 80) (2 ^ 16)) at 1 by done. rewrite N.div_div by done.
    change (2 ^ 80 * 2 ^ 16)%N with (2 ^ 96)%N. lia. }
  assert (E2 : (n / 2 ^ 64 = n / 2 ^ 80 * 2 ^ 16 + n / 2 ^ 64 mod 2 ^ 16)%N).
  { rewrite (N.div_mod (n / 2 ^ 64) (2 ^ 16)) at 1 by done. rewrite N.div_div by done.
    change (2 ^ 64 * 2 ^ 16)%N with (2 ^ 80)%N. lia. }
  assert (E3 : (n / 2 ^ 48 = n / 2 ^ 64 * 2 ^ 16 + n / 2 ^ 48 mod 2 ^ 16)%N).
  { rewrite (N.div_mod (n / 2 ^ 48) (2 ^ 16)) at 1 by done. rewrite N.div_div by done.
    change (2 ^ 48 * 2 ^ 16)%N with (2 ^ 64)%N. lia. }
  assert (E4 : (n = n / 2 ^ 48 * 2 ^ 48 + n mod 2 ^ 48)%N).
  { rewrite (N.div_mod n (2 ^ 48)) at 1 by done. lia. }
  clear Hn Hs.
  generalize dependent (n mod 2 ^ 48)%N. generalize dependent (n / 2 ^ 48 mod 2 ^ 16)%N.
  generalize dependent (n / 2 ^ 64 mod 2 ^ 16)%N. generalize dependent (n / 2 ^ 80 mod 2 ^ 16)%N.
  generalize dependent (n / 2 ^ 96)%N. generalize dependent (n / 2 ^ 80)%N. 
  generalize dependent (n / 2 ^ 64)%N. generalize dependent (n / 2 ^ 48)%N.
  intros. 
  change (2 ^ 96)%N with (2 ^ 48 * 2 ^ 16 * 2 ^ 16 * 2 ^ 16)%N. change (2 ^ 80)%N with (2 ^ 48 * 2 ^ 16 * 2 ^ 16)%N.
  change (2 ^ 64)%N with (2 ^ 48 * 2 ^ 16)%N. generalize dependent (2 ^ 48)%N. generalize dependent (2 ^ 16)%N.
  intros. subst. lia.
Qed.

(** ** base64 *)
Lemma b64_char_val n : (n < 64)%N -> b64_val (b64_char n) = Some n /\ Ascii.eqb (b64_char n) pad = false.
Proof.
  intros H. assert (Hall : forallb (fun m => bool_decide (b64_val (b64_char (N.of_nat m)) = Some (N.of_nat m)) &&
     negb (Ascii.eqb (b64_char (N.of_nat m)) pad)) (seq 0 64) = true) by (vm_compute; reflexivity).
  rewrite forallb_forall in Hall. specialize (Hall (N.to_nat n)).
  rewrite N2Nat.id in Hall. apply andb_true_iff in Hall as [H1 H2].
  - split; [by apply bool_decide_eq_true in H1|by apply negb_true_iff in H2].
  - apply elem_of_list_In, elem_of_seq. lia.
Qed.
Lemma N_ascii c : ascii_of_N (N_of_ascii c) = c.
Proof. apply ascii_N_embedding. Qed.
Lemma N_ascii_lt c : (N_of_ascii c < 256)%N.
Proof. apply N_ascii_bounded. Qed.

Lemma b64_roundtrip s : b64_dec (b64_enc s) = Some s.
Proof.
  remember (String.length s) as n eqn:Hn. revert s Hn. induction n as [n IH] using lt_wf_ind. intros s ->.
  destruct s as [|a [|b [|c s]]].
  - done.
  - cbn [b64_enc]. pose proof (N_ascii_lt a). set (x := N_of_ascii a) in *.
    cbn [b64_dec]. destruct (b64_char_val (x / 4)) as [-> _]; [lia|].
    destruct (b64_char_val (x mod 4 * 16)) as [-> _]; [lia|]. cbn [mbind option_bind].
    change (Ascii.eqb pad pad) with true. cbn [andb]. rewrite String.eqb_refl. cbn [andb].
    replace ((x mod 4 * 16) mod 16 =? 0)%N with true by lia.
    do 2 f_equal. replace (x / 4 * 4 + x mod 4 * 16 / 16)%N with x by lia. apply N_ascii.
  - cbn [b64_enc]. pose proof (N_ascii_lt a). pose proof (N_ascii_lt b).
    set (x := N_of_ascii a) in *. set (y := N_of_ascii b) in *.
    cbn [b64_dec]. destruct (b64_char_val (x / 4)) as [-> _]; [lia|].
    destruct (b64_char_val (x mod 4 * 16 + y / 16)) as [-> _]; [lia|]. cbn [mbind option_bind].
    destruct (b64_char_val (y mod 16 * 4)) as [-> ->]; [lia|]. cbn [mbind option_bind].
    change (Ascii.eqb pad pad) with true. cbn iota. rewrite String.eqb_refl. cbn [andb].
    replace ((y mod 16 * 4) mod 4 =? 0)%N with true by lia.
    replace (x / 4 * 4 + (x mod 4 * 16 + y / 16) / 16)%N with x by lia.
    replace ((x mod 4 * 16 + y / 16) mod 16 * 16 + y mod 16 * 4 / 4)%N with y by lia.
    unfold x, y. by rewrite !N_ascii.
  - cbn [b64_enc]. pose proof (N_ascii_lt a). pose proof (N_ascii_lt b). pose proof (N_ascii_lt c).
    set (x := N_of_ascii a) in *. set (y := N_of_ascii b) in *. set (z := N_of_ascii c) in *.
    cbn [b64_dec]. destruct (b64_char_val (x / 4)) as [-> _]; [lia|].
    destruct (b64_char_val (x mod 4 * 16 + y / 16)) as [-> _]; [lia|]. cbn [mbind option_bind].
    destruct (b64_char_val (y mod 16 * 4 + z / 64)) as [-> ->]; [lia|]. cbn [mbind option_bind].
    destruct (b64_char_val (z mod 64)) as [-> ->]; [lia|]. cbn [mbind option_bind].
    rewrite (IH (String.length s)) by (cbn; lia || done). cbn [mbind option_bind].
    replace (x / 4 * 4 + (x mod 4 * 16 + y / 16) / 16)%N with x by lia.
    replace ((x mod 4 * 16 + y / 16) mod 16 * 16 + (y mod 16 * 4 + z / 64) / 4)%N with y by lia.
    replace ((y mod 16 * 4 + z / 64) mod 4 * 64 + z mod 64)%N with z by lia.
    unfold x, y, z. by rewrite !N_ascii.
Qed.

(** ** Pieces *)
Lemma as_N_j n : as_N (j_N n) = Some n.
Proof. unfold as_N, j_N. replace (Z.of_N n <? 0)%Z with false by lia. by rewrite N2Z.id. Qed.
Lemma as_uuid_j u : as_uuid (j_uuid u) = Some u.
Proof. apply uuid_roundtrip. Qed.
Lemma as_path_j p : clean_path p -> as_path (j_path p) = Some p.
Proof. intros H. unfold as_path, j_path. cbn. by rewrite path_roundtrip. Qed.

Lemma mapM_map {A C} (f : A -> json) (g : json -> option C) (h : A -> C) (l : list A) :
  (forall a, a ∈ l -> g (f a) = Some (h a)) -> mapM g (f <$> l) = Some (h <$> l).
Proof.
  induction l as [|a l IH]; intros H; [done|]. cbn. rewrite H by constructor. cbn.
  rewrite IH; [done|]. intros. apply H. by constructor.
Qed.
Lemma as_list_j {A C} (f : A -> json) (g : json -> option C) (h : A -> C) (l : list A) :
  (forall a, a ∈ l -> g (f a) = Some (h a)) -> as_list g (j_list f l) = Some (h <$> l).
Proof. apply mapM_map. Qed.
Lemma as_map_j {A C} (f : A -> json) (g : json -> option C) (h : A -> C) (m : gmap string A) :
  (forall k a, m !! k = Some a -> g (f a) = Some (h a)) -> as_map g (j_map f m) = Some (h <$> m).
Proof.
  intros H. unfold as_map, j_map. cbn [as_obj mbind option_bind].
  assert (E : mapM (fun kv : string * json => v ← g kv.2; Some (kv.1, v))
                ((fun kv : string * A => (kv.1, f kv.2)) <$> map_to_list m) =
              Some ((fun kv : string * A => (kv.1, h kv.2)) <$> map_to_list m)).
  { assert (Hl : forall k a, (k, a) ∈ map_to_list m -> g (f a) = Some (h a)).
    { intros k a Hk%elem_of_map_to_list. eauto. }
    clear H. induction (map_to_list m) as [|[k a] l IH]; [done|]. cbn.
    rewrite (Hl k a) by constructor. cbn. rewrite IH; [done|]. intros. eapply Hl. by constructor. }
  rewrite E. cbn [mbind option_bind]. f_equal.
  rewrite <- (list_to_map_to_list m) at 2. rewrite <- list_to_map_fmap.
  apply list_to_map_proper.
  - assert (Hn : NoDup (((fun kv : string * A => (kv.1, h kv.2)) <$> map_to_list m).*1)).
    { rewrite <- list_fmap_compose. apply (NoDup_fst_map_to_list m). }
    rewrite (fmap_Permutation fst _ _ (reverse_Permutation _)). exact Hn.
  - rewrite reverse_Permutation. done.
Qed.

Lemma as_opt_j {A} (f : A -> json) (g : json -> option A) (o : option A) :
  (forall a, f a <> JNull) -> (forall a, o = Some a -> g (f a) = Some a) ->
  as_opt g (j_opt f o) = Some o.
Proof.
  intros Hn H. destruct o as [a|]; [|done]. cbn [j_opt]. unfold as_opt.
  specialize (Hn a). rewrite (H a) by done. by destruct (f a).
Qed.

(** ** Structs *)
Definition clean_source (s : fetch_source) : Prop :=
  match s with SFile p => clean_path p | SUri _ _ => True end.
Lemma as_mode_j m : as_mode (j_mode m) = Some m.
Proof. by destruct m. Qed.
Lemma as_source_j s : clean_source s -> as_source (j_source s) = Some s.
Proof.
  destruct s as [p|u m]; intros H.
  - change (as_source (j_source (SFile p))) with (p ← as_path (j_path p); Some (SFile p)).
    by rewrite as_path_j.
  - change (as_source (j_source (SUri u m))) with (m' ← as_mode (j_mode m); Some (SUri u m')).
    by rewrite as_mode_j.
Qed.

Local Arguments as_mode : simpl never.
Local Arguments j_mode : simpl never.
Local Arguments as_source : simpl never.
Local Arguments j_source : simpl never.
Local Arguments as_fetch_map : simpl never.
Local Arguments j_fetch_map : simpl never.
Local Arguments as_fetcher : simpl never.
Local Arguments j_fetcher : simpl never.
Local Arguments as_tal : simpl never.
Local Arguments j_tal : simpl never.
Local Arguments as_object : simpl never.
Local Arguments j_object : simpl never.
Local Arguments as_repo_data : simpl never.
Local Arguments j_repo_data : simpl never.
Local Arguments as_visited : simpl never.
Local Arguments j_visited : simpl never.
Local Arguments as_validator : simpl never.
Local Arguments j_validator : simpl never.
Local Arguments as_notif_source : simpl never.
Local Arguments j_notif_source : simpl never.
Local Arguments as_mappings : simpl never.
Local Arguments j_mappings : simpl never.
Local Arguments as_snap : simpl never.
Local Arguments j_snap : simpl never.
Local Arguments as_delta : simpl never.
Local Arguments j_delta : simpl never.
Local Arguments as_dep : simpl never.
Local Arguments j_dep : simpl never.
Local Arguments as_rev : simpl never.
Local Arguments j_rev : simpl never.
Local Arguments as_old : simpl never.
Local Arguments j_old : simpl never.
Local Arguments as_uuid : simpl never.
Local Arguments j_uuid : simpl never.
Local Arguments as_path : simpl never.
Local Arguments j_path : simpl never.
Local Arguments as_N : simpl never.
Local Arguments j_N : simpl never.
Local Arguments as_list : simpl never.
Local Arguments j_list : simpl never.
Local Arguments as_map : simpl never.
Local Arguments j_map : simpl never.
Local Arguments as_opt : simpl never.
Local Arguments j_opt : simpl never.
Local Arguments b64_dec : simpl never.
Local Arguments b64_enc : simpl never.

Definition clean_fetch_map (m : fetch_map) : Prop := clean_source (fm_fetch m).
Lemma as_fetch_map_j m : clean_fetch_map m -> as_fetch_map (j_fetch_map m) = Some m.
Proof. intros H. unfold as_fetch_map, j_fetch_map. cbn. rewrite as_source_j by done. by destruct m. Qed.
Definition clean_fetcher (f : fetcher) : Prop :=
  match fe_map f with Some m => clean_fetch_map m | None => True end.
Lemma as_fetcher_j f : clean_fetcher f -> as_fetcher (j_fetcher f) = Some f.
Proof.
  intros H. unfold as_fetcher, j_fetcher. destruct f as [u m md]. unfold clean_fetcher in H. cbn in H |- *.
  unfold field_opt. cbn. rewrite as_opt_j; [|done|].
  - cbn. by rewrite as_mode_j.
  - intros a ->. by apply as_fetch_map_j.
Qed.
Definition clean_tal (t : tal) : Prop := clean_source (tl_source t).
Lemma as_tal_j t : clean_tal t -> as_tal (j_tal t) = Some t.
Proof. intros H. unfold as_tal, j_tal. cbn. rewrite as_source_j by done. by destruct t. Qed.
Lemma as_object_j b : as_object (j_object b) = Some b.
Proof. unfold as_object, j_object. cbn. apply b64_roundtrip. Qed.

(** what is not written: whether the repository was fetched in this run *)
Definition unfetched (d : repo_data) : repo_data :=
  mkRD (rd_etag d) (rd_last_fetch d) false (rd_session d) (rd_serial d) (rd_objects d).
Lemma as_repo_data_j d : as_repo_data (j_repo_data d) = Some (unfetched d).
Proof.
  unfold as_repo_data, j_repo_data. cbn. unfold field_opt. cbn. rewrite as_opt_j by done. cbn.
  rewrite as_uuid_j. cbn. rewrite as_N_j. cbn.
  rewrite (as_map_j _ _ id) by (intros; apply as_object_j). cbn. by rewrite map_fmap_id.
Qed.
Definition clean_visited (v : visited) : Prop := map_Forall (fun _ f => clean_fetcher f) (vi_fetchers v).
Definition norm_visited (v : visited) : visited := mkVisited (vi_fetchers v) (unfetched <$> vi_data v).
Lemma as_visited_j v : clean_visited v -> as_visited (j_visited v) = Some (norm_visited v).
Proof.
  intros H. unfold as_visited, j_visited. cbn.
  rewrite (as_map_j j_fetcher _ id) by (intros; apply as_fetcher_j; eapply H; eauto).
  cbn. rewrite (as_map_j _ _ unfetched) by (intros; apply as_repo_data_j). cbn.
  by rewrite map_fmap_id.
Qed.
Definition clean_validator (v : validator) : Prop :=
  Forall clean_tal (vd_tals v) /\ clean_visited (vd_repos v).
Definition norm_validator (v : validator) : validator := mkValidator (vd_tals v) (norm_visited (vd_repos v)).
Lemma as_validator_j v : clean_validator v -> as_validator (j_validator v) = Some (norm_validator v).
Proof.
  intros [H1 H2]. unfold as_validator, j_validator. cbn.
  rewrite (as_list_j _ _ id).
  2: { rewrite Forall_forall in H1. intros a Ha. by apply as_tal_j, H1. }
  cbn. rewrite as_visited_j by done. cbn. by rewrite list_fmap_id.
Qed.
Lemma as_snap_j s : as_snap (j_snap s) = Some s.
Proof. unfold as_snap, j_snap. cbn. rewrite as_uuid_j. cbn. rewrite as_N_j. cbn. by destruct s. Qed.
Lemma as_delta_j d : as_delta (j_delta d) = Some d.
Proof. unfold as_delta, j_delta. cbn. rewrite as_N_j. cbn. by destruct d. Qed.
Lemma as_dep_j d : clean_path (dp_path d) -> as_dep (j_dep d) = Some d.
Proof. intros H. unfold as_dep, j_dep. cbn. rewrite as_path_j by done. cbn. by destruct d. Qed.
Lemma as_notif_source_j s : as_notif_source (j_notif_source s) = Some s.
Proof.
  unfold as_notif_source, j_notif_source. cbn. unfold field_opt. cbn. rewrite as_opt_j by done.
  cbn. by destruct s.
Qed.
Lemma as_mappings_j m : clean_path (mp_dir m) -> as_mappings (j_mappings m) = Some m.
Proof. intros H. unfold as_mappings, j_mappings. cbn. rewrite as_path_j by done. cbn. by destruct m. Qed.

(** Every path in the state is absolute and made of file names. *)
Definition clean_state (s : rrdp_state) : Prop :=
  clean_path (mp_dir (st_map s)) /\
  Forall (fun d => clean_path (dp_path d)) (st_deprecated s) /\
  match st_validator s with Some v => clean_validator v | None => True end.
Definition norm_state (s : rrdp_state) : rrdp_state :=
  mkState (st_source s) (st_map s) (st_snap s) (st_deltas s) (st_deprecated s)
          (norm_validator <$> st_validator s).

Lemma as_state_j s : clean_state s -> as_state (j_state s) = Some (norm_state s).
Proof.
  intros (H1 & H2 & H3). unfold as_state, j_state. destruct s as [so m sn ds dp v]. cbn in H1, H2, H3.
  cbn [st_source st_map st_snap st_deltas st_deprecated st_validator].
  cbn. rewrite as_notif_source_j. cbn. rewrite as_mappings_j by done. cbn.
  unfold field_opt. cbn. rewrite as_opt_j by (done || intros; apply as_snap_j). cbn.
  rewrite (as_list_j j_delta _ id) by (intros; apply as_delta_j). cbn.
  rewrite (as_list_j j_dep _ id).
  2: { rewrite Forall_forall in H2. intros a Ha. by apply as_dep_j, H2. }
  cbn. rewrite !list_fmap_id. destruct v as [v|]; [|done].
  cbn. assert (E : as_opt as_validator (j_validator v) = Some (Some (norm_validator v))).
  { unfold as_opt. rewrite as_validator_j by done. done. }
  cbn in E. rewrite E. done.
Qed.
Lemma as_rev_j r : as_rev (j_rev r) = Some r.
Proof. unfold as_rev, j_rev. cbn. rewrite as_uuid_j. cbn. rewrite as_N_j. cbn. by destruct r. Qed.
Lemma as_old_j r : as_old (j_old r) = Some r.
Proof. unfold as_old, j_old. cbn. rewrite as_rev_j. cbn. by destruct r. Qed.
Lemma as_rsync_state_j s : as_rsync_state (j_rsync_state s) = Some s.
Proof.
  unfold as_rsync_state, j_rsync_state. cbn. unfold field_opt. cbn.
  rewrite as_opt_j by (done || intros; apply as_rev_j). cbn.
  rewrite (as_list_j _ _ id) by (intros; apply as_old_j). cbn. rewrite list_fmap_id. by destruct s.
Qed.

(** ** The texts *)
Lemma state_roundtrip s : clean_state s -> state_parse (state_text s) = Some (norm_state s).
Proof. intros H. unfold state_parse, state_text. rewrite json_roundtrip. cbn. by apply as_state_j. Qed.
Lemma state_prefix s t r : state_text s = t +:+ r -> r <> "" -> state_parse t = None.
Proof.
  intros H Hr. unfold state_parse. unfold state_text, j_state in H.
  by rewrite (json_prefix_rejected _ _ _ H Hr).
Qed.
Lemma rsync_state_roundtrip s : rsync_state_parse (rsync_state_text s) = Some s.
Proof.
  unfold rsync_state_parse, rsync_state_text. rewrite json_roundtrip. cbn. apply as_rsync_state_j.
Qed.
Lemma rsync_state_prefix s t r : rsync_state_text s = t +:+ r -> r <> "" -> rsync_state_parse t = None.
Proof.
  intros H Hr. unfold rsync_state_parse. unfold rsync_state_text, j_rsync_state in H.
  by rewrite (json_prefix_rejected _ _ _ H Hr).
Qed.
Lemma norm_state_idem s : norm_state (norm_state s) = norm_state s.
Proof.
  unfold norm_state. cbn. f_equal. destruct (st_validator s) as [v|]; [|done]. cbn. f_equal.
  unfold norm_validator, norm_visited. cbn. do 2 f_equal. apply map_eq. intros i.
  rewrite !lookup_fmap. by destruct (vi_data (vd_repos v) !! i).
Qed.
