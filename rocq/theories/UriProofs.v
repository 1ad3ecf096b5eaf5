(** * Directory names, object paths, URIs *)
From Coq Require Import ZifyN ZifyNat ZifyBool.
From Verif Require Export CodecProofs StringProofs Rsync.

Definition noslash (s : string) : Prop := split_on slash s = [s].

Lemma noslash_app s t : noslash s -> noslash t -> noslash (s +:+ t).
Proof.
  unfold noslash. intros H1 H2. destruct (split_on_app slash s t) as (l & c & E1 & E2).
  rewrite E2, H2. rewrite H1 in E1. destruct l as [|h l]; [|by destruct l]. by injection E1 as <-.
Qed.
Lemma noslash_char a : a <> slash -> noslash (String a "").
Proof. intros H. unfold noslash. cbn. apply Ascii.eqb_neq in H. by rewrite H. Qed.
Lemma noslash_cons a s : a <> slash -> noslash s -> noslash (String a s).
Proof. intros. by apply (noslash_app (String a "") s), H0; apply noslash_char. Qed.

Lemma hex_digit_noslash d : (d < 16)%N -> hex_digit d <> slash.
Proof.
  intros H. assert (d = 0 \/ d = 1 \/ d = 2 \/ d = 3 \/ d = 4 \/ d = 5 \/ d = 6 \/ d = 7 \/ d = 8 \/ d = 9 \/
    d = 10 \/ d = 11 \/ d = 12 \/ d = 13 \/ d = 14 \/ d = 15)%N as Hd by lia.
  repeat (destruct Hd as [->|Hd]; [done|]). by subst.
Qed.
Lemma hex_n_noslash k n : noslash (hex_n k n).
Proof.
  revert n. induction k as [|k IH]; intros n; cbn [hex_n]; [done|]. apply noslash_app; [apply IH|].
  apply noslash_char, hex_digit_noslash. apply N.mod_lt. lia.
Qed.
Lemma hex_n_length k n : String.length (hex_n k n) = k.
Proof. revert n. induction k as [|k IH]; intros n; cbn [hex_n]; [done|]. rewrite slen_app, IH. cbn. lia. Qed.
Lemma uuid_str_noslash u : noslash (uuid_str u).
Proof. unfold uuid_str. repeat (apply noslash_app; [apply hex_n_noslash || done|]). apply hex_n_noslash. Qed.
Lemma uuid_str_length u : String.length (uuid_str u) = 36.
Proof. unfold uuid_str. rewrite !slen_app, !hex_n_length. done. Qed.

Lemma pretty_N_go_noslash n s : noslash s -> noslash (pretty_N_go n s).
Proof.
  revert s. induction (N.lt_wf_0 n) as [n _ IH]; intros s Hs.
  assert (n = 0 \/ 0 < n)%N as [->|Hn] by lia.
  { by rewrite pretty_N_go_0. }
  rewrite pretty_N_go_step by done. apply IH; [by apply N.div_lt|].
  apply noslash_cons; [|done].
  assert (Hm : (n mod 10 < 10)%N) by (apply N.mod_lt; lia).
  generalize dependent (n mod 10)%N. intros d Hd.
  assert (d = 0 \/ d = 1 \/ d = 2 \/ d = 3 \/ d = 4 \/ d = 5 \/ d = 6 \/ d = 7 \/ d = 8 \/ d = 9)%N as H by lia.
  repeat (destruct H as [->|H]; [done|]). by subst.
Qed.
Lemma pretty_N_noslash (n : N) : noslash (pretty n).
Proof.
  unfold pretty, pretty_N. case_decide; [done|]. by apply pretty_N_go_noslash.
Qed.

Lemma sapp_inj_len a b c d : String.length a = String.length c -> a +:+ b = c +:+ d -> a = c /\ b = d.
Proof.
  revert c. induction a as [|x a IH]; intros [|y c] Hl; cbn in Hl; try done.
  rewrite !sapp_cons. intros H. injection H as -> H. apply IH in H as [-> ->]; [done|lia].
Qed.

Lemma dir_name_inj r r' : dir_name r = dir_name r' -> r = r'.
Proof.
  unfold dir_name. intros H%sapp_inv_head.
  apply sapp_inj_len in H as [H1 H2]; [|by rewrite !uuid_str_length].
  apply sapp_inv_head in H2. destruct r as [s n], r' as [s' n']. cbn in *. f_equal.
  - assert (Some s = Some s') as E by (by rewrite <- !uuid_roundtrip, H1). by injection E.
  - by apply (inj pretty) in H2.
Qed.
Lemma dir_name_file_name r : file_name (dir_name r).
Proof.
  split; [done|]. split; [done|]. split; [done|]. unfold dir_name.
  apply noslash_app; [done|]. apply noslash_app; [apply uuid_str_noslash|].
  apply noslash_app; [done|]. apply pretty_N_noslash.
Qed.
Lemma dir_name_not_current r : dir_name r <> "current" /\ dir_name r <> "current.tmp".
Proof. done. Qed.
Lemma rev_path_eq c r : rev_path c r = c_rsync_dir c ++ [dir_name r].
Proof. unfold rev_path. apply path_join_name, dir_name_file_name. Qed.
Lemma rsync_current_eq c : rsync_current c = c_rsync_dir c ++ ["current"].
Proof. unfold rsync_current. apply path_join_name. by repeat split. Qed.

(** ** Object paths *)
Definition clean_uri (u : rsync_uri) : Prop :=
  file_name (ru_auth u) /\ file_name (ru_module u) /\ clean_rel (ru_path u).

Lemma object_path_host out u : clean_uri u ->
  object_path true out u = out ++ ru_auth u :: ru_module u :: split_on slash (ru_path u).
Proof.
  intros (H1 & H2 & H3). unfold object_path.
  assert (Hs : split_on slash (ru_auth u +:+ "/" +:+ ru_module u +:+ "/" +:+ ru_path u) =
               ru_auth u :: ru_module u :: split_on slash (ru_path u)).
  { rewrite !sapp_cons, !sapp_nil_l. change "/"%char with slash. rewrite !split_on_sep.
    destruct H1 as (_ & _ & _ & ->), H2 as (_ & _ & _ & ->). done. }
  rewrite path_join_clean; [by rewrite Hs|]. unfold clean_rel. rewrite Hs.
  apply Forall_cons. split; [done|]. apply Forall_cons. done.
Qed.
Lemma object_path_nohost out u : clean_rel (ru_path u) ->
  object_path false out u = out ++ split_on slash (ru_path u).
Proof. intros H. unfold object_path. by apply path_join_clean. Qed.

Lemma object_path_inj_host out u u' : clean_uri u -> clean_uri u' ->
  object_path true out u = object_path true out u' -> u = u'.
Proof.
  intros H H'. rewrite !object_path_host by done. intros E%app_inv_head. injection E as E1 E2 E3.
  apply split_on_inj in E3. destruct u, u'; cbn in *; congruence.
Qed.
Lemma object_path_eq_nohost out u u' : clean_rel (ru_path u) -> clean_rel (ru_path u') ->
  object_path false out u = object_path false out u' <-> ru_path u = ru_path u'.
Proof.
  intros H H'. rewrite !object_path_nohost by done. split; [|by intros ->].
  intros E%app_inv_head. by apply split_on_inj in E.
Qed.

(** ** URIs under the base *)
Lemma https_parent_ends u b : https_parent u = Some b -> ends_with "/" b = true.
Proof.
  unfold https_parent. destruct (https_split u) as [[pre p]|]; [|done]. cbn.
  destruct (rsplit_once slash (chop_slash p)) as [[l r]|]; [|done]. cbn. intros H. injection H as <-.
  apply ends_with_spec. exists (pre +:+ l). by rewrite !sapp_assoc.
Qed.
Lemma https_join_base x base rel : ends_with "/" base = true ->
  https_join x base rel = if x_https_ok x (base +:+ rel) then Some (base +:+ rel) else None.
Proof. intros H. unfold https_join. rewrite H. by rewrite sapp_nil_l. Qed.
