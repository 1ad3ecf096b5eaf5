(** * Path text *)
From Verif Require Export Path JsonProofs.

(** A file name: not empty, without slash, neither [.] nor [..]. *)
Definition file_name (c : string) : Prop :=
  c <> "" /\ c <> "." /\ c <> ".." /\ split_on slash c = [c].
Global Instance file_name_dec c : Decision (file_name c).
Proof. unfold file_name. apply _. Defined.

(** A relative path made of file names. *)
Definition clean_rel (r : string) : Prop := Forall file_name (split_on slash r).
Definition clean_path (p : path) : Prop := Forall file_name p.

Lemma split_on_nonempty c s : split_on c s <> [].
Proof. destruct s as [|a s]; cbn; [done|]. destruct (Ascii.eqb a c); [done|]. by destruct (split_on c s). Qed.

Lemma split_on_single a (c s : string) : split_on a c = [c] ->
  split_on a (c +:+ String a s) = c :: split_on a s.
Proof.
  induction c as [|b c IH]; intros H.
  - rewrite sapp_nil_l. cbn. by rewrite Ascii.eqb_refl.
  - rewrite sapp_cons. cbn in *. destruct (Ascii.eqb b a); [done|].
    destruct (split_on a c) as [|h t] eqn:E; [by apply split_on_nonempty in E|].
    injection H as -> ->. rewrite IH by done. done.
Qed.

Lemma split_on_slash_tail (p : path) : Forall file_name p -> p <> [] ->
  split_on slash (path_tail_str p) = "" :: p.
Proof.
  induction p as [|c p IH]; [done|]. intros [Hc Hp]%Forall_cons _. cbn [path_tail_str].
  rewrite sapp_cons, sapp_nil_l.
  assert (E : forall s, split_on slash (String slash s) = "" :: split_on slash s) by done.
  change "/"%char with slash. rewrite E. f_equal. destruct p as [|c' p].
  - cbn [path_tail_str]. rewrite sapp_nil_r. apply Hc.
  - specialize (IH Hp ltac:(done)). cbn [path_tail_str] in *. rewrite sapp_cons, sapp_nil_l in *.
    change "/"%char with slash in *. rewrite E in IH. injection IH as IH.
    rewrite split_on_single by apply Hc. by rewrite IH.
Qed.

Lemma filter_clean (p : path) : Forall file_name p -> filter (fun c => c <> "" /\ c <> ".") p = p.
Proof.
  induction 1 as [|c p Hc Hp IH]; [done|]. rewrite filter_cons_True, IH; [done|].
  destruct Hc as (? & ? & _). done.
Qed.
Lemma foldl_push p q : Forall file_name q -> foldl push_comp p q = p ++ q.
Proof.
  intros H. revert p. induction H as [|c q Hc Hq IH]; intros p; cbn; [by rewrite app_nil_r|].
  rewrite IH. unfold push_comp. rewrite decide_False by apply Hc. by rewrite <- app_assoc.
Qed.

Lemma comps_clean r : clean_rel r -> comps r = split_on slash r.
Proof. intros H. unfold comps. by apply filter_clean. Qed.
Lemma clean_rel_noslash r : clean_rel r -> starts_with_slash r = false.
Proof.
  unfold clean_rel. destruct r as [|a r]; cbn; [done|]. destruct (Ascii.eqb a slash); [|done].
  intros [H _]%Forall_cons. destruct H as [H _]. done.
Qed.
Lemma path_join_clean p r : clean_rel r -> path_join p r = p ++ split_on slash r.
Proof.
  intros H. unfold path_join. rewrite clean_rel_noslash by done.
  rewrite comps_clean by done. by apply foldl_push.
Qed.
Lemma file_name_clean c : file_name c -> clean_rel c.
Proof. intros H. unfold clean_rel. destruct H as (H1 & H2 & H3 & H4). rewrite H4. by repeat constructor. Qed.
Lemma path_join_name p c : file_name c -> path_join p c = p ++ [c].
Proof.
  intros H. rewrite path_join_clean by by apply file_name_clean.
  destruct H as (H1 & H2 & H3 & ->). done.
Qed.

Theorem path_roundtrip p : clean_path p -> path_of (path_str p) = p.
Proof.
  intros H. unfold path_of, path_str. destruct p as [|c p]; [done|].
  unfold path_join. assert (starts_with_slash (path_tail_str (c :: p)) = true) as ->.
  { cbn [path_tail_str]. by rewrite sapp_cons. }
  unfold comps. rewrite split_on_slash_tail by done.
  rewrite filter_cons_False by (intros [? _]; done). rewrite filter_clean by done.
  by apply foldl_push.
Qed.

(** splitting is injective *)
Fixpoint join_with (a : ascii) (l : list string) : string :=
  match l with
  | [] => ""
  | [c] => c
  | c :: l' => c +:+ String a (join_with a l')
  end.
Lemma join_split a s : join_with a (split_on a s) = s.
Proof.
  induction s as [|b s IH]; [done|]. cbn [split_on]. destruct (Ascii.eqb b a) eqn:E.
  - apply Ascii.eqb_eq in E as ->. pose proof (split_on_nonempty a s). cbn [join_with].
    destruct (split_on a s) eqn:Es; [done|]. rewrite <- Es in *. rewrite IH. done.
  - pose proof (split_on_nonempty a s). destruct (split_on a s) as [|h t] eqn:Es; [done|].
    destruct t as [|h' t]; cbn [join_with] in *; [by rewrite <- IH|].
    rewrite sapp_cons. by rewrite IH.
Qed.
Lemma split_on_inj a s t : split_on a s = split_on a t -> s = t.
Proof. intros H. rewrite <- (join_split a s), H. apply join_split. Qed.

Lemma path_join_inj p r r' : clean_rel r -> clean_rel r' -> path_join p r = path_join p r' -> r = r'.
Proof.
  intros H H'. rewrite !path_join_clean by done. intros E%app_inv_head. by eapply split_on_inj.
Qed.
