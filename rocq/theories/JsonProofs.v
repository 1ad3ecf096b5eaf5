(** * JSON: what is written is read back, and no strict prefix is accepted *)
From Verif Require Export Json.

(** ** Strings *)
Lemma sapp_cons a s t : String a s +:+ t = String a (s +:+ t).
Proof. reflexivity. Qed.
Lemma sapp_nil_l s : "" +:+ s = s.
Proof. reflexivity. Qed.
Lemma sapp_nil_r s : s +:+ "" = s.
Proof. induction s as [|a s IH]; [done|]. by rewrite sapp_cons, IH. Qed.
Lemma sapp_assoc s t u : (s +:+ t) +:+ u = s +:+ (t +:+ u).
Proof. induction s as [|a s IH]; [done|]. by rewrite !sapp_cons, IH. Qed.
Lemma slen_app s t : String.length (s +:+ t) = String.length s + String.length t.
Proof. induction s as [|a s IH]; [done|]. rewrite sapp_cons. cbn. by rewrite IH. Qed.
Lemma sapp_inv_head s t u : s +:+ t = s +:+ u -> t = u.
Proof. induction s as [|a s IH]; [done|]. rewrite !sapp_cons. intros H. injection H. auto. Qed.
Lemma sapp_eq_nil s t : s +:+ t = "" -> s = "" /\ t = "".
Proof. destruct s; [done|]. rewrite sapp_cons. done. Qed.

(** ** Characters *)
Lemma ascii_cases (P : ascii -> Prop) :
  (forall n, (n < 256)%nat -> P (ascii_of_nat n)) -> forall c, P c.
Proof. intros H c. rewrite <- (ascii_nat_embedding c). apply H. apply nat_ascii_bounded. Qed.
Lemma all_ascii (p : ascii -> bool) :
  forallb p (ascii_of_nat <$> seq 0 256) = true -> forall c, p c = true.
Proof.
  intros H c. rewrite forallb_forall in H. apply H. apply elem_of_list_In, elem_of_list_fmap.
  exists (nat_of_ascii c). split; [by rewrite ascii_nat_embedding|].
  apply elem_of_seq. pose proof (nat_ascii_bounded c). lia.
Qed.

(** ** String bodies *)
Lemma read_str_esc_char' c s :
  read_str (esc_char c +:+ s) = match read_str s with Some (r, t) => Some (String c r, t) | None => None end.
Proof.
  destruct c as [b0 b1 b2 b3 b4 b5 b6 b7].
  destruct b7, b6, b5, b4, b3, b2, b1, b0; reflexivity.
Qed.
Lemma read_str_esc_char c s r t :
  read_str s = Some (r, t) -> read_str (esc_char c +:+ s) = Some (String c r, t).
Proof. intros H. by rewrite read_str_esc_char', H. Qed.
Lemma read_str_esc s t : read_str (esc s +:+ String dq t) = Some (s, t).
Proof.
  induction s as [|c s IH]; [reflexivity|]. cbn [esc]. rewrite sapp_assoc.
  by apply read_str_esc_char.
Qed.

(** ** Numbers *)
Definition no_digit (s : string) : Prop :=
  match s with String c _ => digit_val c = None | EmptyString => True end.

Lemma read_digits_stop acc s : no_digit s -> read_digits acc s = (acc, s).
Proof. destruct s as [|c s]; [done|]. cbn. by intros ->. Qed.

Lemma pretty_N_char_val n : (n < 10)%N -> digit_val (pretty_N_char n) = Some n.
Proof.
  intros H. assert (n = 0 \/ n = 1 \/ n = 2 \/ n = 3 \/ n = 4 \/ n = 5 \/ n = 6 \/ n = 7 \/ n = 8 \/ n = 9)%N as Hn by lia.
  repeat (destruct Hn as [->|Hn]; [reflexivity|]). subst. reflexivity.
Qed.

Lemma pretty_N_go_app x s t : pretty_N_go x s +:+ t = pretty_N_go x (s +:+ t).
Proof.
  revert s. induction (N.lt_wf_0 x) as [x _ IH]. intros s.
  destruct (decide (x = 0%N)) as [->|Hx]; [by rewrite !pretty_N_go_0|].
  rewrite !(pretty_N_go_step x) by lia. rewrite IH by (apply N.div_lt; lia). done.
Qed.

Lemma read_digits_go x s : read_digits 0 (pretty_N_go x s) = read_digits x s.
Proof.
  revert s. induction (N.lt_wf_0 x) as [x _ IH]. intros s.
  destruct (decide (x = 0%N)) as [->|Hx]; [by rewrite pretty_N_go_0|].
  rewrite (pretty_N_go_step x) by lia. rewrite IH by (apply N.div_lt; lia).
  cbn [read_digits]. rewrite pretty_N_char_val by (apply N.mod_lt; lia).
  f_equal. pose proof (N.div_mod x 10). lia.
Qed.

(** the first character of a non-zero number is not 0 *)
Lemma pretty_N_go_head x s : (0 < x)%N -> exists c d s',
  pretty_N_go x s = String c s' /\ digit_val c = Some d /\ d <> 0%N.
Proof.
  revert s. induction (N.lt_wf_0 x) as [x _ IH]. intros s Hx.
  rewrite (pretty_N_go_step x) by lia.
  destruct (decide (x < 10)%N) as [Hlt|Hge].
  - rewrite N.div_small, pretty_N_go_0 by done. do 3 eexists. split; [done|].
    rewrite N.mod_small by done. rewrite pretty_N_char_val by done. split; [done|lia].
  - apply IH; [apply N.div_lt; lia|]. apply N.div_str_pos. lia.
Qed.

Lemma read_N_pretty x t : no_digit t -> read_N (pretty x +:+ t) = Some (x, t).
Proof.
  intros Ht. unfold pretty, pretty_N. case_decide as Hx.
  - subst x.
    change (read_N ("0" +:+ t)) with
      (match t with
       | String c' _ => match digit_val c' with Some _ => None | None => Some (0%N, t) end
       | EmptyString => Some (0%N, t) end).
    destruct t as [|c t]; [done|]. cbn in Ht. by rewrite Ht.
  - rewrite pretty_N_go_app. destruct (pretty_N_go_head x ("" +:+ t)) as (c & d & s' & E & Hc & Hd); [lia|].
    pose proof (read_digits_go x ("" +:+ t)) as HR. rewrite E in *. cbn [read_N]. rewrite Hc.
    cbn [read_digits] in HR. rewrite Hc in HR. rewrite N.mul_0_l, N.add_0_l in HR.
    rewrite (read_digits_stop x) in HR by done.
    destruct d; [done|]. by rewrite HR.
Qed.

Lemma pretty_N_head (x : N) : exists c s, pretty x = String c s /\ exists d, digit_val c = Some d.
Proof.
  unfold pretty, pretty_N. case_decide as Hx.
  - do 2 eexists. split; [done|]. by eexists.
  - destruct (pretty_N_go_head x "") as (c & d & s' & E & Hc & _); [lia|]. eauto 6.
Qed.

(** ** White space *)
Global Arguments is_ws : simpl never.
Ltac ws :=
  repeat match goal with
  | |- context [is_ws (Ascii ?a ?b ?c ?d ?e ?f ?g ?h)] =>
      let v := eval vm_compute in (is_ws (Ascii a b c d e f g h)) in
      change (is_ws (Ascii a b c d e f g h)) with v; cbn iota
  end.

Lemma skip_ws_spaces n s : skip_ws (spaces n +:+ s) = skip_ws s.
Proof. induction n as [|n IH]; [done|]. cbn [spaces]. rewrite sapp_assoc, !sapp_cons. cbn [skip_ws]. ws. apply IH. Qed.
Lemma skip_ws_nlsp n s : skip_ws (nlsp n +:+ s) = skip_ws s.
Proof. unfold nlsp. rewrite sapp_cons. cbn [skip_ws]. unfold nl. ws. apply skip_ws_spaces. Qed.
Lemma skip_ws_idem s : skip_ws (skip_ws s) = skip_ws s.
Proof. induction s as [|c s IH]; [done|]. cbn. destruct (is_ws c) eqn:E; [done|]. cbn. by rewrite E. Qed.

Lemma read_value_ws k s : read_value k (skip_ws s) = read_value k s.
Proof. destruct k; [done|]. cbn. by rewrite skip_ws_idem. Qed.
Lemma read_value_nlsp k n s : read_value k (nlsp n +:+ s) = read_value k s.
Proof. rewrite <- read_value_ws, skip_ws_nlsp. apply read_value_ws. Qed.
Lemma read_member_ws k s : read_member k (skip_ws s) = read_member k s.
Proof. destruct k; [done|]. cbn. by rewrite skip_ws_idem. Qed.
Lemma read_member_nlsp k n s : read_member k (nlsp n +:+ s) = read_member k s.
Proof. rewrite <- read_member_ws, skip_ws_nlsp. apply read_member_ws. Qed.
Lemma read_value_space k s : read_value k (" " +:+ s) = read_value k s.
Proof. rewrite <- read_value_ws. symmetry. rewrite <- read_value_ws. done. Qed.

(** ** Fuel needed *)
Fixpoint need (j : json) : nat :=
  match j with
  | JNull | JBool _ | JNum _ | JStr _ => 1
  | JArr l => S ((fix go (l : list json) : nat :=
                    match l with [] => 1 | j' :: l' => S (Nat.max (need j') (go l')) end) l)
  | JObj l => S ((fix go (l : list (string * json)) : nat :=
                    match l with [] => 1 | (_, j') :: l' => S (Nat.max (S (need j')) (go l')) end) l)
  end.
Fixpoint need_items (l : list json) : nat :=
  match l with [] => 1 | j' :: l' => S (Nat.max (need j') (need_items l')) end.
Fixpoint need_members (l : list (string * json)) : nat :=
  match l with [] => 1 | (_, j') :: l' => S (Nat.max (S (need j')) (need_members l')) end.

Definition print_items (lvl : nat) : list json -> string :=
  fix go (l : list json) : string :=
  match l with
  | [] => nlsp lvl +:+ "]"
  | j' :: l' => "," +:+ nlsp (S lvl) +:+ print (S lvl) j' +:+ go l'
  end.
Definition print_members (lvl : nat) : list (string * json) -> string :=
  fix go (l : list (string * json)) : string :=
  match l with
  | [] => nlsp lvl +:+ "}"
  | (k', j') :: l' =>
      "," +:+ nlsp (S lvl) +:+ quote k' +:+ ": " +:+ print (S lvl) j' +:+ go l'
  end.
Lemma print_arr lvl j l :
  print lvl (JArr (j :: l)) = "[" +:+ nlsp (S lvl) +:+ print (S lvl) j +:+ print_items lvl l.
Proof. reflexivity. Qed.
Lemma print_obj lvl k j l :
  print lvl (JObj ((k, j) :: l)) =
  "{" +:+ nlsp (S lvl) +:+ quote k +:+ ": " +:+ print (S lvl) j +:+ print_members lvl l.
Proof. reflexivity. Qed.

(** induction over nested documents *)
Section ind.
  Context (P : json -> Prop).
  Context (H1 : P JNull) (H2 : forall b, P (JBool b)) (H3 : forall z, P (JNum z)) (H4 : forall s, P (JStr s)).
  Context (H5 : forall l, Forall P l -> P (JArr l)) (H6 : forall l, Forall (fun kv => P kv.2) l -> P (JObj l)).
  Fixpoint json_ind' (j : json) : P j :=
    match j with
    | JNull => H1 | JBool b => H2 b | JNum z => H3 z | JStr s => H4 s
    | JArr l => H5 l ((fix go (l : list json) : Forall P l :=
        match l with [] => Forall_nil_2 _ | j' :: l' => Forall_cons_2 _ _ _ (json_ind' j') (go l') end) l)
    | JObj l => H6 l ((fix go (l : list (string * json)) : Forall (fun kv => P kv.2) l :=
        match l with [] => Forall_nil_2 _ | kv :: l' => Forall_cons_2 _ _ _ (json_ind' kv.2) (go l') end) l)
    end.
End ind.

(** ** First characters *)
Definition value_head (s : string) : Prop :=
  match s with
  | String c _ => is_ws c = false /\ Ascii.eqb c "]" = false /\ Ascii.eqb c "}" = false
  | EmptyString => False
  end.
Lemma digit_head c d : digit_val c = Some d ->
  is_ws c = false /\ Ascii.eqb c "]" = false /\ Ascii.eqb c "}" = false /\ Ascii.eqb c dq = false /\
  Ascii.eqb c "[" = false /\ Ascii.eqb c "{" = false /\ Ascii.eqb c "-" = false /\
  Ascii.eqb c "n" = false /\ Ascii.eqb c "t" = false /\ Ascii.eqb c "f" = false.
Proof.
  destruct c as [b0 b1 b2 b3 b4 b5 b6 b7].
  destruct b7, b6, b5, b4, b3, b2, b1, b0; intros H; try discriminate H; repeat split; reflexivity.
Qed.
Lemma print_head lvl j : value_head (print lvl j).
Proof.
  destruct j as [|[]|z|s|[|j l]|[|[k j] l]]; try done.
  destruct z as [|p|p]; cbn [print]; [done| |done]. change (pretty (Zpos p)) with (pretty (Npos p)).
  destruct (pretty_N_head (Npos p)) as (c & s & E & d & Hd). rewrite E.
  apply digit_head in Hd. cbn. tauto.
Qed.

Lemma skip_ws_head s t : value_head s -> skip_ws (s +:+ t) = s +:+ t.
Proof. destruct s as [|c s]; [done|]. intros (H & _). rewrite sapp_cons. cbn. by rewrite H. Qed.

Lemma no_digit_nlsp n s : no_digit (nlsp n +:+ s).
Proof. done. Qed.

Lemma read_value_N k n t : no_digit t -> read_value (S k) (pretty n +:+ t) = Some (JNum (Z.of_N n), t).
Proof.
  intros Ht. pose proof (read_N_pretty n t Ht) as H.
  destruct (pretty_N_head n) as (c & s & E & d & Hd). rewrite E in *.
  apply digit_head in Hd as (X1 & X2 & X3 & X4 & X5 & X6 & X7 & X8 & X9 & X10).
  rewrite sapp_cons in *. cbn -[read_N strip_prefix]. rewrite X1. rewrite X4, X5, X6, X7.
  cbn [strip_prefix]. rewrite !(Ascii.eqb_sym _ c), X8, X9, X10. by rewrite H.
Qed.
Lemma read_value_num k z t : no_digit t -> read_value (S k) (pretty z +:+ t) = Some (JNum z, t).
Proof.
  intros Ht. destruct z as [|p|p].
  - change (pretty 0%Z) with (pretty 0%N). by apply read_value_N.
  - change (pretty (Zpos p)) with (pretty (Npos p)). by apply read_value_N.
  - change (pretty (Zneg p)) with ("-" +:+ pretty (Npos p)). rewrite !sapp_cons, sapp_nil_l.
    cbn -[read_N]. ws. rewrite read_N_pretty by done. done.
Qed.

(** ** Reading back *)
Lemma rv_str k s : read_value (S k) (String dq s) =
  match read_str s with Some (r, t) => Some (JStr r, t) | None => None end.
Proof. reflexivity. Qed.
Lemma rv_arr k s c s' : skip_ws s = String c s' -> Ascii.eqb c "]" = false ->
  read_value (S k) (String "[" s) =
  match read_value k s with
  | Some (j, t1) => match read_items k t1 with Some (l, t2) => Some (JArr (j :: l), t2) | None => None end
  | None => None
  end.
Proof. intros H1 H2. cbn [read_value]. cbn [skip_ws]. ws. rewrite H1, H2. reflexivity. Qed.
Lemma rv_obj k s c s' : skip_ws s = String c s' -> Ascii.eqb c "}" = false ->
  read_value (S k) (String "{" s) =
  match read_member k s with
  | Some (j, t1) => match read_members k t1 with Some (l, t2) => Some (JObj (j :: l), t2) | None => None end
  | None => None
  end.
Proof. intros H1 H2. cbn [read_value]. cbn [skip_ws]. ws. rewrite H1, H2. reflexivity. Qed.
Lemma ri_close k n t : read_items (S k) (nlsp n +:+ String "]" t) = Some ([], t).
Proof. cbn [read_items]. rewrite skip_ws_nlsp. reflexivity. Qed.
Lemma ri_comma k s : read_items (S k) (String "," s) =
  match read_value k s with
  | Some (j, t1) => match read_items k t1 with Some (l, t2) => Some (j :: l, t2) | None => None end
  | None => None
  end.
Proof. reflexivity. Qed.
Lemma rms_close k n t : read_members (S k) (nlsp n +:+ String "}" t) = Some ([], t).
Proof. cbn [read_members]. rewrite skip_ws_nlsp. reflexivity. Qed.
Lemma rms_comma k s : read_members (S k) (String "," s) =
  match read_member k s with
  | Some (j, t1) => match read_members k t1 with Some (l, t2) => Some (j :: l, t2) | None => None end
  | None => None
  end.
Proof. reflexivity. Qed.
Lemma rm_key k key s : read_member (S k) (quote key +:+ String ":" s) =
  match read_value k s with Some (j, t2) => Some ((key, j), t2) | None => None end.
Proof.
  unfold quote. rewrite sapp_cons, sapp_assoc, sapp_cons, sapp_nil_l.
  cbn [read_member]. cbn [skip_ws]. unfold dq at 1. ws. rewrite read_str_esc. reflexivity.
Qed.

Lemma read_print j : forall lvl k t, need j <= k -> no_digit t ->
  read_value k (print lvl j +:+ t) = Some (j, t).
Proof.
  induction j as [|b|z|s|l IH|l IH] using json_ind'; intros lvl k t Hk Ht; (destruct k as [|k]; [cbn in Hk; lia|]).
  - done.
  - by destruct b.
  - by apply read_value_num.
  - cbn [print]. unfold quote. rewrite sapp_cons, rv_str, sapp_assoc, sapp_cons, sapp_nil_l.
    by rewrite read_str_esc.
  - destruct l as [|j l]; [done|]. rewrite print_arr.
    change (need (JArr (j :: l))) with (S (need_items (j :: l))) in Hk. cbn [need_items] in Hk.
    apply Forall_cons in IH as [IHj IHl].
    assert (Hitems : forall k', need_items l <= k' -> read_items k' (print_items lvl l +:+ t) = Some (l, t)).
    { clear -IHl Ht. induction l as [|j l IH]; intros k' Hk'; (destruct k' as [|k']; [cbn in Hk'; lia|]).
      - cbn [print_items]. rewrite sapp_assoc. apply ri_close.
      - apply Forall_cons in IHl as [IHj IHl]. cbn [need_items] in Hk'.
        cbn [print_items]. rewrite !sapp_assoc, sapp_cons, sapp_nil_l.
        rewrite ri_comma, read_value_nlsp. rewrite IHj; [|lia|].
        + rewrite IH; [done|done|lia].
        + by destruct l as [|]. }
    rewrite !sapp_assoc, sapp_cons, sapp_nil_l.
    pose proof (print_head (S lvl) j) as Hh. destruct (print (S lvl) j) as [|c s] eqn:E; [done|].
    rewrite (rv_arr _ _ c (s +:+ print_items lvl l +:+ t)).
    + rewrite read_value_nlsp, <- E. rewrite IHj; [|lia|].
      * rewrite Hitems; [done|lia].
      * by destruct l.
    + rewrite skip_ws_nlsp, skip_ws_head by done. done.
    + apply Hh.
  - destruct l as [|[key j] l]; [done|]. rewrite print_obj.
    change (need (JObj ((key, j) :: l))) with (S (need_members ((key, j) :: l))) in Hk. cbn [need_members] in Hk.
    apply Forall_cons in IH as [IHj IHl]. cbn in IHj.
    assert (Hmember : forall key j k' t, (forall lvl k t, need j <= k -> no_digit t ->
               read_value k (print lvl j +:+ t) = Some (j, t)) -> S (need j) <= k' -> no_digit t ->
               read_member k' (quote key +:+ ": " +:+ print (S lvl) j +:+ t) = Some ((key, j), t)).
    { clear. intros key j k' t IHj Hk' Ht. destruct k' as [|k']; [lia|].
      rewrite (sapp_cons ":"), rm_key, read_value_space. rewrite IHj; [done|lia|done]. }
    assert (Hmem : forall k', need_members l <= k' -> read_members k' (print_members lvl l +:+ t) = Some (l, t)).
    { clear -IHl Ht Hmember. induction l as [|[key j] l IH]; intros k' Hk'; (destruct k' as [|k']; [cbn in Hk'; lia|]).
      - cbn [print_members]. rewrite sapp_assoc. apply rms_close.
      - apply Forall_cons in IHl as [IHj IHl]. cbn [need_members] in Hk'. cbn in IHj.
        cbn [print_members]. rewrite !sapp_assoc, (sapp_cons ","), sapp_nil_l.
        rewrite rms_comma, read_member_nlsp. rewrite Hmember; [|done|lia|].
        + rewrite IH; [done|done|lia].
        + by destruct l as [|[]]. }
    rewrite !sapp_assoc, (sapp_cons "{"), sapp_nil_l.
    erewrite rv_obj.
    + rewrite read_member_nlsp. rewrite Hmember; [|done|lia|].
      * rewrite Hmem; [done|lia].
      * by destruct l as [|[]].
    + rewrite skip_ws_nlsp. unfold quote. rewrite sapp_cons. reflexivity.
    + done.
Qed.

Lemma need_len j : forall lvl, need j + 1 <= 2 * String.length (print lvl j).
Proof.
  induction j as [|b|z|s|l IH|l IH] using json_ind'; intros lvl.
  - cbn. lia.
  - destruct b; cbn; lia.
  - pose proof (print_head lvl (JNum z)) as H. destruct (print lvl (JNum z)) as [|c s]; [done|]. cbn. lia.
  - cbn -[Nat.mul String.append]. lia.
  - destruct l as [|j l]; [cbn; lia|]. rewrite print_arr.
    change (need (JArr (j :: l))) with (S (need_items (j :: l))). cbn [need_items].
    apply Forall_cons in IH as [IHj IHl].
    assert (Hi : need_items l <= 2 * String.length (print_items lvl l)).
    { clear -IHl. induction l as [|j l IH]; cbn [need_items print_items].
      - rewrite slen_app. cbn. lia.
      - apply Forall_cons in IHl as [IHj IHl]. specialize (IH IHl). specialize (IHj (S lvl)).
        rewrite !slen_app. cbn -[Nat.mul nlsp print]. lia. }
    specialize (IHj (S lvl)). rewrite !slen_app. cbn -[Nat.mul nlsp print]. lia.
  - destruct l as [|[key j] l]; [cbn; lia|]. rewrite print_obj.
    change (need (JObj ((key, j) :: l))) with (S (need_members ((key, j) :: l))). cbn [need_members].
    apply Forall_cons in IH as [IHj IHl]. cbn in IHj.
    assert (Hi : need_members l <= 2 * String.length (print_members lvl l)).
    { clear -IHl. induction l as [|[key j] l IH]; cbn [need_members print_members].
      - rewrite slen_app. cbn. lia.
      - apply Forall_cons in IHl as [IHj IHl]. specialize (IH IHl). specialize (IHj (S lvl)). cbn in IHj.
        rewrite !slen_app. cbn -[Nat.mul nlsp print quote]. lia. }
    specialize (IHj (S lvl)). rewrite !slen_app. cbn -[Nat.mul nlsp print quote]. lia.
Qed.

Theorem json_roundtrip j : json_parse (json_text j) = Some j.
Proof.
  unfold json_parse, json_text. pose proof (read_print j 0 (2 * String.length (print 0 j) + 4) "") as H.
  rewrite sapp_nil_r in H. rewrite H; [done| |done]. pose proof (need_len j 0). lia.
Qed.

(** ** Prefixes *)
Lemma fuel_mono k :
  (forall s x k', read_value k s = Some x -> k <= k' -> read_value k' s = Some x) /\
  (forall s x k', read_items k s = Some x -> k <= k' -> read_items k' s = Some x) /\
  (forall s x k', read_member k s = Some x -> k <= k' -> read_member k' s = Some x) /\
  (forall s x k', read_members k s = Some x -> k <= k' -> read_members k' s = Some x).
Proof.
  induction k as [|k (IH1 & IH2 & IH3 & IH4)]; [done|].
  repeat split; intros s x k' H Hk; (destruct k' as [|k']; [lia|]); apply le_S_n in Hk.
  - cbn -[strip_prefix read_N] in *. destruct (skip_ws s) as [|c s1]; [done|].
    destruct (Ascii.eqb c dq); [done|]. destruct (Ascii.eqb c "[").
    { destruct (skip_ws s1) as [|c' t]; [done|]. destruct (Ascii.eqb c' "]"); [done|].
      destruct (read_value k s1) as [[j t1]|] eqn:E1; [|done].
      destruct (read_items k t1) as [[l t2]|] eqn:E2; [|done].
      by rewrite (IH1 _ _ k' E1), (IH2 _ _ k' E2). }
    destruct (Ascii.eqb c "{").
    { destruct (skip_ws s1) as [|c' t]; [done|]. destruct (Ascii.eqb c' "}"); [done|].
      destruct (read_member k s1) as [[j t1]|] eqn:E1; [|done].
      destruct (read_members k t1) as [[l t2]|] eqn:E2; [|done].
      by rewrite (IH3 _ _ k' E1), (IH4 _ _ k' E2). }
    done.
  - cbn in *. destruct (skip_ws s) as [|c s1]; [done|]. destruct (Ascii.eqb c "]"); [done|].
    destruct (Ascii.eqb c ","); [|done].
    destruct (read_value k s1) as [[j t1]|] eqn:E1; [|done].
    destruct (read_items k t1) as [[l t2]|] eqn:E2; [|done].
    by rewrite (IH1 _ _ k' E1), (IH2 _ _ k' E2).
  - cbn in *. destruct (skip_ws s) as [|c s1]; [done|]. destruct (Ascii.eqb c dq); [|done].
    destruct (read_str s1) as [[key t]|]; [|done]. destruct (skip_ws t) as [|c' t1]; [done|].
    destruct (Ascii.eqb c' ":"); [|done].
    destruct (read_value k t1) as [[j t2]|] eqn:E1; [|done]. by rewrite (IH1 _ _ k' E1).
  - cbn in *. destruct (skip_ws s) as [|c s1]; [done|]. destruct (Ascii.eqb c "}"); [done|].
    destruct (Ascii.eqb c ","); [|done].
    destruct (read_member k s1) as [[j t1]|] eqn:E1; [|done].
    destruct (read_members k t1) as [[l t2]|] eqn:E2; [|done].
    by rewrite (IH3 _ _ k' E1), (IH4 _ _ k' E2).
Qed.

Lemma skip_ws_app s r : skip_ws s <> "" -> skip_ws (s +:+ r) = skip_ws s +:+ r.
Proof.
  induction s as [|c s IH]; [done|]. rewrite sapp_cons. cbn. destruct (is_ws c); [auto|]. done.
Qed.
Lemma read_str_app s r x t : read_str s = Some (x, t) -> read_str (s +:+ r) = Some (x, t +:+ r).
Proof.
  remember (String.length s) as n eqn:Hn. revert s Hn x t. induction n as [n IH] using lt_wf_ind.
  intros s -> x t H. destruct s as [|c s1]; [done|]. rewrite sapp_cons. cbn -[String.append] in *.
  assert (IH' : forall s0 x t, String.length s0 < S (String.length s1) -> read_str s0 = Some (x, t) ->
                 read_str (s0 +:+ r) = Some (x, t +:+ r)) by (intros; eapply IH; eauto).
  clear IH. destruct (Ascii.eqb c dq); [by injection H as <- <-|].
  destruct (Ascii.eqb c bslash).
  - destruct s1 as [|e s2]; [done|]. rewrite sapp_cons. cbn -[String.append] in IH'.
    assert (Hlit : forall c', match read_str s2 with Some (r0, t0) => Some (String c' r0, t0) | None => None end = Some (x, t) ->
                   match read_str (s2 +:+ r) with Some (r0, t0) => Some (String c' r0, t0) | None => None end = Some (x, t +:+ r)).
    { intros c' H'. destruct (read_str s2) as [[r0 t0]|] eqn:E; [|done]. injection H' as <- <-.
      rewrite (IH' s2 r0 t0); [done|lia|done]. }
    repeat match goal with |- context [if Ascii.eqb e ?q then _ else _] => destruct (Ascii.eqb e q); [by auto|] end.
    + destruct (Ascii.eqb e "u"); [|done].
      destruct s2 as [|h1 [|h2 [|h3 [|h4 s3]]]]; try done. rewrite !sapp_cons.
      destruct (hex_val h1); [|done]. destruct (hex_val h2); [|done].
      destruct (hex_val h3); [|done]. destruct (hex_val h4); [|done].
      destruct (_ && _ && _); [|done]. cbn -[String.append] in IH'.
      destruct (read_str s3) as [[r0 t0]|] eqn:E; [|done]. injection H as <- <-.
      rewrite (IH' s3 r0 t0); [done|lia|done].
  - destruct (N_of_ascii c <? 32)%N; [done|].
    destruct (read_str s1) as [[r0 t0]|] eqn:E; [|done]. injection H as <- <-.
    rewrite (IH' s1 r0 t0); [done|lia|done].
Qed.
Lemma strip_prefix_app p s r t : strip_prefix p s = Some t -> strip_prefix p (s +:+ r) = Some (t +:+ r).
Proof.
  revert s. induction p as [|a p IH]; intros s; cbn -[String.append].
  - intros H. by injection H as <-.
  - destruct s as [|b s]; [done|]. rewrite sapp_cons. destruct (Ascii.eqb a b); auto. done.
Qed.
(** a failed match against a string that is not a prefix of the pattern stays failed *)
Lemma read_digits_app acc s r n t : read_digits acc s = (n, t) -> t <> "" -> read_digits acc (s +:+ r) = (n, t +:+ r).
Proof.
  revert acc. induction s as [|c s IH]; intros acc; cbn -[String.append].
  - intros H. by injection H as _ <-.
  - rewrite sapp_cons. cbn -[String.append]. destruct (digit_val c); [auto|]. intros H _. by injection H as <- <-.
Qed.
Lemma read_N_app s r n t : read_N s = Some (n, t) -> t <> "" -> read_N (s +:+ r) = Some (n, t +:+ r).
Proof.
  destruct s as [|c s]; [done|]. rewrite sapp_cons. cbn -[String.append].
  destruct (digit_val c) as [[|d]|]; [| |done].
  - destruct s as [|c' s]; [intros H; by injection H as _ <-|]. rewrite sapp_cons.
    destruct (digit_val c'); [done|]. intros H _. by injection H as <- <-.
  - intros H Ht. injection H as H. f_equal. by apply read_digits_app.
Qed.
Lemma strip_prefix_digit p s r n t :
  strip_prefix p s = None -> read_N s = Some (n, t) ->
  (match p with String a _ => digit_val a = None | _ => False end) -> strip_prefix p (s +:+ r) = None.
Proof.
  destruct p as [|a p]; [done|]. destruct s as [|c s]; [done|]. rewrite sapp_cons. cbn -[String.append].
  intros _ H Ha. destruct (Ascii.eqb a c) eqn:E; [|done]. apply Ascii.eqb_eq in E as ->. by rewrite Ha in H.
Qed.

Definition not_open_num (j : json) (t : string) : Prop :=
  match j with JNum _ => t <> "" | _ => True end.

Lemma skip_ws_cons s c s1 r : skip_ws s = String c s1 -> skip_ws (s +:+ r) = String c (s1 +:+ r).
Proof. intros H. rewrite skip_ws_app by (by rewrite H). by rewrite H. Qed.

Lemma items_nonempty k s x : read_items k s = Some x -> s <> "".
Proof. destruct k; [done|]. cbn. by destruct s. Qed.
Lemma members_nonempty k s x : read_members k s = Some x -> s <> "".
Proof. destruct k; [done|]. cbn. by destruct s. Qed.

Lemma extend k :
  (forall s j t r, read_value k s = Some (j, t) -> not_open_num j t -> read_value k (s +:+ r) = Some (j, t +:+ r)) /\
  (forall s l t r, read_items k s = Some (l, t) -> read_items k (s +:+ r) = Some (l, t +:+ r)) /\
  (forall s kv t r, read_member k s = Some (kv, t) -> t <> "" -> read_member k (s +:+ r) = Some (kv, t +:+ r)) /\
  (forall s l t r, read_members k s = Some (l, t) -> read_members k (s +:+ r) = Some (l, t +:+ r)).
Proof.
  induction k as [|k (IH1 & IH2 & IH3 & IH4)]; [done|].
  assert (Hopen : forall j t, t <> "" -> not_open_num j t) by (by intros []).
  repeat split.
  - intros s j t r H Hno. cbn -[strip_prefix read_N String.append] in *.
    destruct (skip_ws s) as [|c s1] eqn:Es; [done|]. rewrite (skip_ws_cons _ _ _ _ Es).
    destruct (Ascii.eqb c dq).
    { destruct (read_str s1) as [[x u]|] eqn:E; [|done]. injection H as <- <-. by rewrite (read_str_app _ r _ _ E). }
    destruct (Ascii.eqb c "[").
    { destruct (skip_ws s1) as [|c' u] eqn:Es1; [done|]. rewrite (skip_ws_cons _ _ _ _ Es1).
      destruct (Ascii.eqb c' "]"); [by injection H as <- <-|].
      destruct (read_value k s1) as [[j1 t1]|] eqn:E1; [|done].
      destruct (read_items k t1) as [[l t2]|] eqn:E2; [|done]. injection H as <- <-.
      rewrite (IH1 _ _ _ r E1) by eauto using items_nonempty. by rewrite (IH2 _ _ _ r E2). }
    destruct (Ascii.eqb c "{").
    { destruct (skip_ws s1) as [|c' u] eqn:Es1; [done|]. rewrite (skip_ws_cons _ _ _ _ Es1).
      destruct (Ascii.eqb c' "}"); [by injection H as <- <-|].
      destruct (read_member k s1) as [[j1 t1]|] eqn:E1; [|done].
      destruct (read_members k t1) as [[l t2]|] eqn:E2; [|done]. injection H as <- <-.
      rewrite (IH3 _ _ _ r E1) by eauto using members_nonempty. by rewrite (IH4 _ _ _ r E2). }
    destruct (Ascii.eqb c "-").
    { destruct (read_N s1) as [[n u]|] eqn:E; [|done]. injection H as <- <-. cbn in Hno.
      by rewrite (read_N_app _ r _ _ E). }
    rewrite <- !(sapp_cons c s1 r).
    destruct (strip_prefix "null" (String c s1)) as [u|] eqn:E1.
    { injection H as <- <-. by rewrite (strip_prefix_app _ _ r _ E1). }
    destruct (strip_prefix "true" (String c s1)) as [u|] eqn:E2.
    { injection H as <- <-. rewrite (strip_prefix_app _ _ r _ E2).
      cbn [strip_prefix] in E2. destruct (Ascii.eqb "t" c) eqn:Ec; [|done]. apply Ascii.eqb_eq in Ec as <-. done. }
    destruct (strip_prefix "false" (String c s1)) as [u|] eqn:E3.
    { injection H as <- <-. rewrite (strip_prefix_app _ _ r _ E3).
      cbn [strip_prefix] in E3. destruct (Ascii.eqb "f" c) eqn:Ec; [|done]. apply Ascii.eqb_eq in Ec as <-. done. }
    destruct (read_N (String c s1)) as [[n u]|] eqn:E; [|done]. injection H as <- <-. cbn in Hno.
    rewrite (strip_prefix_digit _ _ r _ _ E1 E), (strip_prefix_digit _ _ r _ _ E2 E), (strip_prefix_digit _ _ r _ _ E3 E) by done.
    by rewrite (read_N_app _ r _ _ E).
  - intros s l t r H. cbn -[String.append] in *.
    destruct (skip_ws s) as [|c s1] eqn:Es; [done|]. rewrite (skip_ws_cons _ _ _ _ Es).
    destruct (Ascii.eqb c "]"); [by injection H as <- <-|]. destruct (Ascii.eqb c ","); [|done].
    destruct (read_value k s1) as [[j1 t1]|] eqn:E1; [|done].
    destruct (read_items k t1) as [[l' t2]|] eqn:E2; [|done]. injection H as <- <-.
    rewrite (IH1 _ _ _ r E1) by eauto using items_nonempty. by rewrite (IH2 _ _ _ r E2).
  - intros s kv t r H Ht. cbn -[String.append] in *.
    destruct (skip_ws s) as [|c s1] eqn:Es; [done|]. rewrite (skip_ws_cons _ _ _ _ Es).
    destruct (Ascii.eqb c dq); [|done].
    destruct (read_str s1) as [[key u]|] eqn:E; [|done]. rewrite (read_str_app _ r _ _ E).
    destruct (skip_ws u) as [|c' t1] eqn:Eu; [done|]. rewrite (skip_ws_cons _ _ _ _ Eu).
    destruct (Ascii.eqb c' ":"); [|done].
    destruct (read_value k t1) as [[j t2]|] eqn:E1; [|done]. injection H as <- <-.
    by rewrite (IH1 _ _ _ r E1) by auto.
  - intros s l t r H. cbn -[String.append] in *.
    destruct (skip_ws s) as [|c s1] eqn:Es; [done|]. rewrite (skip_ws_cons _ _ _ _ Es).
    destruct (Ascii.eqb c "}"); [by injection H as <- <-|]. destruct (Ascii.eqb c ","); [|done].
    destruct (read_member k s1) as [[j1 t1]|] eqn:E1; [|done].
    destruct (read_members k t1) as [[l' t2]|] eqn:E2; [|done]. injection H as <- <-.
    rewrite (IH3 _ _ _ r E1) by eauto using members_nonempty. by rewrite (IH4 _ _ _ r E2).
Qed.

(** A text that starts with an opening brace reads as an object, if at all. *)
Lemma read_value_brace k s j t : read_value k (String "{" s) = Some (j, t) -> exists l, j = JObj l.
Proof.
  destruct k; [done|]. cbn [read_value]. cbn [skip_ws]. ws.
  change (Ascii.eqb "{" dq) with false. change (Ascii.eqb "{" "[") with false.
  change (Ascii.eqb "{" "{") with true. cbn iota. destruct (skip_ws s) as [|c u]; [done|].
  destruct (Ascii.eqb c "}"); [intros H; injection H as <- <-; eauto|].
  destruct (read_member k s) as [[kv t1]|]; [|done]. destruct (read_members k t1) as [[l t2]|]; [|done].
  intros H. injection H as <- <-. eauto.
Qed.

Theorem json_prefix_rejected l s r : json_text (JObj l) = s +:+ r -> r <> "" -> json_parse s = None.
Proof.
  intros Hs Hr. destruct (json_parse s) as [j|] eqn:E; [exfalso|done].
  unfold json_parse in E.
  destruct (read_value (2 * String.length s + 4) s) as [[j' t]|] eqn:Ev; [|done].
  destruct (skip_ws t) eqn:Et; [|done].
  assert (Hobj : exists l', j' = JObj l').
  { destruct s as [|c s].
    - cbn in Ev. done.
    - assert (c = "{"%char) as ->.
      { destruct l as [|[k0 j0] l]; cbn in Hs; injection Hs; done. }
      by eapply read_value_brace. }
  destruct Hobj as [l' ->].
  pose proof (proj1 (extend _) s (JObj l') t r Ev I) as H1.
  pose proof (read_print (JObj l) 0 (2 * String.length (s +:+ r) + 4) "") as H2.
  rewrite sapp_nil_r in H2. unfold json_text in Hs. rewrite Hs in H2.
  assert (Hn : need (JObj l) <= 2 * String.length (s +:+ r) + 4).
  { pose proof (need_len (JObj l) 0) as Hl. rewrite Hs in Hl. lia. }
  specialize (H2 Hn I).
  apply (proj1 (fuel_mono _) _ _ (2 * String.length (s +:+ r) + 4)) in H1; [|rewrite slen_app; lia].
  rewrite H1 in H2. injection H2 as _ H2. apply sapp_eq_nil in H2 as [_ H2]. done.
Qed.
