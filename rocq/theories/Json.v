(** * JSON text: what serde_json::to_string_pretty writes and from_slice reads.

    serde_json is an external crate; this is an executable stand-in for the part
    of it that the state files exercise (objects, arrays, strings, integers,
    booleans, null), with the crate's layout.  Simplifications: no fractions or
    exponents (no state field is a float), [\u] escapes only for code points
    below 128. *)
From stdpp Require Export pretty.
From Verif Require Export Base.

Inductive json :=
| JNull
| JBool (b : bool)
| JNum (z : Z)
| JStr (s : string)
| JArr (l : list json)
| JObj (l : list (string * json)).

Definition dq : ascii := "034"%char.
Definition bslash : ascii := "092"%char.
Definition nl : ascii := "010"%char.

(** ** Writing *)
Definition hex_digit (n : N) : ascii :=
  if (n <? 10)%N then ascii_of_N (48 + n) else ascii_of_N (87 + n).

(** serde_json's escape table *)
Definition esc_char (c : ascii) : string :=
  let n := N_of_ascii c in
  if Ascii.eqb c dq then String bslash (String dq "")
  else if Ascii.eqb c bslash then String bslash (String bslash "")
  else if (n =? 8)%N then String bslash "b"
  else if (n =? 9)%N then String bslash "t"
  else if (n =? 10)%N then String bslash "n"
  else if (n =? 12)%N then String bslash "f"
  else if (n =? 13)%N then String bslash "r"
  else if (n <? 32)%N then
    String bslash ("u00" +:+ String (hex_digit (n / 16)) (String (hex_digit (n mod 16)) ""))
  else String c "".
Fixpoint esc (s : string) : string :=
  match s with
  | EmptyString => ""
  | String c s' => esc_char c +:+ esc s'
  end.
Definition quote (s : string) : string := String dq (esc s +:+ String dq "").

Fixpoint spaces (n : nat) : string :=
  match n with O => "" | S k => "  " +:+ spaces k end.
(** newline and indentation at nesting level [n] *)
Definition nlsp (n : nat) : string := String nl (spaces n).

Fixpoint print (lvl : nat) (j : json) {struct j} : string :=
  match j with
  | JNull => "null"
  | JBool true => "true"
  | JBool false => "false"
  | JNum z => pretty z
  | JStr s => quote s
  | JArr [] => "[]"
  | JArr (j0 :: l) =>
      "[" +:+ nlsp (S lvl) +:+ print (S lvl) j0 +:+
      (fix go (l : list json) : string :=
         match l with
         | [] => nlsp lvl +:+ "]"
         | j' :: l' => "," +:+ nlsp (S lvl) +:+ print (S lvl) j' +:+ go l'
         end) l
  | JObj [] => "{}"
  | JObj ((k0, j0) :: l) =>
      "{" +:+ nlsp (S lvl) +:+ quote k0 +:+ ": " +:+ print (S lvl) j0 +:+
      (fix go (l : list (string * json)) : string :=
         match l with
         | [] => nlsp lvl +:+ "}"
         | (k', j') :: l' =>
             "," +:+ nlsp (S lvl) +:+ quote k' +:+ ": " +:+ print (S lvl) j' +:+ go l'
         end) l
  end.
Definition json_text (j : json) : string := print 0 j.

(** ** Reading *)
Definition is_ws (c : ascii) : bool :=
  let n := N_of_ascii c in (n =? 32)%N || (n =? 9)%N || (n =? 10)%N || (n =? 13)%N.
Fixpoint skip_ws (s : string) : string :=
  match s with
  | String c s' => if is_ws c then skip_ws s' else s
  | EmptyString => ""
  end.

Definition digit_val (c : ascii) : option N :=
  let n := N_of_ascii c in
  if (48 <=? n)%N && (n <=? 57)%N then Some (n - 48)%N else None.
Definition hex_val (c : ascii) : option N :=
  let n := N_of_ascii c in
  if (48 <=? n)%N && (n <=? 57)%N then Some (n - 48)%N
  else if (97 <=? n)%N && (n <=? 102)%N then Some (n - 87)%N
  else if (65 <=? n)%N && (n <=? 70)%N then Some (n - 55)%N
  else None.

Fixpoint read_digits (acc : N) (s : string) : N * string :=
  match s with
  | String c s' =>
      match digit_val c with
      | Some d => read_digits (acc * 10 + d) s'
      | None => (acc, s)
      end
  | EmptyString => (acc, "")
  end.

(** a non-negative integer without superfluous leading zero *)
Definition read_N (s : string) : option (N * string) :=
  match s with
  | String c s' =>
      match digit_val c with
      | Some 0%N =>
          match s' with
          | String c' _ => match digit_val c' with Some _ => None | None => Some (0%N, s') end
          | EmptyString => Some (0%N, s')
          end
      | Some d => Some (read_digits d s')
      | None => None
      end
  | EmptyString => None
  end.

(** string body after the opening quote; control characters must be escaped *)
Fixpoint read_str (s : string) : option (string * string) :=
  match s with
  | EmptyString => None
  | String c s1 =>
      if Ascii.eqb c dq then Some ("", s1)
      else if Ascii.eqb c bslash then
        match s1 with
        | EmptyString => None
        | String e s2 =>
            let lit (c' : ascii) :=
              match read_str s2 with Some (r, t) => Some (String c' r, t) | None => None end in
            if Ascii.eqb e dq then lit dq
            else if Ascii.eqb e bslash then lit bslash
            else if Ascii.eqb e "/" then lit "/"%char
            else if Ascii.eqb e "b" then lit "008"%char
            else if Ascii.eqb e "t" then lit "009"%char
            else if Ascii.eqb e "n" then lit "010"%char
            else if Ascii.eqb e "f" then lit "012"%char
            else if Ascii.eqb e "r" then lit "013"%char
            else if Ascii.eqb e "u" then
              match s2 with
              | String h1 (String h2 (String h3 (String h4 s3))) =>
                  match hex_val h1, hex_val h2, hex_val h3, hex_val h4 with
                  | Some a, Some b, Some c', Some d =>
                      if ((a =? 0) && (b =? 0) && (c' <? 8))%N then
                        match read_str s3 with
                        | Some (r, t) => Some (String (ascii_of_N (c' * 16 + d)) r, t)
                        | None => None
                        end
                      else None
                  | _, _, _, _ => None
                  end
              | _ => None
              end
            else None
        end
      else if (N_of_ascii c <? 32)%N then None
      else match read_str s1 with
           | Some (r, t) => Some (String c r, t)
           | None => None
           end
  end.

(** [fuel] bounds the number of recursive calls; [parse] supplies enough. *)
Fixpoint read_value (fuel : nat) (s : string) : option (json * string) :=
  match fuel with
  | O => None
  | S k =>
      match skip_ws s with
      | EmptyString => None
      | String c s1 =>
          if Ascii.eqb c dq then
            match read_str s1 with Some (r, t) => Some (JStr r, t) | None => None end
          else if Ascii.eqb c "[" then
            match skip_ws s1 with
            | String c' t =>
                if Ascii.eqb c' "]" then Some (JArr [], t)
                else match read_value k s1 with
                     | Some (j, t1) =>
                         match read_items k t1 with
                         | Some (l, t2) => Some (JArr (j :: l), t2)
                         | None => None
                         end
                     | None => None
                     end
            | EmptyString => None
            end
          else if Ascii.eqb c "{" then
            match skip_ws s1 with
            | String c' t =>
                if Ascii.eqb c' "}" then Some (JObj [], t)
                else match read_member k s1 with
                     | Some (kv, t1) =>
                         match read_members k t1 with
                         | Some (l, t2) => Some (JObj (kv :: l), t2)
                         | None => None
                         end
                     | None => None
                     end
            | EmptyString => None
            end
          else if Ascii.eqb c "-" then
            match read_N s1 with
            | Some (n, t) => Some (JNum (- Z.of_N n), t)
            | None => None
            end
          else
            match strip_prefix "null" (String c s1) with
            | Some t => Some (JNull, t)
            | None =>
                match strip_prefix "true" (String c s1) with
                | Some t => Some (JBool true, t)
                | None =>
                    match strip_prefix "false" (String c s1) with
                    | Some t => Some (JBool false, t)
                    | None =>
                        match read_N (String c s1) with
                        | Some (n, t) => Some (JNum (Z.of_N n), t)
                        | None => None
                        end
                    end
                end
            end
      end
  end
with read_items (fuel : nat) (s : string) : option (list json * string) :=
  match fuel with
  | O => None
  | S k =>
      match skip_ws s with
      | EmptyString => None
      | String c s1 =>
          if Ascii.eqb c "]" then Some ([], s1)
          else if Ascii.eqb c "," then
            match read_value k s1 with
            | Some (j, t1) =>
                match read_items k t1 with
                | Some (l, t2) => Some (j :: l, t2)
                | None => None
                end
            | None => None
            end
          else None
      end
  end
with read_member (fuel : nat) (s : string) : option ((string * json) * string) :=
  match fuel with
  | O => None
  | S k =>
      match skip_ws s with
      | EmptyString => None
      | String c s1 =>
          if Ascii.eqb c dq then
            match read_str s1 with
            | Some (key, t) =>
                match skip_ws t with
                | String c' t1 =>
                    if Ascii.eqb c' ":" then
                      match read_value k t1 with
                      | Some (j, t2) => Some ((key, j), t2)
                      | None => None
                      end
                    else None
                | EmptyString => None
                end
            | None => None
            end
          else None
      end
  end
with read_members (fuel : nat) (s : string) : option (list (string * json) * string) :=
  match fuel with
  | O => None
  | S k =>
      match skip_ws s with
      | EmptyString => None
      | String c s1 =>
          if Ascii.eqb c "}" then Some ([], s1)
          else if Ascii.eqb c "," then
            match read_member k s1 with
            | Some (kv, t1) =>
                match read_members k t1 with
                | Some (l, t2) => Some (kv :: l, t2)
                | None => None
                end
            | None => None
            end
          else None
      end
  end.

(** from_slice: one value, then only white space *)
Definition json_parse (s : string) : option json :=
  match read_value (2 * String.length s + 4) s with
  | Some (j, t) => match skip_ws t with EmptyString => Some j | _ => None end
  | None => None
  end.
