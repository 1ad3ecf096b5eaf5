(** * Base: results, string helpers shared by all model files.

    Rust [str] / [&[u8]] / [Bytes] are Coq [string]s (sequences of 8-bit
    characters); the model never looks at UTF-8 structure. *)
From Coq Require Export Ascii String ZArith.
From stdpp Require Export base tactics decidable list gmap strings.
Notation length := List.length.
Global Open Scope string_scope.
Global Open Scope list_scope.

(** ** Errors and results

    Every [anyhow!] / [?] exit of the program is [Err] with the reason class;
    message texts are not modelled.  [Panic] is a Rust panic or abort. *)
Inductive err :=
| EIo              (* any std::fs / std::io error, or a failed precondition of one *)
| EHttp            (* could not GET, unexpected status, unreadable body *)
| EEtag            (* invalid ETag in response header *)
| EParseNotif      (* Failed to parse notification file *)
| EParseState      (* Cannot deserialize json *)
| EHash            (* Data at source does not match hash *)
| ENotRelative     (* Uri not relative to base uri / cannot map source uri *)
| EJoin            (* Could not resolve relative path to a URI *)
| EParent          (* URI without parent *)
| EGap             (* Notification file contained gaps in deltas *)
| ESerialBehind    (* notification serial is *before* our serial *)
| ENoSnapshot      (* Trying to write notification file without snapshot *)
| ESourceMissing   (* move_file: source file does not exist *)
| ESnapshotXml     (* snapshot XML could not be processed *)
| ENoData          (* No data in response / for repository *)
| EDelta           (* delta cannot be applied *)
| EDeltaXml        (* Cannot parse delta *)
| ETal             (* TAL unreadable or without https uri *)
| ETaCert          (* invalid TA certificate *)
| EInvalid         (* Aborting sync because of validation issues *)
| ENotSeen         (* repository was not seen in validation *)
| ESpawn           (* script could not be started *)
| EScripts         (* Validation of staged repository files failed *)
| ESourceDir       (* source_uri_dir is not a readable dir *)
| ELocked.         (* another krill-sync process holds the lock *)

Inductive res (A : Type) :=
| Ok (a : A)
| Err (e : err)
| Panic.
Arguments Ok {A} a.
Arguments Err {A} e.
Arguments Panic {A}.

Global Instance err_eq_dec : EqDecision err.
Proof. solve_decision. Defined.

(** ** String functions of the Rust standard library that the code uses *)

(** [str::strip_prefix] *)
Fixpoint strip_prefix (p s : string) : option string :=
  match p, s with
  | EmptyString, _ => Some s
  | String a p', String b s' =>
      if Ascii.eqb a b then strip_prefix p' s' else None
  | String _ _, EmptyString => None
  end.

(** [str::ends_with] *)
Fixpoint ends_with (suf s : string) : bool :=
  if String.eqb s suf then true
  else match s with
       | EmptyString => false
       | String _ s' => ends_with suf s'
       end.

(** [str::split(c)]: never the empty list. *)
Fixpoint split_on (c : ascii) (s : string) : list string :=
  match s with
  | EmptyString => [""]
  | String a s' =>
      if Ascii.eqb a c then "" :: split_on c s'
      else match split_on c s' with
           | [] => [String a ""]
           | h :: t => String a h :: t
           end
  end.

(** [str::rsplit_once(c)] *)
Fixpoint rsplit_once (c : ascii) (s : string) : option (string * string) :=
  match s with
  | EmptyString => None
  | String a s' =>
      match rsplit_once c s' with
      | Some (l, r) => Some (String a l, r)
      | None => if Ascii.eqb a c then Some ("", s') else None
      end
  end.

(** [str::replace(from, to)] for a non-empty [from]: all non-overlapping
    occurrences from the left. [skip] counts characters of the last match that
    are still to be dropped. *)
Fixpoint str_replace_from (from to s : string) (skip : nat) : string :=
  match s with
  | EmptyString => ""
  | String a s' =>
      match skip with
      | S k => str_replace_from from to s' k
      | O => match strip_prefix from s with
             | Some _ => to +:+ str_replace_from from to s' (String.length from - 1)
             | None => String a (str_replace_from from to s' 0)
             end
      end
  end.
Definition str_replace (from to s : string) : string := str_replace_from from to s 0.

Definition slash : ascii := "/"%char.
Definition dot : ascii := "."%char.

Definition starts_with_slash (s : string) : bool :=
  match s with String a _ => Ascii.eqb a slash | _ => false end.

Definition is_empty {A} (l : list A) : bool := match l with [] => true | _ => false end.

(** Stable sort by an [N] key: [slice::sort_by_key]. *)
Fixpoint insert_by {A} (key : A -> N) (x : A) (l : list A) : list A :=
  match l with
  | [] => [x]
  | y :: l' => if (key x <=? key y)%N then x :: y :: l' else y :: insert_by key x l'
  end.
Fixpoint sort_by_key {A} (key : A -> N) (l : list A) : list A :=
  match l with
  | [] => []
  | x :: l' => insert_by key x (sort_by_key key l')
  end.
