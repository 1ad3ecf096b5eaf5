(** * src/fetch.rs *)
From Verif Require Export FileOps.

(** fetch.rs:26-30 *)
Inductive fetch_response :=
| FData (b : string) (etag : option string)
| FSaved
| FUnModified.

(** fetch.rs:32-39 *)
Definition try_into_data (r : fetch_response) : M string :=
  match r with FData b _ => mret b | _ => fail ENoData end.

(** fetch.rs:42-48 *)
Inductive notif_response :=
| NData (n : notification) (etag : option string)
| NUnmodified.

(** fetch.rs:50-59 *)
Definition notif_content (r : notif_response) : M (notification * option string) :=
  match r with NData n etag => mret (n, etag) | NUnmodified => fail ENoData end.

(** fetch.rs:76-79 *)
Inductive fetch_source := SFile (p : path) | SUri (u : https) (m : fetch_mode).
Global Instance fetch_source_eq_dec : EqDecision fetch_source.
Proof. solve_decision. Defined.

(** fetch.rs:105-160: get the data into memory *)
Definition fetch_raw (src : fetch_source) (etag : option string) : M fetch_response :=
  match src with
  | SUri u m =>
      reply ← http_get u m etag;
      match reply with
      | HFail => fail EHttp
      | HReply status hdr body =>
          if (status =? 200)%N then
            etag' ← match hdr with
                    | None => mret None
                    | Some None => fail EEtag
                    | Some (Some v) => mret (Some v)
                    end;
            match body with
            | None => fail EHttp
            | Some b => mret (FData b etag')
            end
          else if (status =? 304)%N then mret FUnModified
          else fail EHttp
      end
  | SFile p => b ← read_file p; mret (FData b None)
  end.

(** fetch.rs:94-186 *)
Definition fetch (src : fetch_source) (h : option hash) (etag : option string)
    (target : option path) : M fetch_response :=
  r ← fetch_raw src etag;
  x ← getext;
  (match h, r with
   | Some hh, FData b _ => if hash_matches x hh b then mret tt else fail EHash
   | _, _ => mret tt
   end) ;;
  match target, r with
  | Some t, FData b _ => write_buf t b ;; mret FSaved
  | _, _ => mret r
  end.

(** fetch.rs:188-198 *)
Definition source_join (src : fetch_source) (rel : string) : M fetch_source :=
  match src with
  | SFile base => mret (SFile (path_join base rel))
  | SUri base m =>
      x ← getext;
      u ← of_option EJoin (https_join x base rel);
      mret (SUri u m)
  end.

(** fetch.rs:222-232 [FromStr for FetchSource]: what parses as an https URI is
    one, fetched strictly; anything else is a path *)
Definition source_of_str (x : ext) (s : string) : fetch_source :=
  if x_https_ok x s then SUri s Strict else SFile (path_of s).

(** fetch.rs:236-240 *)
Record fetch_map := mkFM { fm_base : https; fm_fetch : fetch_source }.
Global Instance fetch_map_eq_dec : EqDecision fetch_map.
Proof. solve_decision. Defined.

(** fetch.rs:250-262 *)
Definition map_source (m : fetch_map) (u : https) : M fetch_source :=
  match strip_prefix (fm_base m) u with
  | None => fail ENotRelative
  | Some rel => source_join (fm_fetch m) rel
  end.

(** fetch.rs:267-272 *)
Record fetcher := mkFetcher { fe_notif : https; fe_map : option fetch_map; fe_mode : fetch_mode }.
Global Instance fetcher_eq_dec : EqDecision fetcher.
Proof. solve_decision. Defined.

(** fetch.rs:328-333 *)
Definition resolve_source (f : fetcher) (u : https) : M fetch_source :=
  match fe_map f with
  | None => mret (SUri u (fe_mode f))
  | Some m => map_source m u
  end.

(** fetch.rs:287-305 *)
Definition read_notification_file (f : fetcher) (etag : option string) : M notif_response :=
  src ← resolve_source f (fe_notif f);
  r ← fetch src None etag None;
  match r with
  | FData b etag' =>
      x ← getext;
      n ← of_option EParseNotif (x_parse_notif x b);
      mret (NData n etag')
  | FUnModified => mret NUnmodified
  | FSaved => panic              (* unreachable!() *)
  end.

(** fetch.rs:307-326 *)
Definition retrieve_file (f : fetcher) (u : https) (h : hash) (target : path) : M unit :=
  x ← getext;
  existing ← catch (read_file target);
  match existing with
  | inl b =>
      if hash_matches x h b then mret tt
      else src ← resolve_source f u; _ ← fetch src (Some h) None (Some target); mret tt
  | inr _ => src ← resolve_source f u; _ ← fetch src (Some h) None (Some target); mret tt
  end.
