(** The indexes of the facade: listings, search, registered names.  Models fetch.rs 91-209 and
    oca_bundle_fts_repo.rs 73-215. *)
From Verif Require Export Facade.

Section Index.
Variables said_ok digits lang_ok : string -> bool.
Variable standard_read : string -> option string.
Variable of_text : string -> option json.
(** fetch.rs 138-172 [fetch_all_oca_bundle]. *)
Definition list_bundles (limit page : nat) (f : facade) : outcome (list bundle * nat) :=
  fetch_all (read_bundle said_ok digits lang_ok standard_read of_text) "oca bundle" limit page (fa_bundles f).
(** fetch.rs 174-209 [fetch_all_capture_base]. *)
Definition list_captures (limit page : nat) (f : facade) : outcome (list capture_base * nat) :=
  fetch_all (parse_text of_text (cb_parse said_ok) "Failed to parse capture base") "capture base" limit page (fa_captures f).
(** fetch.rs 124-136 [fetch_all_refs]. *)
Definition all_refs (f : facade) : outcome (gmap string string) := mem_get_all NsReferences (fa_db f).

(** SQLite's full text search, for a language and a query: of every bundle with a matching row one matching row, best
    rank first; [Panic] when the query is not in FTS5 syntax ([row.unwrap()]).  Ranking and matching are SQLite's. *)
Variable hits : option string -> string -> list fts_row -> outcome (list fts_row).
(** The marked snippet of a row, and [get_scope], oca_bundle_fts_repo.rs 126-159 (it builds a regular expression from the
    snippet and panics when that is not one). *)
Variable snippet : string -> fts_row -> string.
Variable scope : string -> fts_row -> outcome string.
Record found := Found { fd_bundle : bundle; fd_phrase : string; fd_scope : string }.
(** The records of a page: [SelfAddressingIdentifier::from_str(..).unwrap()] 197-200, then fetch.rs 104-108
    [get_oca_bundle(..).unwrap()]. *)
Fixpoint found_rows (q : string) (f : facade) (l : list fts_row) : outcome (list found) :=
  match l with
  | [] => Ok []
  | r :: l' =>
    let! s := scope (snippet q r) r in
    if negb (said_ok (ft_said r)) then Panic else
    match get_bundle said_ok digits lang_ok standard_read of_text (fa_cache f) (ft_said r) with
    | Ok B => let! rest := found_rows q f l' in Ok (Found B (snippet q r) s :: rest)
    | _ => Panic
    end
  end.
(** [search_oca_bundle], 91-123, with [OCABundleFTSRepo::search], 73-215.  The total is the number of bundles found (0
    when there are none: the count has no row then). *)
Definition search (lang : option string) (q : string) (limit page : nat) (f : facade) : outcome (list found * nat) :=
  match page with
  | O => Panic
  | S p => let! hs := hits lang q (fa_fts f) in
           let! l := found_rows q f (take limit (drop (p * limit) hs)) in
           Ok (l, length hs)
  end.
End Index.
