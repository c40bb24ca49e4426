(** Key-value stores and the SQLite cache tables.  Models oca/src/data_storage.rs and oca/src/repositories/.
    Rust [Vec<u8>] is a Coq [string] (a list of bytes). *)
From Verif Require Export Base.

Notation bytes := string (only parsing).

(** data_storage.rs 4-24. *)
Inductive namespace := NsOCA | NsBundles | NsObjects | NsCore | NsRelations | NsReferences.
(** data_storage.rs 13-24 [Namespace::as_str]. *)
Definition ns_name (n : namespace) : string :=
  match n with
  | NsOCA => "oca" | NsBundles => "oca_bundles_json" | NsObjects => "oca_objects_json"
  | NsCore => "core_model" | NsRelations => "oca_relations" | NsReferences => "oca_refs"
  end.

(** data_storage.rs 147-192 [InMemoryDataStorage]. *)
Notation mem := (gmap string (gmap string string)).
Definition mem_new : mem := ∅.
(** data_storage.rs 161-170. *)
Definition mem_get (n : namespace) (k : string) (d : mem) : outcome (option bytes) :=
  match d !! ns_name n with
  | Some s => match s !! k with Some v => Ok (Some v) | None => Ok None end
  | None => Ok None
  end.
(** data_storage.rs 172-177. *)
Definition mem_get_all (n : namespace) (d : mem) : outcome (gmap string bytes) :=
  match d !! ns_name n with Some s => Ok s | None => Ok ∅ end.
(** data_storage.rs 179-190. *)
Definition mem_insert (n : namespace) (k : string) (v : bytes) (d : mem) : outcome mem :=
  let s := match d !! ns_name n with Some s => s | None => ∅ end in
  Ok (<[ns_name n := <[k := v]> s]> d).

(** data_storage.rs 45-145 [SledDataStorage]: [None] until [config] succeeds; a tree per namespace, opened on demand.
    Simplification: sled's own I/O errors ([unwrap]) are not modelled. *)
Definition sled : Type := option mem.
(** data_storage.rs 94-96. *)
Definition sled_new : sled := None.
(** data_storage.rs 107-117. *)
Definition sled_get (n : namespace) (k : string) (d : sled) : outcome (option bytes) :=
  match d with
  | Some db => let tree := unwrap_or ∅ (db !! ns_name n) in Ok (tree !! k)
  | None => Err ["Data Storage must be opened first"]
  end.
(** data_storage.rs 119-132. *)
Definition sled_get_all (n : namespace) (d : sled) : outcome (gmap string bytes) :=
  match d with Some db => Ok (unwrap_or ∅ (db !! ns_name n)) | None => Err ["Data Storage must be opened first"] end.
(** data_storage.rs 134-144. *)
Definition sled_insert (n : namespace) (k : string) (v : bytes) (d : sled) : outcome sled :=
  match d with
  | Some db => Ok (Some (<[ns_name n := <[k := v]> (unwrap_or ∅ (db !! ns_name n))]> db))
  | None => Err ["Data Storage must be opened first"]
  end.

(** data_storage.rs 194-287 [FileSystemStorage]: a directory per namespace, a file per key.  Simplification: keys are
    single path components ([file_name]); on other keys, and for disk errors, nothing is claimed. *)
Definition fsys : Type := option mem.
(** data_storage.rs 241-243. *)
Definition fs_new : fsys := None.
(** data_storage.rs 254-267. *)
Definition fs_get (n : namespace) (k : string) (d : fsys) : outcome (option bytes) :=
  match d with
  | Some dirs => match dirs !! ns_name n with Some files => Ok (files !! k) | None => Ok None end
  | None => Err ["File path is required"]
  end.
(** data_storage.rs 269-271. *)
Definition fs_get_all (n : namespace) (d : fsys) : outcome (gmap string bytes) := Err ["Not implemented"].
(** data_storage.rs 273-286. *)
Definition fs_insert (n : namespace) (k : string) (v : bytes) (d : fsys) : outcome fsys :=
  match d with
  | Some dirs =>
      let dirs' := match dirs !! ns_name n with Some _ => dirs | None => <[ns_name n := ∅]> dirs end in
      Ok (Some (<[ns_name n := <[k := v]> (unwrap_or ∅ (dirs' !! ns_name n))]> dirs'))
  | None => Err ["File path is required"]
  end.

(** ** The cache tables: oca_bundle_cache_repo.rs, capture_base_cache_repo.rs.
    A table with a TEXT PRIMARY KEY: rows (said, json text) in insertion (rowid) order. *)
(** oca_bundle_cache_repo.rs 29-43, capture_base_cache_repo.rs 26-40: the CREATE TABLE. *)
Definition table : Type := list (string * string).
(** [insert], 45-52 / 42-49: a duplicate key is a constraint error, which is ignored. *)
Definition table_insert (said text : string) (t : table) : table :=
  if imap_mem said t then t else t ++ [(said, text)].
(** [fetch_all], 54-92 / 51-90.  The query joins one row per record holding the total with the page
    (LIMIT/OFFSET in rowid order) and groups by said: the page sorted by said, or, if the page is empty and the table
    is not, one row without a record.  [page - 1] underflows on page 0: a panic in debug builds.  Numbers beyond
    i64 are not modelled. *)
Definition table_rows (limit offset : nat) (t : table) : list (option (string * string) * nat) :=
  match t with
  | [] => []
  | _ => match take limit (drop offset t) with
         | [] => [(None, length t)]
         | p => map (fun r => (Some r, length t)) (sort_by fst p)
         end
  end.
(** oca_bundle_cache_repo.rs 54-92, capture_base_cache_repo.rs 51-90. *)
Definition table_fetch (limit page : nat) (t : table) : outcome (list (option (string * string) * nat)) :=
  match page with
  | 0 => Panic
  | S p => Ok (table_rows limit (p * limit) t)
  end.
(** fetch.rs 138-172, 174-209: the records parsed, the total of the first row (0 without rows). *)
Fixpoint parse_rows {A} (parse : string -> outcome A) (what : string) (rows : list (option (string * string) * nat))
  (recs : list A) (total : nat) (errs : list string) : outcome (list A * nat * list string) :=
  match rows with
  | [] => Ok (recs, total, errs)
  | (r, t) :: rest =>
      let total' := if (total =? 0)%nat then t else total in
      match r with
      | None => parse_rows parse what rest recs total' errs
      | Some (_, text) =>
          match parse text with
          | Ok x => parse_rows parse what rest (recs ++ [x]) total' errs
          | Err e => parse_rows parse what rest recs total' (errs ++ [("Failed to parse " +:+ what)%string])
          | Panic => Panic
          end
      end
  end.
(** fetch.rs 138-209. *)
Definition fetch_all {A} (parse : string -> outcome A) (what : string) (limit page : nat) (t : table) : outcome (list A * nat) :=
  let! rows := table_fetch limit page t in
  let! x := parse_rows parse what rows [] 0 [] in
  match x.2 with [] => Ok x.1 | errs => Err errs end.

(** oca_bundle_fts_repo.rs 35-71: one row per (bundle, language); the rowid of an existing row is reused, which is a
    constraint error, ignored: the first row stays.  Searching (SQLite FTS5) is not modelled. *)
Record fts_row := FtsRow { ft_name : string; ft_descr : string; ft_lang : string; ft_said : string }.
(** oca_bundle_fts_repo.rs 51-71. *)
Definition fts_insert (r : fts_row) (t : list fts_row) : list fts_row :=
  if existsb (fun x => String.eqb (ft_said x) (ft_said r) && String.eqb (ft_lang x) (ft_lang r)) t then t else t ++ [r].
