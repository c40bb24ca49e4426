(** Shared vocabulary of the oca-rs model: outcomes, JSON trees, ordered maps,
    hash-map iteration orders.  No proofs here. *)
From Coq Require Export String Ascii.
From stdpp Require Export base strings gmap list sorting.
From Coq Require DecimalString DecimalNat.

#[global] Arguments String.append !s1 s2 : simpl nomatch.
Open Scope string_scope.
Open Scope list_scope.

(** Result of a Rust function that may return [Err] or panic.
    [Err] carries the messages (Rust: [Vec<String>] or one error's text);
    [Panic] models [unwrap] on [None]/[Err], [todo!], [panic!], index errors. *)
Inductive outcome (A : Type) : Type :=
| Ok (a : A)
| Err (es : list string)
| Panic.
Arguments Ok {A} a.
Arguments Err {A} es.
Arguments Panic {A}.

(** Rust's [?] operator; no lines of /repo of its own. *)
Definition obind {A B} (x : outcome A) (f : A -> outcome B) : outcome B :=
  match x with Ok a => f a | Err es => Err es | Panic => Panic end.
Notation "'let!' x ':=' e 'in' f" := (obind e (fun x => f))
  (at level 200, x pattern, f at level 200, right associativity).

(** [Result::is_ok]; used by statements and examples only. *)
Definition is_ok {A} (x : outcome A) : bool :=
  match x with Ok _ => true | _ => false end.
(** [Result::is_err]; used by statements and examples only. *)
Definition is_err {A} (x : outcome A) : bool :=
  match x with Err _ => true | _ => false end.
(** Whether the run panics; used by statements and examples only. *)
Definition is_panic {A} (x : outcome A) : bool :=
  match x with Panic => true | _ => false end.

(** serde_json::Value with object fields in serialisation order. *)
Inductive json : Type :=
| JNull
| JBool (b : bool)
| JNum (n : nat)
| JStr (s : string)
| JArr (l : list json)
| JObj (l : list (string * json)).

(** Byte-lexicographic order of Rust [String] ([Ord for str]). *)
Definition str_le (a b : string) : Prop := String.leb a b = true.
#[global] Instance str_le_dec : RelDecision str_le := fun a b => decide (String.leb a b = true).

(** Insertion sort by a string key; stable, like Rust [slice::sort_by]
    (alloc::slice).  Used for BTreeMap iteration order and sorted vectors. *)
Fixpoint insert_by {A} (key : A -> string) (x : A) (l : list A) : list A :=
  match l with
  | [] => [x]
  | y :: l' => if String.leb (key x) (key y) then x :: y :: l' else y :: insert_by key x l'
  end.
(** The sort itself: [sort_by], [sort_by_key] and [sorted] as called in oca.rs 564-571 and the BTreeMaps of the overlay structs. *)
Fixpoint sort_by {A} (key : A -> string) (l : list A) : list A :=
  match l with
  | [] => []
  | x :: l' => insert_by key x (sort_by key l')
  end.

(** Iterating [BTreeMap<String, V>] (or a HashMap collected into one): byte order of keys. *)
Definition sorted_pairs {V} (m : gmap string V) : list (string * V) :=
  sort_by fst (map_to_list m).

(** Iteration order of [HashMap<String, V>].  [p] identifies the map instance
    (each HashMap has its own RandomState), so equal contents in different maps
    may be listed differently. *)
Definition order : Type := forall (p : list string) (V : Type), gmap string V -> list (string * V).
(** What std promises of that order: every pair exactly once. *)
Definition order_ok (o : order) : Prop :=
  forall p V (m : gmap string V), o p V m ≡ₚ map_to_list m.

(** [IndexMap<String, V>]: association list in insertion order. *)
Definition imap (V : Type) : Type := list (string * V).
(** [IndexMap::get]. *)
Fixpoint imap_get {V} (k : string) (m : imap V) : option V :=
  match m with
  | [] => None
  | (k', v) :: m' => if String.eqb k k' then Some v else imap_get k m'
  end.
(** [IndexMap::insert]: replace in place or append. *)
Fixpoint imap_insert {V} (k : string) (v : V) (m : imap V) : imap V :=
  match m with
  | [] => [(k, v)]
  | (k', v') :: m' => if String.eqb k k' then (k', v) :: m' else (k', v') :: imap_insert k v m'
  end.
(** [IndexMap::extend] and [collect]. *)
Definition imap_extend {V} (m : imap V) (l : list (string * V)) : imap V :=
  fold_left (fun acc kv => imap_insert kv.1 kv.2 acc) l m.
(** [IndexMap::remove]/[retain].  Simplification: [IndexMap::remove] is a swap_remove
    (moves the last pair into the hole); here the order of the others is kept.  Every
    caller only reads the result by key or inserts the remaining pairs into HashMaps. *)
Definition imap_remove {V} (k : string) (m : imap V) : imap V :=
  List.filter (fun kv => negb (String.eqb k kv.1)) m.
(** [IndexMap::contains_key]. *)
Definition imap_mem {V} (k : string) (m : imap V) : bool :=
  existsb (fun kv => String.eqb k kv.1) m.
(** [IndexMap::keys]. *)
Definition imap_keys {V} (m : imap V) : list string := map fst m.

(** [Option::unwrap_or]. *)
Definition unwrap_or {A} (d : A) (o : option A) : A := match o with Some a => a | None => d end.
(** [Option::is_some]. *)
Definition is_some_b {A} (o : option A) : bool := match o with Some _ => true | None => false end.

(** Decimal text of a usize ([format!("{}", i)]) and [str::parse::<usize>] on digits. *)
Definition dec_of_nat (n : nat) : string := DecimalString.NilEmpty.string_of_uint (Nat.to_uint n).
(** [str::parse::<usize>] (without the 64-bit overflow check). *)
Definition nat_of_dec (s : string) : option nat :=
  match s with
  | EmptyString => None
  | _ => option_map Nat.of_uint (DecimalString.NilEmpty.uint_of_string s)
  end.

(** [char::is_ascii_digit]. *)
Definition is_digit (c : ascii) : bool :=
  let n := nat_of_ascii c in (48 <=? n)%nat && (n <=? 57)%nat.
(** [str::chars().all]. *)
Fixpoint all_chars (f : ascii -> bool) (s : string) : bool :=
  match s with EmptyString => true | String c s' => f c && all_chars f s' end.
