(** Independent specification of key-value stores and cache tables. *)
From Verif Require Export Storage.

Definition write : Type := namespace * string * string.
(** [v] is the last value written under [n], [k]. *)
Definition last_written (ws : list write) (n : namespace) (k v : string) : Prop :=
  exists pre post, ws = pre ++ (n, k, v) :: post /\ forall v', (n, k, v') ∉ post.
(** The first value written under [k]. *)
Definition first_written (ws : list (string * string)) (k v : string) : Prop :=
  exists pre post, ws = pre ++ (k, v) :: post /\ forall v', (k, v') ∉ pre.

(** What a store must do, as seen through get, get_all and insert from an initial state. *)
Record store_contract {S} (new : S) (get : namespace -> string -> S -> outcome (option string))
  (insert : namespace -> string -> string -> S -> outcome S) : Prop := {
  sc_run : forall ws, exists d, fold_left (fun acc w => let! d := acc in insert w.1.1 w.1.2 w.2 d) ws (Ok new) = Ok d /\
    forall n k, (exists v, get n k d = Ok (Some v) /\ last_written ws n k v) \/ (get n k d = Ok None /\ forall v, (n, k, v) ∉ ws) }.
(** Listing a namespace gives what reading its keys one by one gives. *)
Definition lists_all {S} (new : S) (get : namespace -> string -> S -> outcome (option string))
  (insert : namespace -> string -> string -> S -> outcome S) (get_all : namespace -> S -> outcome (gmap string string)) : Prop :=
  forall ws d, fold_left (fun acc w => let! d := acc in insert w.1.1 w.1.2 w.2 d) ws (Ok new) = Ok d ->
  forall n, exists m, get_all n d = Ok m /\ forall k, get n k d = Ok (m !! k).

(** Row [i] of the table is on page [p] (counted from 1) of [limit] rows. *)
Definition on_page (limit p i : nat) : Prop := (p - 1) * limit <= i < p * limit.
