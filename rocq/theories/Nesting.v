(** How deep a JSON tree nests, and the limit of the reader. *)
From Verif Require Export Base.

(** How many arrays and objects stand inside one another. *)
Fixpoint nesting (j : json) : nat :=
  match j with
  | JArr l => S (fold_right (fun x n => Nat.max (nesting x) n) 0 l)
  | JObj l => S (fold_right (fun kv n => Nat.max (nesting kv.2) n) 0 l)
  | _ => 0
  end.
(** serde_json refuses a text in which more than 127 arrays and objects stand inside one another. *)
Definition shallow (j : json) : Prop := nesting j <= 127.
