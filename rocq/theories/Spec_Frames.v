(** Attribute types nested in arrays, as JSON and as text. *)
From Verif Require Import Base Bundle.
(** [k] arrays around a type, around a JSON value, around a text. *)
Fixpoint in_arrays (k : nat) (t : nattr) : nattr := match k with O => t | S k => NArr (in_arrays k t) end.
Fixpoint in_brackets (k : nat) (j : json) : json := match k with O => j | S k => JArr [in_brackets k j] end.
Fixpoint repeated (k : nat) (s : string) : string := match k with O => "" | S k => (s +:+ repeated k s)%string end.
Definition in_text (k : nat) (s : string) : string := (repeated k "Array[" +:+ s +:+ repeated k "]")%string.
(** A computation by rounds ends with [r]: with enough rounds, and with more. *)
Definition ends {A} (f : nat -> option A) (r : A) : Prop := exists n, forall m, n <= m -> f m = Some r.
