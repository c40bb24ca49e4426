(** What a version string states, and what it means for a published text to be the one that was hashed. *)
From Verif Require Import Base Bundle Spec_JsonText.
Local Open Scope string_scope.

(** A number in hexadecimal digits, most significant first. *)
Inductive hex_number : string -> N -> Prop :=
| hn_nil : hex_number "" 0
| hn_digit s n c d : hex_number s n -> hex_digit c d -> hex_number (s +:+ String c "") (16 * n + d)%N.
(** The version string: protocol, major and minor version in one hexadecimal digit each, the format, the size in at least six. *)
Definition states (v proto : string) (major minor size : N) : Prop :=
  exists a b h, v = proto +:+ String a (String b ("JSON" +:+ h +:+ "_")) /\ hex_digit a major /\ hex_digit b minor /\ hex_number h size /\ 6 <= String.length h.
(** How many bytes a text has. *)
Definition size_of (t : string) : N := N.of_nat (String.length t).
(** The largest size plus one that six hexadecimal digits can state: 16 MiB. *)
Definition six_digits : N := (16 ^ 6)%N.
(** Characters that stand for themselves between quotes. *)
Definition as_is (c : ascii) : bool := Nat.leb 32 (nat_of_ascii c) && negb (Ascii.eqb c "034") && negb (Ascii.eqb c "092").
(** A SAID as published: 44 such characters. *)
Definition said_text (s : string) : Prop := String.length s = 44 /\ all_chars as_is s = true.
(** How a published text opens: with a version or without one; the SAID follows. *)
Definition opening (v : string) : string := "{" +:+ QT +:+ "v" +:+ QT +:+ ":" +:+ QT +:+ v +:+ QT +:+ "," +:+ QT +:+ "d" +:+ QT +:+ ":" +:+ QT.
Definition plain_opening : string := "{" +:+ QT +:+ "d" +:+ QT +:+ ":" +:+ QT.
Definition placeholder : string := "############################################".
(** A text that carries its own digest: with 44 number signs in place of the SAID its bytes hash to the SAID. *)
Definition self_addressing (blake : string -> string) (t s : string) : Prop :=
  exists v rest, all_chars as_is v = true /\ t = opening v +:+ s +:+ QT +:+ rest /\ s = blake (opening v +:+ placeholder +:+ QT +:+ rest).
Definition plain_self_addressing (blake : string -> string) (t s : string) : Prop :=
  exists rest, t = plain_opening +:+ s +:+ QT +:+ rest /\ s = blake (plain_opening +:+ placeholder +:+ QT +:+ rest).
(** Two different texts with one digest. *)
Definition collision (blake : string -> string) (a b : string) : Prop := a <> b /\ blake a = blake b.
(** The version a text states. *)
Definition stated_version (t v : string) : Prop := all_chars as_is v = true /\ exists rest, t = "{" +:+ QT +:+ "v" +:+ QT +:+ ":" +:+ QT +:+ v +:+ QT +:+ rest.
