(** C41/C42: the characters that the names, words and languages of a file may have, in plain letters. *)
From Coq Require Import Lia.
From Verif Require Import Base Peg OcaGrammar OcaFile Spec_OcaFile TGrammar TFile Spec_TFile.

Definition letters : string := "abcdefghijklmnopqrstuvwxyzABCDEFGHIJKLMNOPQRSTUVWXYZ".
Definition decimal : string := "0123456789".
(** Every character of a text is one of the given ones. *)
Definition only_of (chars s : string) : Prop := forall c, c ∈ list_ascii_of_string s -> c ∈ list_ascii_of_string chars.

Lemma all_chars_elem f s : all_chars f s = true <-> forall c, c ∈ list_ascii_of_string s -> f c = true.
Proof.
  induction s as [|a s IH]; cbn [all_chars list_ascii_of_string].
  - split; [intros _ c Hc; by apply elem_of_nil in Hc|done].
  - rewrite andb_true_iff, IH. split.
    + intros [H1 H2] c Hc. apply elem_of_cons in Hc as [ -> |Hc]; [done|by apply H2].
    + intros H. split; [apply H; by left|]. intros c Hc. apply H. by right.
Qed.
Lemma class_of (f : ascii -> bool) (chars : string) :
  (forall c, f c = bool_decide (c ∈ list_ascii_of_string chars)) -> forall s, all_chars f s = true <-> only_of chars s.
Proof.
  intros H s. rewrite all_chars_elem. unfold only_of. split; intros K c Hc; specialize (K c Hc); rewrite H in *; by apply bool_decide_eq_true in K || apply bool_decide_eq_true.
Qed.
Ltac chars := intros c; destruct c as [[] [] [] [] [] [] [] []]; vm_compute; reflexivity.

(** Attribute names: letters, digits, hyphen, underscore, dot; names of a transformation file: the same without the dot. *)
Theorem C41_name_characters : forall k, name_ok k <-> k <> "" /\ only_of (letters +:+ decimal +:+ "-_.") k.
Proof. intros k. unfold name_ok. by rewrite (class_of attr_key_c (letters +:+ decimal +:+ "-_.")) by chars. Qed.
Print Assumptions C41_name_characters.
Theorem C42_transformation_name_characters : forall k, tname_ok k <-> k <> "" /\ only_of (letters +:+ decimal +:+ "-_") k.
Proof. intros k. unfold tname_ok. by rewrite (class_of prop_key_c (letters +:+ decimal +:+ "-_")) by chars. Qed.
Print Assumptions C42_transformation_name_characters.
(** Bare words, with no letter beyond ASCII taken for one: letters, digits and five marks. *)
Theorem C41_word_characters : forall k, word_ok (fun _ => false) k <-> k <> "" /\ only_of (letters +:+ decimal +:+ ".-_/:") k.
Proof. intros k. unfold word_ok. by rewrite (class_of (char_c (fun _ => false)) (letters +:+ decimal +:+ ".-_/:")) by chars. Qed.
Print Assumptions C41_word_characters.
Theorem C41_more_words : forall wide k, word_ok (fun _ => false) k -> word_ok wide k.
Proof.
  intros wide k [H1 H2]. split; [done|]. rewrite all_chars_elem in *. intros c Hc. specialize (H2 c Hc). unfold char_c in *. rewrite andb_false_r, orb_false_r in H2. by rewrite H2.
Qed.
Print Assumptions C41_more_words.
(** Language tags: two letters, or two pairs of letters with a hyphen. *)
Theorem C41_language_characters : forall l, lang_text_ok l <->
  exists a b, only_of letters (String a (String b "")) /\
  (l = String a (String b "") \/ exists c d, only_of letters (String c (String d "")) /\ l = String a (String b (String "-" (String c (String d ""))))).
Proof.
  assert (P : forall a b, alpha_c a = true /\ alpha_c b = true <-> only_of letters (String a (String b ""))).
  { intros a b. rewrite <- (class_of alpha_c letters) by chars. cbn [all_chars]. rewrite !andb_true_iff. naive_solver. }
  intros l. unfold lang_text_ok. split.
  - intros (a & b & Ha & Hb & H). exists a, b. split; [by apply P|]. destruct H as [H|(c & d & Hc & Hd & H)]; [by left|]. right. exists c, d. split; [by apply P|done].
  - intros (a & b & Hab & H). apply P in Hab as [Ha Hb]. exists a, b. split; [done|]. split; [done|]. destruct H as [H|(c & d & Hcd & H)]; [by left|].
    right. exists c, d. apply P in Hcd as [? ?]. done.
Qed.
Print Assumptions C41_language_characters.
(** Blanks are spaces and tabs; a text without quotes and backslashes, NUL and 0x1F can stand between quotes; a comment goes up
    to a line feed or carriage return. *)
Theorem C42_blank_characters : forall s, all_chars ws_c s = true <-> only_of (String " " (String "009" "")) s.
Proof. apply class_of. chars. Qed.
Print Assumptions C42_blank_characters.
Theorem C42_comment_characters : forall s, all_chars not_nl_c s = true <-> forall c, c ∈ list_ascii_of_string s -> c <> "010"%char /\ c <> "013"%char.
Proof.
  intros s. rewrite all_chars_elem. assert (H : forall c, not_nl_c c = bool_decide (c <> "010"%char /\ c <> "013"%char)) by chars.
  split; intros K c Hc; specialize (K c Hc); rewrite H in *; by apply bool_decide_eq_true in K || apply bool_decide_eq_true.
Qed.
Print Assumptions C42_comment_characters.
Theorem C41_plain_quotable : forall s, (forall c, c ∈ list_ascii_of_string s -> c <> "034"%char /\ c <> "\"%char /\ c <> "000"%char /\ c <> "031"%char) -> quotable s = true.
Proof.
  assert (H : forall c, bool_decide (c <> "034"%char /\ c <> "\"%char /\ c <> "000"%char /\ c <> "031"%char) = (negb (is_c BSL c) && dq_c c)) by chars.
  induction s as [|a s IH]; intros K; [done|]. cbn [quotable]. pose proof (K a ltac:(left)) as Ka. rewrite <- (bool_decide_eq_true (_ /\ _)) in Ka. rewrite H in Ka. apply andb_true_iff in Ka as [K1 K2].
  apply negb_true_iff in K1. rewrite K1, K2. cbn [andb]. apply IH. intros c Hc. apply K. by right.
Qed.
Print Assumptions C41_plain_quotable.
Example characters_met : name_ok "Address_2.street-name" /\ word_ok (fun _ => false) "refs:ab/C_1" /\ lang_text_ok "pl-PL" /\ quotable "50 %, it's" = true.
Proof.
  repeat split; try done. exists "p"%char, "l"%char. repeat split. right. by exists "P"%char, "L"%char.
Qed.
