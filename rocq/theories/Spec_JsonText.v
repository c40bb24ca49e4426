(** JSON as text (RFC 8259), independently of any reader or writer: which texts say which tree.
    Numbers are natural numbers here (no text of oca-rs holds another one); texts are byte strings, so text that is not UTF-8 is not
    singled out. *)
From Verif Require Export Base Nesting.

(** Blank space between the words of a text. *)
Definition blank (c : ascii) : bool := existsb (Ascii.eqb c) ["032"; "009"; "010"; "013"]%char.
Definition blanks (s : string) : Prop := all_chars blank s = true.

(** Character codes and their bytes in UTF-8. *)
Definition bytes (l : list N) : string := String.string_of_list_ascii (map ascii_of_N l).
Definition utf8 (n : N) : string :=
  (if n <? 2 ^ 7 then bytes [n]
   else if n <? 2 ^ 11 then bytes [192 + n / 2 ^ 6; 128 + n mod 2 ^ 6]
   else if n <? 2 ^ 16 then bytes [224 + n / 2 ^ 12; 128 + (n / 2 ^ 6) mod 2 ^ 6; 128 + n mod 2 ^ 6]
   else bytes [240 + n / 2 ^ 18; 128 + (n / 2 ^ 12) mod 2 ^ 6; 128 + (n / 2 ^ 6) mod 2 ^ 6; 128 + n mod 2 ^ 6])%N.
(** A hexadecimal digit, in either case, and four of them. *)
Definition hex_digit (c : ascii) (n : N) : Prop :=
  exists digits, (digits = "0123456789abcdef" \/ digits = "0123456789ABCDEF") /\ String.get (N.to_nat n) digits = Some c.
Definition hex4 (a b c d : ascii) (n : N) : Prop :=
  exists x y z w, hex_digit a x /\ hex_digit b y /\ hex_digit c z /\ hex_digit d w /\ (n = ((x * 16 + y) * 16 + z) * 16 + w)%N.
(** The letter after a backslash, and the character it stands for. *)
Definition short_escapes : list (ascii * ascii) :=
  [("034", "034"); ("092", "092"); ("/", "/"); ("b", "008"); ("f", "012"); ("n", "010"); ("r", "013"); ("t", "009")]%char.
Definition high_surrogate (n : N) : Prop := (55296 <= n < 56320)%N.
Definition low_surrogate (n : N) : Prop := (56320 <= n < 57344)%N.

(** What stands between two quotes, for a text. *)
Inductive quoted_text : string -> string -> Prop :=
| qt_end : quoted_text "" ""
| qt_char c v t : 32 <= nat_of_ascii c -> c <> "034"%char -> c <> "092"%char -> quoted_text v t -> quoted_text (String c v) (String c t)
| qt_short e c v t : (e, c) ∈ short_escapes -> quoted_text v t -> quoted_text (String c v) (String "\" (String e t))
| qt_code a b c d n v t : hex4 a b c d n -> ~ high_surrogate n -> ~ low_surrogate n -> quoted_text v t ->
    quoted_text (utf8 n +:+ v) (String "\" (String "u" (String a (String b (String c (String d t))))))
| qt_pair a b c d n a' b' c' d' m v t : hex4 a b c d n -> high_surrogate n -> hex4 a' b' c' d' m -> low_surrogate m -> quoted_text v t ->
    quoted_text (utf8 (65536 + (n - 55296) * 1024 + (m - 56320))%N +:+ v)
      (String "\" (String "u" (String a (String b (String c (String d (String "\" (String "u" (String a' (String b' (String c' (String d' t)))))))))))).

Definition QT : string := String "034"%char "".
(** Values; the items of an array and the members of an object, with blanks around them. *)
Inductive value_text : json -> string -> Prop :=
| vt_null : value_text JNull "null"
| vt_true : value_text (JBool true) "true"
| vt_false : value_text (JBool false) "false"
| vt_num n : value_text (JNum n) (dec_of_nat n)
| vt_str v t : quoted_text v t -> value_text (JStr v) (QT +:+ t +:+ QT)
| vt_arr0 w : blanks w -> value_text (JArr []) ("[" +:+ w +:+ "]")
| vt_arr l t : items_text l t -> value_text (JArr l) ("[" +:+ t +:+ "]")
| vt_obj0 w : blanks w -> value_text (JObj []) ("{" +:+ w +:+ "}")
| vt_obj l t : members_text l t -> value_text (JObj l) ("{" +:+ t +:+ "}")
with items_text : list json -> string -> Prop :=
| it_one x w t w' : blanks w -> blanks w' -> value_text x t -> items_text [x] (w +:+ t +:+ w')
| it_more x w t w' l r : blanks w -> blanks w' -> value_text x t -> items_text l r -> items_text (x :: l) (w +:+ t +:+ w' +:+ "," +:+ r)
with members_text : list (string * json) -> string -> Prop :=
| mt_one k x w1 q w2 w3 t w4 : blanks w1 -> blanks w2 -> blanks w3 -> blanks w4 -> quoted_text k q -> value_text x t ->
    members_text [(k, x)] (w1 +:+ QT +:+ q +:+ QT +:+ w2 +:+ ":" +:+ w3 +:+ t +:+ w4)
| mt_more k x w1 q w2 w3 t w4 l r : blanks w1 -> blanks w2 -> blanks w3 -> blanks w4 -> quoted_text k q -> value_text x t -> members_text l r ->
    members_text ((k, x) :: l) (w1 +:+ QT +:+ q +:+ QT +:+ w2 +:+ ":" +:+ w3 +:+ t +:+ w4 +:+ "," +:+ r).
Definition json_text (j : json) (s : string) : Prop := exists w t w', blanks w /\ blanks w' /\ value_text j t /\ s = w +:+ t +:+ w'.
