(** JSON text as serde_json writes and reads it.  serde_json is a dependency (1.0, no feature that lifts its nesting limit), not code of
    /repo; it is modelled here because every stored record goes through it.  It is called to write at oca/src/facade/build.rs 299, 323, 333,
    oca/src/repositories/capture_base_cache_repo.rs 15, semantics/oca-dag/src/versioning/ocafile.rs 40, semantics/oca-dag/src/lib.rs 18, 23;
    to read at oca/src/facade/fetch.rs 154, 191, 238-245, 294, 378, semantics/oca-dag/src/versioning/ocafile.rs 26,
    semantics/oca-bundle/src/controller.rs 8-12, oca/src/facade/bundle.rs 11-14. *)
From Verif Require Export Spec_JsonText.
From Verif Require Import Condition_proofs.

(** ** Writing *)
(** serde_json [format_escaped_str]: the short escapes, \u00xx for other control characters, everything else as it is. *)
Definition hex_char (n : nat) : ascii := unwrap_or "0"%char (String.get n "0123456789abcdef").
(** One character of a string. *)
Definition escape_char (c : ascii) : string :=
  if Ascii.eqb c "034" then "\" +:+ QT
  else if Ascii.eqb c "092" then "\\"
  else if Ascii.eqb c "008" then "\b"
  else if Ascii.eqb c "009" then "\t"
  else if Ascii.eqb c "010" then "\n"
  else if Ascii.eqb c "012" then "\f"
  else if Ascii.eqb c "013" then "\r"
  else if Nat.ltb (nat_of_ascii c) 32 then "\u00" +:+ String (hex_char (nat_of_ascii c / 16)) (String (hex_char (nat_of_ascii c mod 16)) "")
  else String c "".
(** A string. *)
Fixpoint escape (s : string) : string := match s with String c s => escape_char c +:+ escape s | EmptyString => "" end.
Definition write_str (s : string) : string := QT +:+ escape s +:+ QT.
(** serde_json [CompactFormatter]: no blanks, a comma between items. *)
Fixpoint commas (l : list string) : string := match l with [] => "" | [x] => x | x :: l => x +:+ "," +:+ commas l end.
(** serde_json [to_string]. *)
Fixpoint write_json (j : json) : string :=
  match j with
  | JNull => "null"
  | JBool b => if b then "true" else "false"
  | JNum n => dec_of_nat n
  | JStr s => write_str s
  | JArr l => "[" +:+ commas (map write_json l) +:+ "]"
  | JObj l => "{" +:+ commas (map (fun kv => write_str kv.1 +:+ ":" +:+ write_json kv.2) l) +:+ "}"
  end.

(** ** Reading *)
(** serde_json [parse_whitespace]. *)
Fixpoint skip (s : string) : string := match s with String c r => if blank c then skip r else s | EmptyString => s end.
(** serde_json [decode_hex_val]. *)
Definition hex_val (c : ascii) : option N :=
  let n := N_of_ascii c in
  (if (48 <=? n) && (n <=? 57) then Some (n - 48) else if (97 <=? n) && (n <=? 102) then Some (n - 87) else if (65 <=? n) && (n <=? 70) then Some (n - 55) else None)%N.
(** serde_json [decode_hex_escape]. *)
Definition hex_vals (a b c d : ascii) : option N :=
  match hex_val a, hex_val b, hex_val c, hex_val d with
  | Some x, Some y, Some z, Some w => Some (((x * 16 + y) * 16 + z) * 16 + w)%N
  | _, _, _, _ => None
  end.
(** serde_json [parse_escape], the one-letter escapes. *)
Definition short_val (e : ascii) : option ascii :=
  match List.find (fun x => Ascii.eqb e x.1) short_escapes with Some x => Some x.2 | None => None end.
(** The string read so far, in front of what comes next. *)
Definition put (v : string) (x : option (string * string)) : option (string * string) := match x with Some (s, r) => Some (v +:+ s, r) | None => None end.
(** serde_json [SliceRead::parse_str], [parse_escape], [parse_unicode_escape] with [validate]: after the opening quote; raw control
    characters and lone surrogates are errors. *)
Fixpoint read_str (s : string) : option (string * string) :=
  match s with
  | EmptyString => None
  | String c s =>
    if Ascii.eqb c "034" then Some ("", s)
    else if Ascii.eqb c "092" then
      match s with
      | EmptyString => None
      | String e s =>
        match short_val e with
        | Some v => put (String v "") (read_str s)
        | None =>
          if Ascii.eqb e "u" then
            match s with
            | String a (String b (String c (String d s))) =>
              match hex_vals a b c d with
              | Some n =>
                if ((55296 <=? n) && (n <? 56320))%N then
                  match s with
                  | String k (String u (String a (String b (String c (String d s))))) =>
                    if Ascii.eqb k "092" && Ascii.eqb u "u" then
                      match hex_vals a b c d with
                      | Some m => if ((56320 <=? m) && (m <? 57344))%N then put (utf8 (65536 + (n - 55296) * 1024 + (m - 56320))%N) (read_str s) else None
                      | None => None
                      end
                    else None
                  | _ => None
                  end
                else if ((56320 <=? n) && (n <? 57344))%N then None
                else put (utf8 n) (read_str s)
              | None => None
              end
            | _ => None
            end
          else None
        end
      end
    else if Nat.ltb (nat_of_ascii c) 32 then None
    else put (String c "") (read_str s)
  end.
(** The digits in front. *)
Fixpoint span_digits (s : string) : string * string :=
  match s with String c r => if is_digit c then (String c (span_digits r).1, (span_digits r).2) else ("", s) | EmptyString => ("", "") end.
(** serde_json [parse_integer]: no leading zeros; a sign, a fraction or an exponent gives a number that is not in the trees of the model
    and is refused here; the readers of /repo accept such a number only under a key they ignore. Numbers of any size are natural numbers here,
    serde_json's are below 2^64; the readers of /repo read no numbers but the position of a relationship. *)
Definition read_num (s : string) : option (json * string) :=
  let (p, r) := span_digits s in
  match nat_of_dec p with
  | Some n => if String.eqb (dec_of_nat n) p then match r with String c _ => if existsb (Ascii.eqb c) ["."; "e"; "E"]%char then None else Some (JNum n, r) | EmptyString => Some (JNum n, r) end else None
  | None => None
  end.
(** A word of the grammar in front. *)
Fixpoint after (w s : string) : option string :=
  match w, s with
  | EmptyString, _ => Some s
  | String a w, String b s => if Ascii.eqb a b then after w s else None
  | _, _ => None
  end.
(** serde_json [deserialize_any], [SeqAccess], [MapAccess]; [d] the arrays and objects that may still be opened ([remaining_depth] - 1);
    [n] bounds the steps, see [read_json]. *)
Fixpoint read_value (n d : nat) (s : string) : option (json * string) :=
  match n, s with
  | S n, String c r =>
    if Ascii.eqb c "034" then match read_str r with Some (v, r) => Some (JStr v, r) | None => None end
    else if Ascii.eqb c "[" then
      match d with
      | O => None
      | S d => match after "]" (skip r) with Some r => Some (JArr [], r) | None => match read_items n d r with Some (l, r) => Some (JArr l, r) | None => None end end
      end
    else if Ascii.eqb c "{" then
      match d with
      | O => None
      | S d => match after "}" (skip r) with Some r => Some (JObj [], r) | None => match read_members n d r with Some (l, r) => Some (JObj l, r) | None => None end end
      end
    else if is_digit c then read_num s
    else match after "null" s with
         | Some r => Some (JNull, r)
         | None => match after "true" s with
                   | Some r => Some (JBool true, r)
                   | None => match after "false" s with Some r => Some (JBool false, r) | None => None end
                   end
         end
  | _, _ => None
  end
with read_items (n d : nat) (s : string) : option (list json * string) :=
  match n with
  | O => None
  | S n =>
    match read_value n d (skip s) with
    | Some (x, r) =>
      match skip r with
      | String c r =>
        if Ascii.eqb c "]" then Some ([x], r)
        else if Ascii.eqb c "," then match read_items n d r with Some (l, r) => Some (x :: l, r) | None => None end
        else None
      | EmptyString => None
      end
    | None => None
    end
  end
with read_members (n d : nat) (s : string) : option (list (string * json) * string) :=
  match n with
  | O => None
  | S n =>
    match skip s with
    | String q r =>
      if Ascii.eqb q "034" then
        match read_str r with
        | Some (k, r) =>
          match skip r with
          | String c r =>
            if Ascii.eqb c ":" then
              match read_value n d (skip r) with
              | Some (x, r) =>
                match skip r with
                | String c r =>
                  if Ascii.eqb c "}" then Some ([(k, x)], r)
                  else if Ascii.eqb c "," then match read_members n d r with Some (l, r) => Some ((k, x) :: l, r) | None => None end
                  else None
                | EmptyString => None
                end
              | None => None
              end
            else None
          | EmptyString => None
          end
        | None => None
        end
      else None
    | EmptyString => None
    end
  end.
(** serde_json [from_str]: one value, blanks around it, nothing after it; 128 is its [remaining_depth], and reaching 0 is an error. *)
Definition read_json (s : string) : option json :=
  match read_value (2 * String.length s + 1) 127 (skip s) with
  | Some (j, r) => match skip r with EmptyString => Some j | _ => None end
  | None => None
  end.
