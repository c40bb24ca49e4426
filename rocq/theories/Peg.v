(** Parsing expressions as the pest crate runs them.  The three grammars of the code base (ocafile.pest files) are data of this
    type; [run] is pest's ordered choice, greedy repetition and token production.  No grammar of the code base defines the
    WHITESPACE or COMMENT rules, so pest skips nothing between the parts of a sequence.
    The input is a Coq string, one [ascii] per Rust [char]: codes below 128 are the ASCII characters, the others stand for
    non-ASCII characters. *)
From Verif Require Export Base.

Section Peg.
Context {R : Type}.

(** The pest expressions that occur in the three grammars (semantics/oca-file/src/ocafile.pest 1-260). *)
Inductive pe :=
| PCls (f : ascii -> bool)   (* one character of a class *)
| PLit (s : string)          (* "text" *)
| PLitI (s : string)         (* ^"text", ASCII case ignored; [s] in lower case *)
| PEnd                       (* end of input *)
| PSeq (a b : pe)            (* a ~ b *)
| PAlt (a b : pe)            (* a | b *)
| PStar (a : pe)             (* a* *)
| POpt (a : pe)              (* a? *)
| PNot (a : pe)              (* !a *)
| PRul (r : R).

(** Rule modifiers: [{}], [@{}], [${}].  Silent rules ([_{}]) are written as plain definitions. *)
Inductive mode := Normal | Atomic | Compound.

(** pest::iterators::Pair: the rule, the text it matched, its inner pairs. *)
Inductive pair := Pair (p_rule : R) (p_text : string) (p_inner : list pair).
(** [Pair::as_rule] (pest). *)
Definition p_rule (p : pair) : R := let (r, _, _) := p in r.
(** [Pair::as_str] (pest). *)
Definition p_text (p : pair) : string := let (_, t, _) := p in t.
(** [Pair::into_inner] (pest). *)
Definition p_inner (p : pair) : list pair := let (_, _, i) := p in i.

(** Out of fuel; no match; a match: text consumed, tokens, rest of the input. *)
Inductive pres := PFuel | PFail | PDone (c : string) (ts : list pair) (rest : string).

(** [u8::to_ascii_lowercase]; pest matches [^"..."] with [eq_ignore_ascii_case]. *)
Definition lower (c : ascii) : ascii :=
  let n := nat_of_ascii c in if Nat.leb 65 n && Nat.leb n 90 then ascii_of_nat (n + 32) else c.

(** [strip eq p s]: the part of [s] matched by [p] and the rest. *)
Fixpoint strip (eq : ascii -> ascii -> bool) (p s : string) : option (string * string) :=
  match p, s with
  | EmptyString, _ => Some ("", s)
  | String a p', String b s' => if eq a b then match strip eq p' s' with Some (c, r) => Some (String b c, r) | None => None end else None
  | String _ _, EmptyString => None
  end.

Variable grammar : R -> mode * pe.

(** [atomic]: the parser state is in Atomic mode, where rules produce no tokens (pest ParserState::rule, ParserState::atomic). *)
Fixpoint run (n : nat) (atomic : bool) (e : pe) (s : string) : pres :=
  match n with
  | 0 => PFuel
  | S n =>
    match e with
    | PCls f => match s with String c r => if f c then PDone (String c "") [] r else PFail | EmptyString => PFail end
    | PLit p => match strip Ascii.eqb p s with Some (c, r) => PDone c [] r | None => PFail end
    | PLitI p => match strip (fun a b => Ascii.eqb a (lower b)) p s with Some (c, r) => PDone c [] r | None => PFail end
    | PEnd => match s with EmptyString => PDone "" [] "" | _ => PFail end
    | PSeq a b =>
      match run n atomic a s with
      | PDone c ts r => match run n atomic b r with PDone c' ts' r' => PDone (c +:+ c') (ts ++ ts') r' | x => x end
      | x => x
      end
    | PAlt a b => match run n atomic a s with PFail => run n atomic b s | x => x end
    | PStar a =>
      match run n atomic a s with
      | PDone c ts r => match run n atomic (PStar a) r with PDone c' ts' r' => PDone (c +:+ c') (ts ++ ts') r' | x => x end
      | PFail => PDone "" [] s
      | PFuel => PFuel
      end
    | POpt a => match run n atomic a s with PFail => PDone "" [] s | x => x end
    | PNot a => match run n atomic a s with PDone _ _ _ => PFail | PFail => PDone "" [] s | PFuel => PFuel end
    | PRul r =>
      let (m, b) := grammar r in
      let inside := match m with Normal => atomic | Atomic => true | Compound => false end in
      let shown := match m with Compound => true | _ => negb atomic end in
      match run n inside b s with
      | PDone c ts rest => PDone c (if shown then [Pair r c ts] else ts) rest
      | x => x
      end
    end
  end.

(** pest: [a+] is [a ~ a*]. *)
Definition PPlus (a : pe) : pe := PSeq a (PStar a).
(** pest: [a{n}] is [a] n times. *)
Fixpoint PRep (n : nat) (a : pe) : pe := match n with 0 => PLit "" | 1 => a | S n => PSeq a (PRep n a) end.
(** pest: [a ~ b ~ c], right nested. *)
Fixpoint PSeqs (l : list pe) : pe := match l with [] => PLit "" | [a] => a | a :: l => PSeq a (PSeqs l) end.
(** pest: [a | b | c]. *)
Fixpoint PAlts (l : list pe) : pe := match l with [] => PNot (PLit "") | [a] => a | a :: l => PAlt a (PAlts l) end.
End Peg.
Arguments pe : clear implicits.
Arguments pair : clear implicits.
Arguments pres : clear implicits.

(** pest built-in rules used by the grammars. *)
Definition between (a b : ascii) (c : ascii) : bool := Nat.leb (nat_of_ascii a) (nat_of_ascii c) && Nat.leb (nat_of_ascii c) (nat_of_ascii b).
(** pest ASCII_ALPHA. *)
Definition alpha_c (c : ascii) : bool := between "a" "z" c || between "A" "Z" c.
(** pest ASCII_DIGIT. *)
Definition digit_c (c : ascii) : bool := between "0" "9" c.
(** pest ASCII_HEX_DIGIT. *)
Definition hex_c (c : ascii) : bool := digit_c c || between "a" "f" c || between "A" "F" c.
(** A one-character literal. *)
Definition is_c (a : ascii) (c : ascii) : bool := Ascii.eqb a c.
(** pest ANY. *)
Definition PAny {R} : pe R := PCls (fun _ => true).
(** The line feed. *)
Definition LF : ascii := ascii_of_nat 10.
(** The carriage return. *)
Definition CR : ascii := ascii_of_nat 13.
(** The tabulator. *)
Definition TAB : ascii := ascii_of_nat 9.
(** The backslash. *)
Definition BSL : ascii := ascii_of_nat 92.
(** The double quote. *)
Definition DQ : ascii := ascii_of_nat 34.
(** The text "\n" the generators write (semantics/oca-file/src/ocafile/mod.rs 330-520). *)
Definition NL : string := String LF "".
(** NEWLINE: "\n", "\r\n" or "\r". *)
Definition PNewline {R} : pe R := PAlts [PLit (String LF ""); PLit (String CR (String LF "")); PLit (String CR "")].
