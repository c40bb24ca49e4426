(** Conditions: the ${name} <-> ${index} encoding and its evaluation.
    Models semantics/oca-bundle/src/state/oca/overlay/conditional.rs 23-118 and the
    decoding closures in state/oca.rs 753-763, 1097-1107 and state/validator.rs 270-277. *)
From Verif Require Export Base.

(** A piece of a condition as the regexes of conditional.rs 25 and 55 see it: a literal character or a capture. *)
Inductive token := TLit (c : ascii) | TVar (name : string).

(** conditional.rs 25, 55: the first character of a capture. *)
Definition dollar : ascii := "$"%char.
(** conditional.rs 25, 55: the second one. *)
Definition lbrace : ascii := "{"%char.
(** conditional.rs 25, 55: the last one. *)
Definition rbrace : ascii := "}"%char.

(** conditional.rs 25: split at the first closing brace (tail of the name regex). *)
Fixpoint split_rbrace (s : string) : option (string * string) :=
  match s with
  | EmptyString => None
  | String c s' =>
      if Ascii.eqb c rbrace then Some (EmptyString, s')
      else match split_rbrace s' with
           | Some (a, b) => Some (String c a, b)
           | None => None
           end
  end.

(** conditional.rs 55: regex tail (\d+)\} . Simplification: Rust's \d also matches non-ASCII digits, on which
    the caller's [parse::<usize>().unwrap()] panics; here they are not matched.  Conditions
    produced by [set_condition] contain only ASCII indices. *)
Fixpoint split_digits (s : string) : string * string :=
  match s with
  | EmptyString => (EmptyString, EmptyString)
  | String c s' =>
      if is_digit c then let '(a, b) := split_digits s' in (String c a, b)
      else (EmptyString, s)
  end.
(** conditional.rs 55: the regex after the opening brace. *)
Definition match_index (s : string) : option (string * string) :=
  match split_digits s with
  | (EmptyString, _) => None
  | (ds, String c rest) => if Ascii.eqb c rbrace then Some (ds, rest) else None
  | (_, EmptyString) => None
  end.

(** conditional.rs 28-39, 72-79: [Regex::replace_all] walks left to right over non-overlapping leftmost matches: the text
    as a sequence of literal characters and captures.  [m] decides whether the text right after
    "${" completes a match. Fuel [length s] always suffices (Condition_proofs.v). *)
Fixpoint tokenise (m : string -> option (string * string)) (fuel : nat) (s : string) : list token :=
  match fuel with
  | O => []
  | S f =>
      match s with
      | EmptyString => []
      | String c s1 =>
          if Ascii.eqb c dollar then
            match s1 with
            | String c2 rest =>
                if Ascii.eqb c2 lbrace then
                  match m rest with
                  | Some (cap, after) => TVar cap :: tokenise m f after
                  | None => TLit c :: tokenise m f s1
                  end
                else TLit c :: tokenise m f s1
            | EmptyString => [TLit c]
            end
          else TLit c :: tokenise m f s1
      end
  end.

(** The name regex of conditional.rs 25: dollar, brace, any text without a closing brace, closing brace. *)
Definition tokens_names (s : string) : list token := tokenise split_rbrace (String.length s) s.
(** regex \$\{(\d+)\} , conditional.rs 55, oca.rs 753 and 1097, validator.rs 231. *)
Definition tokens_indices (s : string) : list token := tokenise match_index (String.length s) s.

(** conditional.rs 37 and oca.rs 756-761: the text a capture is written back as. *)
Definition wrap_var (s : string) : string := ("${" +:+ s +:+ "}")%string.

(** [dependencies.iter().position(|d| d == name)], conditional.rs 30-32. *)
Fixpoint position (x : string) (l : list string) : option nat :=
  match l with
  | [] => None
  | y :: l' => if String.eqb x y then Some 0 else option_map S (position x l')
  end.

(** conditional.rs 28-39: the replace_all closure, threading [dependencies]. *)
Fixpoint encode_tokens (ts : list token) (deps : list string) : string * list string :=
  match ts with
  | [] => (EmptyString, deps)
  | TLit c :: ts' => let '(s, d) := encode_tokens ts' deps in (String c s, d)
  | TVar n :: ts' =>
      let '(i, deps') := match position n deps with
                         | Some i => (i, deps)
                         | None => (length deps, deps ++ [n])
                         end in
      let '(s, d) := encode_tokens ts' deps' in (wrap_var (dec_of_nat i) +:+ s, d)%string
  end.

(** conditional.rs 24-43 [set_condition]: the new ([condition], [dependencies]) pair. *)
Definition encode_condition (c : string) : string * list string :=
  encode_tokens (tokens_names c) [].

(** conditional.rs 72-79, oca.rs 753-763: replacement of every ${i} by [f i]; [None] models a panic inside the closure
    (index out of range, parse overflow, missing map entry). *)
Fixpoint subst_indices (f : nat -> option string) (ts : list token) : option string :=
  match ts with
  | [] => Some EmptyString
  | TLit c :: ts' => option_map (String c) (subst_indices f ts')
  | TVar ds :: ts' =>
      match nat_of_dec ds with
      | None => None
      | Some i => match f i, subst_indices f ts' with
                  | Some v, Some s => Some (v +:+ s)%string
                  | _, _ => None
                  end
      end
  end.

(** oca.rs 753-763 and 1097-1107: put the names back. [None] = panic. *)
Definition decode_condition (c : string) (deps : list string) : option string :=
  subst_indices (fun i => option_map wrap_var (deps !! i)) (tokens_indices c).

(** conditional.rs 72-79 / validator.rs 270-277: put values in. [None] = panic. *)
Definition script_of (c : string) (deps : list string) (vals : gmap string string) : option string :=
  subst_indices (fun i => match deps !! i with Some d => vals !! d | None => None end) (tokens_indices c).

Section Lua.
(** The Lua interpreter on "return <script>" (piccolo): a boolean or an error text. *)
Variable lua : string -> bool + string.

(** conditional.rs 45-117 [check_condition] for an attribute called [attr]; [cond]/[deps] are its
    condition and dependencies fields; [vals] maps names to the Display text of the value.
    Message texts are kept, except the Lua error text which is the oracle's. *)
Definition check_condition (attr : string) (cond : option string) (deps : option (list string))
    (vals : gmap string string) : outcome bool :=
  match cond with
  | None => Err ["Attribute has no condition"]
  | Some c =>
    match deps with
    | None => Panic
    | Some ds =>
      let e1 := if existsb (String.eqb attr) ds
                then [("Attribute '" +:+ attr +:+ "' cannot be a dependency of itself")%string] else [] in
      let e2 := map (fun d => ("Missing dependency '" +:+ d +:+ "' value")%string)
                    (List.filter (fun d => negb (is_some_b (vals !! d))) ds) in
      match e1 ++ e2 with
      | [] =>
        match script_of c ds vals with
        | None => Panic
        | Some script =>
          match lua ("return " +:+ script)%string with
          | inl b => Ok b
          | inr e => Err [("Attribute '" +:+ attr +:+ "' has invalid condition: " +:+ e)%string]
          end
        end
      | es => Err es
      end
    end
  end.
End Lua.
