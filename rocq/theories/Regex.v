(** Regular expressions of the regex crate, as used by state/standard.rs 19-35 and oca_bundle_fts_repo.rs 126-159: syntax
    trees, the language test, and the reader of patterns.  The regex crate is not in /repo: this follows its documented
    syntax for literals, [.], bracketed classes of characters and ranges, groups, alternatives and [* + ?] (greedy or lazy,
    which does not change the language).  Escapes, counted repetitions, anchors inside a pattern, flags, nested or combined
    classes are not read ([RxOutside]).  A character is a byte here. *)
From Verif Require Export Base.

(** Ranges of a class: both ends belong to it. Serves standard.rs 27 and oca_bundle_fts_repo.rs 146 ([Regex::new]). *)
Definition ranges := list (ascii * ascii).
(** Whether a character lies in a class. Serves standard.rs 35 and oca_bundle_fts_repo.rs 155 (matching). *)
Definition in_ranges (l : ranges) (c : ascii) : bool :=
  existsb (fun ab => (N.leb (N_of_ascii ab.1) (N_of_ascii c) && N.leb (N_of_ascii c) (N_of_ascii ab.2))%bool) l.

(** The trees of a pattern.  [RGroup] is a capturing group. Serves standard.rs 27 and oca_bundle_fts_repo.rs 146 ([Regex::new]). *)
Inductive rx :=
| REmpty
| RChar (c : ascii)
| RDot
| RClass (neg : bool) (l : ranges)
| RCat (a b : rx)
| RAlt (a b : rx)
| RStar (a : rx)
| RGroup (a : rx).

(** The newline, which [.] does not match. Serves standard.rs 35 and oca_bundle_fts_repo.rs 155 (matching). *)
Definition newline : ascii := "010"%char.

(** One character against a leaf. Serves standard.rs 35 and oca_bundle_fts_repo.rs 155 (matching). *)
Definition leaf_ok (r : rx) (c : ascii) : bool :=
  match r with
  | RChar d => Ascii.eqb d c
  | RDot => negb (Ascii.eqb c newline)
  | RClass neg l => xorb neg (in_ranges l c)
  | _ => false
  end.

(** Whether the empty text is in the language. Serves standard.rs 35 and oca_bundle_fts_repo.rs 155 (matching). *)
Fixpoint nullable (r : rx) : bool :=
  match r with
  | REmpty | RStar _ => true
  | RChar _ | RDot | RClass _ _ => false
  | RCat a b => nullable a && nullable b
  | RAlt a b => nullable a || nullable b
  | RGroup a => nullable a
  end.

(** The automaton: after reading some characters, what is left to match is one of a list of continuations, each a list of
    trees to match in order.  Stands for the regex crate's matcher, of which only yes or no is used. Serves standard.rs 35 and oca_bundle_fts_repo.rs 155 (matching). *)
Fixpoint after_char (c : ascii) (r : rx) : list (list rx) :=
  match r with
  | REmpty => []
  | RChar _ | RDot | RClass _ _ => if leaf_ok r c then [[]] else []
  | RCat a b => map (fun k => k ++ [b]) (after_char c a) ++ (if nullable a then after_char c b else [])
  | RAlt a b => after_char c a ++ after_char c b
  | RStar a => map (fun k => k ++ [RStar a]) (after_char c a)
  | RGroup a => after_char c a
  end.
(** The continuations of a list of trees after a character. Serves standard.rs 35 and oca_bundle_fts_repo.rs 155 (matching). *)
Fixpoint after_list (c : ascii) (k : list rx) : list (list rx) :=
  match k with
  | [] => []
  | r :: k' => map (fun k1 => k1 ++ k') (after_char c r) ++ (if nullable r then after_list c k' else [])
  end.
(** No continuation is kept twice. *)
#[global] Instance rx_eq_dec : EqDecision rx.
Proof. solve_decision. Defined.
(** The whole text matches one of the continuations. Serves standard.rs 35 and oca_bundle_fts_repo.rs 155 (matching). *)
Fixpoint states_match (ks : list (list rx)) (s : list ascii) : bool :=
  match s with
  | [] => existsb (fun k => forallb nullable k) ks
  | c :: s' => states_match (remove_dups (concat (map (after_list c) ks))) s'
  end.
(** The whole text is in the language of the pattern. Serves standard.rs 35 ([is_match] of an anchored pattern). *)
Definition rx_match (r : rx) (s : string) : bool := states_match [[r]] (list_ascii_of_string s).

(** Capturing groups in a pattern ([static_captures_len] counts them). Serves oca_bundle_fts_repo.rs 155 ([extract]). *)
Fixpoint rx_groups (r : rx) : nat :=
  match r with
  | REmpty | RChar _ | RDot | RClass _ _ => 0
  | RCat a b | RAlt a b => rx_groups a + rx_groups b
  | RStar a => rx_groups a
  | RGroup a => S (rx_groups a)
  end.

(** What reading a pattern gives: a tree, a syntax error ([Regex::new] is [Err]), or a pattern outside this fragment. Serves standard.rs 27 and oca_bundle_fts_repo.rs 146 ([Regex::new]). *)
Inductive rx_read := RxTree (r : rx) | RxBad | RxOutside.

(** The trees read so far between two bars, last first, as one tree. Serves standard.rs 27 and oca_bundle_fts_repo.rs 146 ([Regex::new]). *)
Definition cat_of (l : list rx) : rx :=
  match l with [] => REmpty | r :: l' => fold_left (fun acc x => RCat x acc) l' r end.
(** The alternatives read so far (last first) and the current run of trees, as one tree. Serves standard.rs 27 and oca_bundle_fts_repo.rs 146 ([Regex::new]). *)
Definition alt_of (alts : list rx) (cur : list rx) : rx := fold_left (fun acc x => RAlt x acc) alts (cat_of cur).

(** Where the reader is: after an opening parenthesis; after a repetition sign, which a [?] would only make lazy; or
    anywhere else; or inside a bracketed class, with its ranges so far and whether a range is half read. Serves standard.rs 27 and oca_bundle_fts_repo.rs 146 ([Regex::new]). *)
Inductive mode := MPlain | MOpen | MRep | MClass (neg start : bool) (l : ranges) (dash : bool).

(** The characters that have a meaning of their own outside a class. Serves standard.rs 27 and oca_bundle_fts_repo.rs 146 ([Regex::new]). *)
Definition special : list ascii :=
  ["\"; "."; "+"; "*"; "?"; "("; ")"; "|"; "["; "{"; "^"; "$"]%char.
(** The characters a class may hold here. Serves standard.rs 27 and oca_bundle_fts_repo.rs 146 ([Regex::new]). *)
Definition class_char (c : ascii) : bool := negb (existsb (Ascii.eqb c) ["\"; "["; "]"; "&"; "~"; "^"; "-"]%char).

(** Reading a pattern from the left.  [stack] holds, for every open parenthesis, the alternatives and the run before it. Serves standard.rs 27 and oca_bundle_fts_repo.rs 146 ([Regex::new]). *)
Fixpoint rx_scan (s : list ascii) (m : mode) (stack : list (list rx * list rx)) (alts cur : list rx) : rx_read :=
  match s with
  | [] =>
    match m, stack with
    | MClass _ _ _ _, _ => RxBad
    | _, [] => RxTree (alt_of alts cur)
    | _, _ :: _ => RxBad
    end
  | c :: s' =>
    match m with
    | MClass neg start l dash =>
      if Ascii.eqb c "]" then
        match dash, l with
        | false, _ :: _ => rx_scan s' MPlain stack alts (RClass neg (reverse l) :: cur)
        | _, _ => RxOutside
        end
      else if Ascii.eqb c "^" then if start then rx_scan s' (MClass true false l dash) stack alts cur else RxOutside
      else if Ascii.eqb c "-" then
        match dash, l with
        | false, _ :: _ => rx_scan s' (MClass neg false l true) stack alts cur
        | _, _ => RxOutside
        end
      else if class_char c then
        match dash, l with
        | true, (a, _) :: l' =>
          if N.leb (N_of_ascii a) (N_of_ascii c) then rx_scan s' (MClass neg false ((a, c) :: l') false) stack alts cur else RxBad
        | true, [] => RxOutside
        | false, _ => rx_scan s' (MClass neg false ((c, c) :: l) false) stack alts cur
        end
      else RxOutside
    | _ =>
      if Ascii.eqb c "(" then rx_scan s' MOpen ((alts, cur) :: stack) [] []
      else if Ascii.eqb c ")" then
        match stack with
        | [] => RxBad
        | (alts0, cur0) :: stack' => rx_scan s' MPlain stack' alts0 (RGroup (alt_of alts cur) :: cur0)
        end
      else if Ascii.eqb c "|" then rx_scan s' MPlain stack (cat_of cur :: alts) []
      else if Ascii.eqb c "?" then
        match m with
        | MOpen => RxOutside
        | MRep => rx_scan s' MPlain stack alts cur
        | _ => match cur with [] => RxBad | r :: cur' => rx_scan s' MRep stack alts (RAlt r REmpty :: cur') end
        end
      else if Ascii.eqb c "*" then
        match cur with [] => RxBad | r :: cur' => rx_scan s' MRep stack alts (RStar r :: cur') end
      else if Ascii.eqb c "+" then
        match cur with [] => RxBad | r :: cur' => rx_scan s' MRep stack alts (RCat r (RStar r) :: cur') end
      else if Ascii.eqb c "." then rx_scan s' MPlain stack alts (RDot :: cur)
      else if Ascii.eqb c "[" then rx_scan s' (MClass false true [] false) stack alts cur
      else if existsb (Ascii.eqb c) special then RxOutside
      else rx_scan s' MPlain stack alts (RChar c :: cur)
    end
  end.
(** [Regex::new] on a pattern of the fragment. Serves standard.rs 27 and oca_bundle_fts_repo.rs 146 ([Regex::new]). *)
Definition rx_new (p : string) : rx_read := rx_scan (list_ascii_of_string p) MPlain [] [] [].
