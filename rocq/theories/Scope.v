(** The scope of a search record.  Models oca_bundle_fts_repo.rs 126-159 [Record::get_scope]. *)
From Verif Require Export Regex Index OcaFile.

(** [str::replace(p, "")], oca_bundle_fts_repo.rs 129-130; [without] is the model of that call in OcaFile.v. *)
Definition unmark (s : string) : string := without "</mark>" (without "<mark>" s).

(** [snippet_regex.split("...")], 131-132: the pieces, from the left. *)
Fixpoint split_dots (n : nat) (s acc : string) : list string :=
  match n, s with
  | S n, String c r =>
    match strip Ascii.eqb "..." s with
    | Some (_, r') => acc :: split_dots n r' ""
    | None => split_dots n r (acc +:+ String c "")
    end
  | _, _ => [acc]
  end.
(** 131-132: the same, with enough steps. *)
Definition pieces (s : string) : list string := split_dots (S (String.length s)) s "".

(** 133-138: a leading ellipsis becomes [.*] before the next piece. *)
Definition open_start (v : list string) : list string :=
  match v with
  | "" :: x :: v' => (".*" +:+ x) :: v'
  | [""] => []
  | _ => v
  end.
(** 139-144: a trailing ellipsis becomes [.*] after the piece before it; [v.last().unwrap()] panics on no pieces. *)
Definition open_end (v : list string) : outcome (list string) :=
  match reverse v with
  | [] => Panic
  | "" :: x :: v' => Ok (reverse ((x +:+ ".*") :: v'))
  | [""] => Ok []
  | _ => Ok v
  end.
(** 127-145: the snippet as a pattern. *)
Definition snippet_pattern (snip : string) : outcome string :=
  let! v := open_end (open_start (pieces (unmark snip))) in Ok (String.concat "..." v).

(** 147-154: the text that is searched. *)
Definition haystack (name descr : string) : list ascii :=
  list_ascii_of_string ("meta_overlay:" +:+ name +:+ String newline "" +:+ "meta_overlay:" +:+ descr +:+ String newline "").

(** oca_bundle_fts_repo.rs 146, [([^:]+):] at a place: the characters up to the first colon, if there are any, and what follows the colon. *)
Fixpoint to_colon (s : list ascii) : option (list ascii * list ascii) :=
  match s with
  | [] => None
  | c :: s' =>
    if Ascii.eqb c ":" then Some ([], s')
    else match to_colon s' with Some (g, r) => Some (c :: g, r) | None => None end
  end.
(** oca_bundle_fts_repo.rs 146, [$] with (?m): the end of the text or of a line. *)
Definition line_end (s : list ascii) : bool := match s with [] => true | c :: _ => Ascii.eqb c newline end.
(** oca_bundle_fts_repo.rs 146: the pattern of the snippet, then [$]. *)
Definition matches_line (r : rx) (s : list ascii) : bool :=
  existsb (fun n => states_match [[r]] (take n s) && line_end (drop n s)) (seq 0 (S (length s))).
(** The first match of [(?m)^([^:]+):PATTERN$], 146 and 155-157: the first start of a line from which there is one, and
    its group.  The group is all up to the colon, so there is one candidate per line start. *)
Fixpoint first_match (r : rx) (bol : bool) (s : list ascii) : option (list ascii) :=
  let later := match s with [] => None | c :: s' => first_match r (Ascii.eqb c newline) s' end in
  if bol then
    match to_colon s with
    | Some ((_ :: _) as g, rest) => if matches_line r rest then Some g else later
    | _ => later
    end
  else later.

(** oca_bundle_fts_repo.rs 146: whether a pattern keeps its meaning between [^([^:]+):] and [$]: it has no bar, which would split the whole, and does
    not begin with a repetition sign, which would apply to the colon. *)
Definition self_contained (p : string) : bool :=
  all_chars (fun c => negb (Ascii.eqb c "|")) p &&
  match p with String c _ => negb (existsb (Ascii.eqb c) ["*"; "+"; "?"]%char) | "" => true end.

Section Scope.
(** The scope of patterns outside the fragment of Regex.v. *)
Variable other : string -> fts_row -> outcome string.
(** 126-159.  [Regex::new(..).unwrap()] panics on a bad pattern; [extract] panics when a match has other than one group. *)
Definition get_scope (snip : string) (r : fts_row) : outcome string :=
  let! p := snippet_pattern snip in
  if negb (self_contained p) then other snip r else
  match rx_new p with
  | RxBad => Panic
  | RxOutside => other snip r
  | RxTree t =>
    match first_match t true (haystack (ft_name r) (ft_descr r)) with
    | None => Ok ""
    | Some g => if Nat.eqb (rx_groups t) 0 then Ok (string_of_list_ascii g) else Panic
    end
  end.
End Scope.
