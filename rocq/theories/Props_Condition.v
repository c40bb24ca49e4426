(** C08, C09: conditions.  Statements only; proofs in Condition_spec_proofs.v. *)
From Verif Require Import Bundle Spec_Condition Condition_spec_proofs.

(** C08.  For every text [c] there is exactly one left-to-right reading [ps] (Spec_Condition.v); the
    stored dependency list has no duplicates and holds exactly the names in [ps]; the stored text is [c]
    with every [${n}] replaced by [${i}] where dependency number [i] is [n]; and decoding gives [c] back. *)
Theorem C08_condition_encoding_lossless : forall (a : attribute) (c : string),
  exists cond deps ps idx,
    at_cond (set_condition c a) = Some cond /\ at_deps (set_condition c a) = Some deps /\
    reads c ps /\ (forall qs, reads c qs -> qs = ps) /\
    NoDup deps /\
    (forall n, n ∈ deps <-> PName n ∈ ps) /\
    (forall n, PName n ∈ ps -> deps !! idx n = Some n) /\
    cond = render (fun n => "${" +:+ dec_of_nat (idx n) +:+ "}")%string ps /\
    decode_condition cond deps = Some c.
Proof.
  exact (fun a c => match C08_proof c with
    ex_intro _ ps (ex_intro _ idx H) => ex_intro _ _ (ex_intro _ _ (ex_intro _ ps (ex_intro _ idx
      (conj eq_refl (conj eq_refl H))))) end).
Qed.
Print Assumptions C08_condition_encoding_lossless.

Example C08_example :
  encode_condition "${age} > 18 and ${name} ~= '' or ${age} == ${x"
  = ("${0} > 18 and ${1} ~= '' or ${0} == ${x", ["age"; "name"]).
Proof. reflexivity. Qed.

(** C09, no error case: the evaluator receives the original text with each [${n}] replaced by the
    value's text; the result is the evaluator's.  No panic. *)
Theorem C09_condition_evaluates_original : forall lua (a : attribute) c ps (vals : gmap string string),
  let a' := set_condition c a in
  reads c ps ->
  PName (at_name a) ∉ ps ->
  (forall n, PName n ∈ ps -> is_Some (vals !! n)) ->
  check_condition lua (at_name a') (at_cond a') (at_deps a') vals =
  match lua ("return " +:+ render (fun n => unwrap_or "" (vals !! n)) ps)%string with
  | inl b => Ok b
  | inr e => Err [("Attribute '" +:+ at_name a +:+ "' has invalid condition: " +:+ e)%string]
  end.
Proof. exact (fun lua a c => C09_ok lua (at_name a) c). Qed.
Print Assumptions C09_condition_evaluates_original.

(** C09, error case: exactly the self-dependency and missing-value errors. *)
Theorem C09_condition_errors : forall lua (a : attribute) c ps (vals : gmap string string),
  let a' := set_condition c a in
  reads c ps ->
  PName (at_name a) ∈ ps \/ (exists n, PName n ∈ ps /\ vals !! n = None) ->
  exists es, check_condition lua (at_name a') (at_cond a') (at_deps a') vals = Err es /\
    (forall e, e ∈ es <->
       (PName (at_name a) ∈ ps /\ e = ("Attribute '" +:+ at_name a +:+ "' cannot be a dependency of itself")%string) \/
       (exists n, PName n ∈ ps /\ vals !! n = None /\ e = ("Missing dependency '" +:+ n +:+ "' value")%string)).
Proof. exact (fun lua a c => C09_err lua (at_name a) c). Qed.
Print Assumptions C09_condition_errors.

(** An attribute that never had a condition set reports that, whatever the values. *)
Theorem C09_no_condition : forall lua n vals,
  check_condition lua n (at_cond (attr_new n)) (at_deps (attr_new n)) vals = Err ["Attribute has no condition"].
Proof. exact (fun _ _ _ => eq_refl). Qed.
Print Assumptions C09_no_condition.

Example C09_example_ok :
  check_condition (fun s => if String.eqb s "return 20 > 18" then inl true else inr "bad")
    "adult" (Some "${0} > 18") (Some ["age"]) {["age" := "20"]} = Ok true.
Proof. reflexivity. Qed.
Example C09_example_err :
  check_condition (fun s => inl true)
    "adult" (Some "${0} > 18 and ${1}") (Some ["age"; "adult"]) {["adult" := "20"]}
  = Err ["Attribute 'adult' cannot be a dependency of itself"; "Missing dependency 'age' value"].
Proof. reflexivity. Qed.
