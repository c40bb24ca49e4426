(** Histories of a facade: successful validations and builds, in order, with the ASTs given and the bundles obtained.
    A call that fails leaves the facade as it was: [validate_ast] and [build_ast] give no new state then. *)
From Verif Require Export Facade.

Section Runs.
Variable validate : (nat -> order) -> ast -> facade -> outcome (facade * (bundle * list bstep)).
Variable build_one : (nat -> order) -> ast -> facade -> outcome (facade * bundle).
Inductive runs (f : facade) : list (ast * bundle) -> facade -> Prop :=
| runs_none : runs f [] f
| runs_validate h f1 os a B steps f2 : runs f h f1 -> validate os a f1 = Ok (f2, (B, steps)) -> runs f (h ++ [(a, B)]) f2
| runs_build h f1 os a B f2 : runs f h f1 -> build_one os a f1 = Ok (f2, B) -> runs f (h ++ [(a, B)]) f2.
End Runs.
(** The SAID of the last bundle of the history [h] whose AST is named [n]. *)
Definition registered (h : list (ast * bundle)) (n s : string) : Prop :=
  exists pre a B post, h = pre ++ (a, B) :: post /\ ast_meta a !! "name" = Some n /\ b_said B = Some s /\
    forall a' B', (a', B') ∈ post -> ast_meta a' !! "name" <> Some n.
