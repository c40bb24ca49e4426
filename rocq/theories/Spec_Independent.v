(** Commands that touch different things. *)
From Verif Require Import Base Ast Bundle Spec_Bundle Build Spec_Build.
Local Open Scope list_scope.

(** What a command can touch: an attribute as such (declared, retyped or removed), an attribute it only names, a slot of an
    attribute (label in a language, unit, link to a target, ...), a meta entry in a language, the classification. *)
Inductive thing := TheAttr (n : string) | Named (n : string) | TheSlot (n : string) (s : slot) | TheMeta (lang key : string) | TheClass.
Section Touch.
Variable from1 : string -> option string.
Inductive touches : command -> thing -> Prop :=
| t_declares k cc l n : cc_attrs cc = Some l -> n ∈ imap_keys l -> touches (Command k (OCaptureBase cc)) (TheAttr n)
| t_class k cc v : has (cc_props cc) "classification" v -> touches (Command k (OCaptureBase cc)) TheClass
| t_names k t ct n v : ot_kind t ∈ attribute_kinds -> has (ct_attrs ct) n v -> touches (Command k (OOverlay t ct)) (Named n)
| t_slot k t ct n v s d : has (ct_attrs ct) n v -> says from1 (ot_kind t) (ct_props ct) v s d -> touches (Command k (OOverlay t ct)) (TheSlot n s)
| t_meta k t ct l key s : ot_kind t = KMeta -> lang_is from1 (ct_props ct) l -> key <> "lang" -> has (ct_props ct) key (VVal s) -> touches (Command k (OOverlay t ct)) (TheMeta l key).
(** Two things that must not be touched by independent commands: the same thing (two commands may name the same attribute), or an
    attribute and its name. *)
Inductive clash : thing -> thing -> Prop :=
| c_attr n : clash (TheAttr n) (TheAttr n)
| c_attr_named n : clash (TheAttr n) (Named n)
| c_named_attr n : clash (Named n) (TheAttr n)
| c_slot n s : clash (TheSlot n s) (TheSlot n s)
| c_meta l key : clash (TheMeta l key) (TheMeta l key)
| c_class : clash TheClass TheClass.
Definition independent (c c' : command) : Prop := forall t t', touches c t -> touches c' t' -> ~ clash t t'.
(** The lists of commands reached by exchanging neighbours that are independent. *)
Inductive rearranged : list command -> list command -> Prop :=
| ra_refl l : rearranged l l
| ra_swap p c c' q l : independent c c' -> rearranged (p ++ c' :: c :: q) l -> rearranged (p ++ c :: c' :: q) l.
(** Every two commands of a list are independent. *)
Inductive all_independent : list command -> Prop :=
| ai_nil : all_independent []
| ai_cons c l : (forall c', c' ∈ l -> independent c c') -> all_independent l -> all_independent (c :: l).
End Touch.
