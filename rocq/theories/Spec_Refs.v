(** Independent specification of local reference resolution (C25): which command a command turns into, given a table of names. *)
From Verif Require Export Ast.

Section Refs.
(** [known n s]: the name [n] is registered for the SAID [s]. *)
Variable known : string -> string -> Prop.

(** Attribute types: a named reference, or an array of named references, becomes the SAID one; any other type stays. *)
Definition named_type (t : nattr) (n : string) : Prop := t = NRef (RName n) \/ t = NArr (NRef (RName n)).
Inductive type_resolved : nattr -> nattr -> Prop :=
| tr_name n s : known n s -> type_resolved (NRef (RName n)) (NRef (RSaid s))
| tr_array n s : known n s -> type_resolved (NArr (NRef (RName n))) (NArr (NRef (RSaid s)))
| tr_other t : (forall n, ~ named_type t n) -> type_resolved t t.
Definition attr_resolved (a a' : string * nattr) : Prop := a.1 = a'.1 /\ type_resolved a.2 a'.2.

(** The target of an added link: the first (only) property "target". *)
Definition target_of (p : imap nvalue) (v : nvalue) (pre post : imap nvalue) : Prop :=
  p = pre ++ ("target", v) :: post /\ "target" ∉ pre.*1.
(** [c] is a command the resolution looks into. *)
Definition adds_attributes (c : command) (l : imap nattr) : Prop :=
  exists p fl, c = Command CAdd (OCaptureBase (CapContent (Some l) p fl)).
Definition adds_link (c : command) (p : imap nvalue) : Prop :=
  exists v a, c = Command CAdd (OOverlay (OType KLink v) (Content a (Some p))).
(** [c] mentions the name [n] where names are resolved. *)
Definition mentions (c : command) (n : string) : Prop :=
  (exists l a t, adds_attributes c l /\ (a, t) ∈ l /\ named_type t n) \/
  (exists p pre post, adds_link c p /\ target_of p (VRef (RName n)) pre post).

Inductive cmd_resolved : command -> command -> Prop :=
| cr_attrs l l' p fl : Forall2 attr_resolved l l' ->
    cmd_resolved (Command CAdd (OCaptureBase (CapContent (Some l) p fl))) (Command CAdd (OCaptureBase (CapContent (Some l') p fl)))
| cr_link v a pre n s post : known n s -> "target" ∉ pre.*1 ->
    cmd_resolved (Command CAdd (OOverlay (OType KLink v) (Content a (Some (pre ++ ("target", VRef (RName n)) :: post)))))
                 (Command CAdd (OOverlay (OType KLink v) (Content a (Some (pre ++ ("target", VRef (RSaid s)) :: post)))))
| cr_same c : (forall n, ~ mentions c n) -> cmd_resolved c c.
End Refs.
