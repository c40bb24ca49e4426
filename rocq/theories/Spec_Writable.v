(** Independent specification for C47: the bundles whose contents can be said in an OCAfile. *)
From Verif Require Export Bundle Condition Spec_OcaFile.
From Verif Require Import OcaFile.

Section Writable.
Variable wide : ascii -> bool.
Variable said_ok : string -> bool.
Variable to1 : string -> option string.
(** A map from names to things that can be written; overlays without entries cannot. *)
Definition names_to {V} (ok : V -> Prop) (m : gmap string V) : Prop := m <> ∅ /\ forall n v, m !! n = Some v -> name_ok n /\ ok v.
Definition quoted (t : string) : Prop := quotable t = true.
(** The two-letter code of the language. *)
Definition lang_writable (l : string) : Prop := forall s, to1 l = Some s -> lang_text_ok s.
Definition ecodes_writable (e : ecodes) : Prop :=
  match e with
  | ECSai s => quoted s
  | ECArr l => Forall quoted l
  | ECObj g => NoDup (map fst g) /\ Forall (fun x => quoted x.1 /\ Forall quoted x.2) g
  end.
Definition entries_writable (e : entries) : Prop :=
  match e with EnSai s => quoted s | EnObj m => forall k t, m !! k = Some t -> quoted k /\ quoted t end.
Definition body_writable (b : body) : Prop :=
  match b with
  | BEncoding m => names_to (fun _ => True) m
  | BFormat m | BConformance m | BCardinality m | BUnit m => names_to quoted m
  | BMeta l m => lang_writable l /\ names_to quoted m /\ m !! "lang" = None
  | BLabel l _ m _ | BInformation l m => lang_writable l /\ names_to quoted m
  | BConditional c d => c <> ∅ /\ forall n x deps t, c !! n = Some x -> name_ok n /\ (d !! n = Some deps -> decode_condition x deps = Some t -> quoted t)
  | BEntryCode m => names_to ecodes_writable m
  | BEntry l m => lang_writable l /\ names_to entries_writable m
  | _ => True
  end.
(** Attributes with nameable names and writable types, no classification (it is written into the line of the attributes), and
    overlays whose texts can stand between quotes. *)
Record bundle_writable (B : bundle) : Prop := {
  bw_attrs : table_ok (type_ok wide said_ok) (cb_attrs (b_cb B));
  bw_class : cb_class (b_cb B) = "";
  bw_ovs : forall ov, ov ∈ b_ovs B -> body_writable (ov_body ov) }.
End Writable.
