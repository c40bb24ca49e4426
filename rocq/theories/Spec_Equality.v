(** Values, contents and commands that are the same but for the order in which names are given. *)
From Verif Require Import Base Ast Bundle Spec_Bundle Build Spec_Build.
Local Open Scope list_scope.

(** The pairs of [l], in some order and with values related by [R]. *)
Definition reordered {V} (R : V -> V -> Prop) (l l' : list (string * V)) : Prop :=
  exists m, l ≡ₚ m /\ Forall2 (fun x y => x.1 = y.1 /\ R x.2 y.2) m l'.
(** The same value: the pairs of an object may come in another order, at every depth; the elements of an array may not. *)
Inductive same_value : nvalue -> nvalue -> Prop :=
| sv_ref r : same_value (VRef r) (VRef r)
| sv_val s : same_value (VVal s) (VVal s)
| sv_arr l l' : Forall2 same_value l l' -> same_value (VArr l) (VArr l')
| sv_obj l m l' : l ≡ₚ m -> Forall2 (fun x y => x.1 = y.1 /\ same_value x.2 y.2) m l' -> same_value (VObj l) (VObj l').
Definition same_opt {A} (R : A -> A -> Prop) (a b : option A) : Prop :=
  match a, b with Some x, Some y => R x y | None, None => True | _, _ => False end.
Definition same_object (a b : obj_kind) : Prop :=
  match a, b with
  | OCaptureBase c, OCaptureBase c' =>
      same_opt (reordered eq) (cc_attrs c) (cc_attrs c') /\ same_opt (reordered same_value) (cc_props c) (cc_props c') /\ cc_flagged c = cc_flagged c'
  | OBundle c, OBundle c' => c = c'
  | OOverlay t c, OOverlay t' c' => t = t' /\ same_opt (reordered same_value) (ct_attrs c) (ct_attrs c') /\ same_opt (reordered same_value) (ct_props c) (ct_props c')
  | _, _ => False
  end.
(** The same command but for the order of names. *)
Definition reordered_command (a b : command) : Prop := cmd_kind a = cmd_kind b /\ same_object (cmd_obj a) (cmd_obj b).
(** A command that gives entry codes in groups: their order is kept in the bundle. *)
Definition gives_groups (c : command) : Prop :=
  exists v ct n l, cmd_obj c = OOverlay (OType KEntryCode v) ct /\ has (ct_attrs ct) n (VObj l).
