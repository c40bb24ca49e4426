(** Independent specification of the facade's stores. *)
From Verif Require Export Facade Spec_BundleCodec Spec_Dag Text.

(** One entry of a store. *)
Definition entry (d : mem) (n : namespace) (k : string) : option string := d !! ns_name n ≫= fun s => s !! k.

Section Spec.
Variables said_ok digits lang_ok : string -> bool.
Variable standard_read : string -> option string.
Variable of_text : string -> option json.
Notation fetch := (get_bundle said_ok digits lang_ok standard_read of_text).

(** A stored bundle carries the SAID it is stored under. *)
Definition consistent (d : mem) : Prop := forall k B, fetch d k = Ok B -> b_said B = Some k.

(** The bundle [B] refers to [r]: an attribute is of type "reference to [r]" or "array of references to [r]". *)
Definition refers (B : bundle) (r : string) : Prop :=
  exists n, (n, NRef (RSaid r)) ∈ cb_attrs (b_cb B) \/ (n, NArr (NRef (RSaid r))) ∈ cb_attrs (b_cb B).
(** [r] is reached from [s] by one or more references between stored bundles. *)
Inductive reached (d : mem) (s : string) : string -> Prop :=
| reached_one B r : fetch d s = Ok B -> refers B r -> reached d s r
| reached_more t B r : reached d s t -> fetch d t = Ok B -> refers B r -> reached d s r.
(** No bundle reaches itself, by a measure that goes down along references. *)
Definition acyclic (d : mem) : Prop := exists rank : string -> nat, forall s B r, fetch d s = Ok B -> refers B r -> (rank r < rank s)%nat.

(** The stored and the returned step say the same: same command, same parent, same bundle JSON. *)
Definition same_step (s s' : bstep) : Prop :=
  bs_cmd s' = bs_cmd s /\ bs_parent s' = bs_parent s /\ bundle_json (bs_result s') = bundle_json (bs_result s) /\
  b_said (bs_result s') = b_said (bs_result s).

(** What can be stored and read back of a step. *)
Record step_storable (s : bstep) : Prop := {
  ss_bundle : bundle_readable said_ok digits lang_ok (bs_result s);
  ss_groups : groups_sorted (bs_result s);
  ss_command : command_ok (bs_cmd s) /\ refs_valid said_ok (bs_cmd s) /\ json_faithful said_ok (bs_cmd s);
  ss_depth : shallow (bundle_json (bs_result s)) /\ shallow (command_json (bs_cmd s)) }.
(** Consecutive steps are chained by SAIDs, the first one to [base]. *)
Fixpoint chained (base : option string) (l : list bstep) : Prop :=
  match l with [] => True | s :: r => bs_parent s = base /\ chained (b_said (bs_result s)) r end.
End Spec.
