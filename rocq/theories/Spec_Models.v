(** Independent specification of the stored version graph (C45). *)
From Verif Require Export Spec_Facade.

(** A record: texts one after the other, each behind one byte with its length. *)
Fixpoint record (l : list string) : string :=
  match l with [] => "" | s :: r => (String (ascii_of_nat (String.length s)) s +:+ record r)%string end.
(** What the model of a step says: the command under its digest; for a capture base and an overlay node the parent (empty
    for none) and the command's digest; for the bundle the parent, the capture base and the overlays. *)
Definition node_record (n : node) : string * string := (nd_said n, record [unwrap_or "" (nd_parent n); nd_digest n]).
Definition model_records (m : rmodel) : list (string * string) :=
  (cmo_digest (rm_cmd m), cmo_json (rm_cmd m)) :: match rm_cb m with Some n => [node_record n] | None => [] end ++
  match rm_ov m with Some n => [node_record n] | None => [] end ++
  [(bn_said (rm_bundle m), record (unwrap_or "" (bn_parent (rm_bundle m)) :: bn_cb (rm_bundle m) :: bn_ovs (rm_bundle m)))].
Definition last_written (ws : list (string * string)) (k v : string) : Prop := exists pre post, ws = pre ++ (k, v) :: post /\ forall v', (k, v') ∉ post.
