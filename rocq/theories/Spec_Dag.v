(** Independent specification of the version graph. *)
From Verif Require Export Dag Spec_Relations.

Section Lines.
Variable from1 : string -> option string.
(** The step's command is about the capture base. *)
Definition capture_step (s : bstep) : Prop := exists cc, cmd_obj (bs_cmd s) = OCaptureBase cc.
(** The step's command is about an overlay kind (in a language), and [x] is the SAID of the first overlay of the
    step's bundle with that type and language. *)
Definition overlay_step (s : bstep) (k : okind) (l : option string) (x : string) : Prop :=
  exists t ct pre ov post, cmd_obj (bs_cmd s) = OOverlay t ct /\ l = cmd_lang from1 (ct_props ct) /\ k = ot_kind t /\
    b_ovs (bs_result s) = pre ++ ov :: post /\ ov_type ov = t /\ ov_lang ov = l /\ ov_said ov = Some x /\
    forall ov', ov' ∈ pre -> ~ (ov_type ov' = t /\ ov_lang ov' = l).
(** [x] is what [P] says of the latest of the first [i] steps it says something of. *)
Definition latest (P : bstep -> string -> Prop) (steps : list bstep) (i : nat) (x : option string) : Prop :=
  match x with
  | Some v => exists j s, (j < i)%nat /\ steps !! j = Some s /\ P s v /\ forall j' s', (j < j' < i)%nat -> steps !! j' = Some s' -> forall v', ~ P s' v'
  | None => forall j s, (j < i)%nat -> steps !! j = Some s -> forall v, ~ P s v
  end.
End Lines.
(** Two-letter codes and languages correspond. *)
Definition codes_ok (from1 to1 : string -> option string) : Prop :=
  (forall c l, from1 c = Some l -> exists c', to1 l = Some c') /\ (forall l l' c, to1 l = Some c -> to1 l' = Some c -> l = l').
(** A name added below a parent, or at the top. *)
Notation edge := (string * option string)%type (only parsing).
