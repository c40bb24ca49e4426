(** Independent specification of the facade's indexes and objects after a history of builds (C43). *)
From Verif Require Export Spec_Facade Spec_Relations Spec_Storage Index.

(** An object of a bundle under its SAID, and its JSON. *)
Definition object_in (B : bundle) (s : string) (o : fetched) : Prop :=
  (cb_said (b_cb B) = Some s /\ o = FCapture (b_cb B)) \/ (exists ov, ov ∈ b_ovs B /\ ov_said ov = Some s /\ o = FOverlay ov).
Definition object_json (o : fetched) : json := match o with FCapture cb => cb_json cb | FOverlay ov => overlay_json ov end.
(** Two objects are the same when they are of the same sort and have the same JSON. *)
Definition same_object (o o' : fetched) : Prop :=
  object_json o = object_json o' /\ match o, o' with FCapture _, FCapture _ | FOverlay _, FOverlay _ => True | _, _ => False end.

Section Spec.
Variables from1 to1 : string -> option string.
Variable listing : string -> list oobject -> list oobject.
Variable to_text : json -> string.
Variable hash : string -> string.
(** A facade that completed the builds of [h] (result and steps), in order; names may be registered at any time. *)
Inductive builds : list (bundle * list bstep) -> facade -> Prop :=
| builds_new : builds [] facade_new
| builds_name h f n s d : builds h f -> mem_insert NsReferences n s (fa_db f) = Ok d -> builds h (with_db d f)
| builds_one h f B steps f' : builds h f -> build from1 to1 listing to_text hash B steps f = Ok (f', B) -> builds (h ++ [(B, steps)]) f'.
End Spec.
(** The bundles of a history: results and results of steps. *)
Definition final (h : list (bundle * list bstep)) (B : bundle) : Prop := exists steps, (B, steps) ∈ h.
Definition stepped (h : list (bundle * list bstep)) (B : bundle) : Prop := exists R steps s, (R, steps) ∈ h /\ s ∈ steps /\ bs_result s = B.
Section Sound.
Variables said_ok digits lang_ok : string -> bool.
(** A history as the builder makes them: bundles that can be read back; the result of a build is what a step gave (its last, or,
    for a file that only names its base, a step of an earlier build);
    one SAID, one content. *)
Record sound (h : list (bundle * list bstep)) : Prop := {
  so_readable : forall B, final h B \/ stepped h B -> bundle_readable said_ok digits lang_ok B /\ groups_sorted B /\ shallow (bundle_json B);
  so_result : forall B, final h B -> exists X, stepped h X /\ b_said X = b_said B /\ bundle_json X = bundle_json B /\
    forall k o, object_in B k o -> exists o', object_in X k o' /\ same_object o o';
  so_bundles : forall B B', final h B \/ stepped h B -> final h B' \/ stepped h B' -> b_said B = b_said B' -> bundle_json B = bundle_json B';
  so_objects : forall B B' k o o', final h B \/ stepped h B -> final h B' \/ stepped h B' -> object_in B k o -> object_in B' k o' -> same_object o o';
  so_present : Forall saids_present (map fst h);
  so_sane : saids_sane (map fst h) }.
End Sound.
(** A full text search gives rows of the index, at most one for a bundle. *)
Definition hits_ok (hits : option string -> string -> list fts_row -> outcome (list fts_row)) : Prop :=
  forall l q rows hs, hits l q rows = Ok hs -> (forall r, r ∈ hs -> r ∈ rows) /\ NoDup (map ft_said hs).
(** The bundle says this name and description in this language. *)
Definition speaks_of (B : bundle) (r : fts_row) : Prop :=
  exists ov m, ov ∈ b_ovs B /\ ov_body ov = BMeta (ft_lang r) m /\ ft_name r = unwrap_or "" (m !! "name") /\ ft_descr r = unwrap_or "" (m !! "description").
