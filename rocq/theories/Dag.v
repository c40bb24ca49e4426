(** The version graph of a build.  Models semantics/oca-dag/src/lib.rs and versioning/mod.rs, versioning/bundle.rs. *)
From Verif Require Export Relations Build.

(** lib.rs 9-50. *)
Record cmd_model := CmdModel { cmo_digest : string; cmo_json : string }.
(** lib.rs 29-42 [CaptureBaseModel] and [OverlayModel]. *)
Record node := Node { nd_said : string; nd_parent : option string; nd_digest : string }.
(** lib.rs 43-50 [OCABundleModel]. *)
Record bnode := BNode { bn_said : string; bn_parent : option string; bn_cb : string; bn_ovs : list string }.
(** lib.rs 52-56 [State]. *)
Record dstate := DState { ds_bundle : option string; ds_cb : option string; ds_ovs : gmap string string }.
(** lib.rs 67-73 [ResultModel]. *)
Record rmodel := RModel { rm_cmd : cmd_model; rm_bundle : bnode; rm_cb : option node; rm_ov : option node }.
(** lib.rs 57-65. *)
Definition dstate_new : dstate := DState None None ∅.

(** [Option::unwrap], as in lib.rs 105-165. *)
Definition unwrap_some {A} (x : option A) : outcome A := match x with Some a => Ok a | None => Panic end.
(** lib.rs 158-164: [unwrap] of the SAID of every overlay. *)
Fixpoint unwrap_all {A} (l : list (option A)) : outcome (list A) :=
  match l with [] => Ok [] | x :: r => let! a := unwrap_some x in let! r' := unwrap_all r in Ok (a :: r') end.

Section Model.
(** isolang: 639-1 code to language and back. *)
Variables from1 to1 : string -> option string.
(** serde_json::to_string, and Blake3-256 of a text (CESR encoded). *)
Variable to_text : json -> string.
Variable hash : string -> string.

(** 14-26. *)
Definition command_model (c : command) : cmd_model := CmdModel (hash (to_text (command_json c))) (to_text (command_json c)).
(** 127-137: [format!("{}-{}", type, lang)] or [format!("{}", type)]. *)
Definition line_key (k : okind) (l : option string) : outcome string :=
  match l with
  | Some l => let! c := unwrap_some (to1 l) in Ok (okind_name k +:+ "-" +:+ c)%string
  | None => Ok (okind_name k)
  end.
(** lib.rs 126-128. *)
Definition find_overlay (t : otype) (l : option string) (ovs : list overlay) : option overlay :=
  List.find (fun ov => bool_decide (ov_type ov = t) && bool_decide (ov_lang ov = l)) ovs.
(** 97-168 [apply_step]. *)
Definition dag_step (st : dstate) (s : bstep) : outcome (dstate * rmodel) :=
  let cm := command_model (bs_cmd s) in
  let B := bs_result s in
  let! x := match cmd_obj (bs_cmd s) with
            | OCaptureBase _ =>
              let! c := unwrap_some (cb_said (b_cb B)) in
              Ok (Some c, ds_ovs st, Some (Node c (ds_cb st) (cmo_digest cm)), None)
            | OOverlay t ct =>
              match find_overlay t (cmd_lang from1 (ct_props ct)) (b_ovs B) with
              | Some ov =>
                let! key := line_key (body_kind (ov_body ov)) (ov_lang ov) in
                let! s := unwrap_some (ov_said ov) in
                Ok (ds_cb st, <[key := s]> (ds_ovs st), None, Some (Node s (ds_ovs st !! key) (cmo_digest cm)))
              | None => Ok (ds_cb st, ds_ovs st, None, None)
              end
            | OBundle _ => Ok (ds_cb st, ds_ovs st, None, None)
            end in
  let! bs := unwrap_some (b_said B) in
  let! cs := unwrap_some (cb_said (b_cb B)) in
  let! os := unwrap_all (map ov_said (b_ovs B)) in
  Ok (DState (Some bs) x.1.1.1 x.1.1.2, RModel cm (BNode bs (ds_bundle st) cs os) x.1.2 x.2).
(** 84-95 [build_core_db_model]. *)
Fixpoint dag_steps (st : dstate) (l : list bstep) : outcome (list rmodel) :=
  match l with
  | [] => Ok []
  | s :: r => let! x := dag_step st s in let! ms := dag_steps x.1 r in Ok (x.2 :: ms)
  end.
(** lib.rs 85-96. *)
Definition build_core_db_model (steps : list bstep) : outcome (list rmodel) := dag_steps dstate_new steps.
End Model.

(** ** versioning/mod.rs 5-47 [Graph], over a flat store (data_storage.rs; an opened one). *)
Notation flat := (gmap string string) (only parsing).
Definition up_key (s : string) : string := (s +:+ ".upscending")%string.
(** versioning/mod.rs 22-29. *)
Definition down_key (s : string) : string := (s +:+ ".downscending")%string.
(** 33-40. *)
Definition parents_digests (to : option string) : outcome bytes :=
  match to with Some t => len_prefixed t | None => Ok EmptyString end.
(** 42-49. *)
Definition children_digests (old : option bytes) (new : string) : outcome bytes :=
  let! d := len_prefixed new in Ok (unwrap_or EmptyString old +:+ d)%string.
(** 15-31 [add]. *)
Definition graph_add (new : string) (to : option string) (db : flat) : outcome flat :=
  let! p := parents_digests to in
  let db1 := <[up_key new := p]> db in
  match to with
  | None => Ok db1
  | Some t => let! c := children_digests (db1 !! down_key t) new in Ok (<[down_key t := c]> db1)
  end.
(** versioning/bundle.rs 15-34: the SAIDs of a bundle's capture base and overlays, length prefixed. *)
Fixpoint prefixed_all (l : list string) : outcome bytes :=
  match l with [] => Ok EmptyString | s :: r => let! a := len_prefixed s in let! b := prefixed_all r in Ok (a +:+ b)%string end.
(** versioning/bundle.rs 14-36. *)
Definition bundle_digests (B : bundle) : outcome bytes :=
  prefixed_all (match cb_said (b_cb B) with Some s => [s] | None => [] end ++ omap ov_said (b_ovs B)).
