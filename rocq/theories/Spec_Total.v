(** Independent specification for C46: when a build that was validated can be carried out. *)
From Verif Require Export Spec_Crash Spec_Dag.

(** A text that fits behind one length byte. *)
Definition short (s : string) : Prop := (String.length s <= 255)%nat.
(** The identifiers a step is stored under or refers to. *)
Record step_short (s : bstep) : Prop := {
  ss_present : saids_present (bs_result s);
  ss_saids : forall t r, has_role (bs_result s) t r -> short t;
  ss_parent : forall p, bs_parent s = Some p -> short p }.

(** The texts that are hashed for the objects of a bundle. *)
Inductive hashed (B : bundle) : json -> Prop :=
| hashed_bundle : hashed B (bundle_json_d (JStr dummy_said) B)
| hashed_capture : hashed B (cb_json_d (JStr dummy_said) (b_cb B))
| hashed_overlay ov : ov ∈ b_ovs B -> hashed B (overlay_json_d (JStr dummy_said) ov).
(** The digest does not collide on the objects of these bundles. *)
Definition no_clash (digest : json -> string) (Bs : list bundle) : Prop :=
  forall B B' j j', B ∈ Bs -> B' ∈ Bs -> hashed B j -> hashed B' j' -> digest j = digest j' -> j = j'.
(** SAIDs fit a length byte and none is another one followed by ".metadata" (they are Base64 of 44 bytes). *)
Record plain_digest (digest : json -> string) : Prop := {
  pd_short : forall j, short (digest j);
  pd_meta : forall j j', digest j <> (digest j' +:+ ".metadata")%string }.

Section After.
Variable digest : json -> string.
Variables from1 to1 : string -> option string.
Variable listing : string -> list oobject -> list oobject.
Variables said_ok digits lang_ok : string -> bool.
Variable standard_read : string -> option string.
Variable to_text : json -> string.
Variable of_text : string -> option json.
Variable hash : string -> string.
Notation validate := (validate_ast digest from1 said_ok digits lang_ok standard_read of_text).
Notation build_file := (build_ast digest from1 to1 listing said_ok digits lang_ok standard_read to_text of_text hash).
(** The facade after validations and builds of files, from an empty one, with the bundles built. *)
Inductive files_run : list bundle -> facade -> Prop :=
| after_new : files_run [] facade_new
| after_validate Bs f os a g r : files_run Bs f -> validate os a f = Ok (g, r) -> files_run Bs g
| after_build Bs f os a g B : files_run Bs f -> build_file os a f = Ok (g, B) -> files_run (Bs ++ [B]) g.
End After.
