(** The version field that the said crate adds to the text of a bundle or transformation ([#[derive(SAD)]] with
    [#[version(...)]]: said::version::SerializationInfo, SAD::derivation_data, Encode::encode; modelled from knowledge of the crate,
    with the version string of tests/build_from_ocafile.rs 59 as a check). *)
From Verif Require Import Base Bundle Spec_JsonText JsonText TFile Nesting Text.
Local Open Scope string_scope.

(** [{:x}] of a number, least significant digit last; [fuel] is enough when it is the number of binary digits. *)
(** semantics/oca-bundle/src/state/oca.rs 671 (the size in the version string, printed by the said crate) *)
Fixpoint hex_from (fuel : nat) (n : N) (acc : string) : string :=
  match fuel with
  | O => acc
  | S f => let acc := String (hex_char (N.to_nat (n mod 16))) acc in if (n <? 16)%N then acc else hex_from f (n / 16) acc
  end.
(** [{:x}]. *)
(** semantics/oca-bundle/src/state/oca.rs 671 (format in hexadecimal) *)
Definition hex_text (n : N) : string := hex_from (S (N.size_nat n)) n "".
(** [{:06x}]. *)
(** semantics/oca-bundle/src/state/oca.rs 671 (padding) *)
Fixpoint zeros (n : nat) : string := match n with O => "" | S n => String "0" (zeros n) end.
(** semantics/oca-bundle/src/state/oca.rs 671 (six digits, tests/build_from_ocafile.rs 59) *)
Definition hex06 (n : N) : string := zeros (6 - String.length (hex_text n)) +:+ hex_text n.
(** The arguments of [#[version(protocol, major, minor)]]. *)
(** semantics/oca-bundle/src/state/oca.rs 671, transformation/transformation-file/src/state/mod.rs 8 *)
Record proto := Proto { pr_code : string; pr_major : nat; pr_minor : nat }.
(** oca.rs 671. *)
Definition oca_proto : proto := Proto "OCAS" 1 1.
(** transformation-file/src/state/mod.rs 8. *)
Definition tr_proto : proto := Proto "OCAT" 1 0.
(** said [SerializationInfo::to_str], format JSON. *)
(** tests/build_from_ocafile.rs 59 *)
Definition version_text (p : proto) (size : N) : string :=
  pr_code p +:+ String (hex_char (pr_major p)) (String (hex_char (pr_minor p)) ("JSON" +:+ hex06 size +:+ "_")).
(** said [Version]: the version field in front of the flattened fields. *)
(** semantics/oca-bundle/src/state/oca.rs 670-682 (derived Encode) *)
Definition versioned (v : string) (l : list (string * json)) : string := write_json (JObj (("v", JStr v) :: l)).
(** The number of bytes. *)
(** semantics/oca-bundle/src/state/oca.rs 670-682 (derived Encode) *)
Definition text_size (t : string) : N := N.of_nat (String.length t).
(** said [SAD::derivation_data]: fields [f d] with the placeholder for [d]; the size is that of the text with an empty version
    (size 0). *)
(** semantics/oca-bundle/src/state/oca.rs 670-682 (derived SAD) *)
Definition derivation_text (p : proto) (f : json -> list (string * json)) : string :=
  versioned (version_text p (text_size (versioned (version_text p 0) (f (JStr dummy_said))))) (f (JStr dummy_said)).
(** said [Encode::encode]: the size is that of the derivation data. *)
(** semantics/oca-bundle/src/state/oca.rs 670-682 (derived Encode) *)
Definition encode_text (p : proto) (f : json -> list (string * json)) (d : json) : string :=
  versioned (version_text p (text_size (derivation_text p f))) (f d).

(** oca.rs 670-682 with the derived encode: the fields. *)
Definition bundle_fields (b : bundle) (d : json) : list (string * json) :=
  [("d", d); ("capture_base", cb_json (b_cb b)); ("overlays", overlays_json (b_ovs b))].
(** [OCABundle::encode] (facade/build.rs 316, oca_bundle_cache_repo.rs 18, versioning/ocafile.rs 63). *)
Definition bundle_encode (b : bundle) : string := encode_text oca_proto (bundle_fields b) (jopt (b_said b)).
(** transformation-file/src/state/mod.rs 7-17: the fields. *)
Definition tr_fields (t : transformation) (d : json) : list (string * json) := match transformation_json_d d t with JObj l => l | _ => [] end.
(** [Transformation::encode] (transformation/transformation-file/src/state/mod.rs 7-17). *)
Definition tr_encode (t : transformation) : string := encode_text tr_proto (tr_fields t) (jopt (tr_said t)).

(** The names of the fields of an object; its fields with another SAID. *)
(** semantics/oca-bundle/src/state/oca.rs 670-682 *)
Definition bundle_keys : list string := ["d"; "capture_base"; "overlays"].
(** transformation/transformation-file/src/state/mod.rs 7-17 *)
Definition tr_keys : list string := ["d"; "source"; "target"; "attributes"].
(** semantics/oca-bundle/src/state/oca.rs 675 (the said field) *)
Definition with_d (l : list (string * json)) (d : json) : list (string * json) := match l with (k, _) :: r => (k, d) :: r | [] => [] end.
(** said [SAD::derivation_data]: what is hashed for an object; capture bases and overlays have no version (capture_base.rs 41,
    overlay.rs 103: no [#[version]]). *)
Definition preimage (j : json) : string :=
  match j with
  | JObj l => if bool_decide (map fst l = bundle_keys) then derivation_text oca_proto (with_d l)
              else if bool_decide (map fst l = tr_keys) then derivation_text tr_proto (with_d l)
              else write_json j
  | _ => write_json j
  end.
(** said [SAD::compute_digest]; [blake] is Blake3-256 of bytes, CESR-encoded. *)
Definition byte_digest (blake : string -> string) (j : json) : string := blake (preimage j).
(** The fields of a bundle; with a version in front too (never stored by the code: only so that reading undoes writing for every tree). *)
(** semantics/oca-bundle/src/state/oca.rs 670-682 *)
Fixpoint versionable (l : list (string * json)) : bool :=
  match l with
  | (k, _) :: r => if String.eqb k "v" then versionable r else bool_decide (map fst l = bundle_keys)
  | [] => false
  end.
(** What the stores write: bundles with their version (facade/build.rs 316), anything else as it is (build.rs 319-340). *)
Definition store_write (j : json) : string :=
  match j with
  | JObj l => if versionable l then versioned (version_text oca_proto (text_size (derivation_text oca_proto (with_d l)))) l else write_json j
  | _ => write_json j
  end.
(** What reading amounts to: fetch.rs 374-379 reads a text and ignores the version of a bundle. *)
Definition store_read (s : string) : option json :=
  match read_json s with
  | Some (JObj ((k, v) :: l)) => if String.eqb k "v" && versionable l then Some (JObj l) else Some (JObj ((k, v) :: l))
  | x => x
  end.
