(** The recursion schemes over attribute types: the stack machine of the crate recursion and the frames of recursive_attributes.rs. *)
From Verif Require Import Base Bundle Codec Peg OcaGrammar OcaFile.
Local Open Scope list_scope.

(** semantics/oca-ast/src/ast/recursive_attributes.rs 10-15 [NestedAttrTypeFrame]. *)
Inductive tframe (A : Type) : Type := TfRef (r : ref_value) | TfVal (t : attr_type) | TfArr (a : A) | TfNull.
Arguments TfRef {A} r. Arguments TfVal {A} t. Arguments TfArr {A} a. Arguments TfNull {A}.
(** recursive_attributes.rs 17-28 [MappableFrame for NestedAttrTypeFrame]; the closure changes what it captured ([S]) and may panic. *)
Definition tf_map {A B S : Type} (f : A -> S -> outcome (B * S)) (fr : tframe A) (s : S) : outcome (tframe B * S) :=
  match fr with
  | TfRef r => Ok (TfRef r, s) | TfVal t => Ok (TfVal t, s) | TfNull => Ok (TfNull, s)
  | TfArr a => let! x := f a s in Ok (TfArr x.1, x.2)
  end.
(** recursive_attributes.rs 30-41 [Expandable::from_frame]. *)
Definition tf_from (fr : tframe nattr) : nattr :=
  match fr with TfRef r => NRef r | TfVal t => NVal t | TfArr a => NArr a | TfNull => NNull end.
(** recursive_attributes.rs 43-54 [Collapsible::into_frame]. *)
Definition tf_into (t : nattr) : tframe nattr :=
  match t with NRef r => TfRef r | NVal t => TfVal t | NArr a => TfArr a | NNull => TfNull end.
(** recursive_attributes.rs 56 [AttributeTypeResult], 57 [AttributeTypeResultFrame]: a [Result] around the type, around the frame. *)
Definition tresult : Type := nattr + list string.
(** recursive_attributes.rs 57. *)
Inductive rframe (A : Type) : Type := RfOk (fr : tframe A) | RfErr (e : list string).
Arguments RfOk {A} fr. Arguments RfErr {A} e.
(** recursive_attributes.rs 59-68 [MappableFrame for AttributeTypeResultFrame]. *)
Definition rf_map {A B S : Type} (f : A -> S -> outcome (B * S)) (fr : rframe A) (s : S) : outcome (rframe B * S) :=
  match fr with RfOk fr => let! x := tf_map f fr s in Ok (RfOk x.1, x.2) | RfErr e => Ok (RfErr e, s) end.
(** recursive_attributes.rs 76-92 [Expandable for AttributeTypeResult]. *)
Definition rf_from (fr : rframe tresult) : tresult :=
  match fr with
  | RfOk (TfVal v) => inl (NVal v) | RfOk (TfRef r) => inl (NRef r) | RfOk TfNull => inl NNull
  | RfOk (TfArr v) => match v with inl t => inl (NArr t) | inr e => inr e end
  | RfErr e => inr e
  end.
(** recursive_attributes.rs 70-74 [AttributeTypeResult::value]. *)
Definition result_value (r : tresult) : outcome nattr := match r with inl t => Ok t | inr e => Err e end.

(** The crate recursion (0.5) [expand_and_collapse]: a work stack and a value stack, both with the top first; written from knowledge
    of the crate, which is not in the repository.  [expand] and [collapse] are the closures of the caller; they may panic. *)
Section Machine.
Context {F : Type -> Type} (fmap_f : forall A B S : Type, (A -> S -> outcome (B * S)) -> F A -> S -> outcome (F B * S)).
Context {Seed Out : Type} (expand : Seed -> outcome (F Seed)) (collapse : F Out -> outcome Out).
(** recursion 0.5 frame.rs [enum State]. *)
Inductive work := Expand (s : Seed) | Collapse (fr : F unit).
(** recursion 0.5 frame.rs [expand_and_collapse]: the loop; [None]: it did not end within [n] rounds. *)
Fixpoint machine (n : nat) (stack : list work) (vals : list Out) : option (outcome Out) :=
  match n with
  | O => None
  | S n =>
    match stack with
    | [] => Some (match vals with v :: _ => Ok v | [] => Panic end)
    | Expand s :: st =>
      match (let! fr := expand s in fmap_f _ _ _ (fun s seeds => Ok (tt, seeds ++ [s])) fr []) with
      | Ok x => machine n (rev (map Expand x.2) ++ Collapse x.1 :: st) vals
      | Err e => Some (Err e) | Panic => Some Panic
      end
    | Collapse fr :: st =>
      match (let! x := fmap_f _ _ _ (fun _ vs => match vs with v :: vs => Ok (v, vs) | [] => Panic end) fr vals in let! o := collapse x.1 in Ok (o, x.2)) with
      | Ok x => machine n st (x.1 :: x.2)
      | Err e => Some (Err e) | Panic => Some Panic
      end
    end
  end.
(** recursive_attributes.rs 30-54 with the crate's [ExpandableExt::expand_frames], [CollapsibleExt::collapse_frames]. *)
Definition run_frames (n : nat) (s : Seed) : option (outcome Out) := machine n [Expand s] [].
End Machine.

Section Uses.
Variable said_ok : string -> bool.
(** semantics/oca-ast/src/ast/attributes.rs 79-101: the closure of [Deserialize for NestedAttrType]. *)
Definition expand_json (j : json) : outcome (rframe json) :=
  match j with
  | JNull => Ok (RfOk TfNull)
  | JStr s =>
    if starts_ref s then match ref_parse said_ok s with Some r => Ok (RfOk (TfRef r)) | None => Ok (RfErr ["invalid reference"]) end
    else match attr_type_parse s with Some t => Ok (RfOk (TfVal t)) | None => Ok (RfErr [("Attribute type " +:+ s +:+ " doesn't exist")%string]) end
  | JArr (x :: _) => Ok (RfOk (TfArr x))
  | JArr [] => Panic
  | _ => Ok (RfErr ["Converting failure"])
  end.
(** attributes.rs 72-107 [Deserialize for NestedAttrType]. *)
Definition type_of_json (n : nat) (j : json) : option (outcome nattr) :=
  match run_frames (@rf_map) expand_json (fun fr => Ok (rf_from fr)) n j with Some r => Some (let! x := r in result_value x) | None => None end.
(** semantics/oca-file/src/ocafile/instructions/helpers.rs 14-42: the closure of [extract_attr_type]. *)
Definition expand_pair (p : spair) : outcome (rframe spair) :=
  match p with
  | Pair Rarray_attr_type _ (q :: _) => Ok (RfOk (TfArr q))
  | Pair Rarray_attr_type _ [] => Ok (RfErr ["Missing attribute type"])
  | Pair Ralias t _ => Ok (RfOk (TfRef (RName t)))
  | Pair Rsaid t _ => if said_ok t then Ok (RfOk (TfRef (RSaid t))) else Ok (RfErr ["Said error"])
  | Pair Rbase_attr_type t _ => match attr_type_parse t with Some a => Ok (RfOk (TfVal a)) | None => Ok (RfErr ["Unknown attribute type"]) end
  | Pair _ _ _ => Ok (RfErr ["Unexpected pest rule"])
  end.
(** helpers.rs 13-44 [extract_attr_type]. *)
Definition type_of_pair (n : nat) (p : spair) : option (outcome nattr) :=
  match run_frames (@rf_map) expand_pair (fun fr => Ok (rf_from fr)) n p with Some r => Some (let! x := r in result_value x) | None => None end.
End Uses.
(** semantics/oca-file/src/ocafile/mod.rs 138-151: the closure of [oca_file_format], with 130-135 [format_reference]. *)
Definition collapse_text (fr : tframe string) : outcome string :=
  match fr with
  | TfRef (RSaid s) => Ok ("refs:" +:+ s)%string
  | TfRef (RName _) => Panic
  | TfVal a => Ok (attr_type_name a)
  | TfArr s => Ok ("Array[" +:+ s +:+ "]")%string
  | TfNull => Ok ""
  end.
(** ocafile/mod.rs 138-151 [oca_file_format]. *)
Definition text_of_type (n : nat) (t : nattr) : option (outcome string) := run_frames (@tf_map) (fun t => Ok (tf_into t)) collapse_text n t.
