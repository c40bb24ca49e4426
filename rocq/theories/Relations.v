(** Length-prefixed records and the relation table.  Models oca/src/facade/explore.rs. *)
From Verif Require Export Storage Bundle Codec.

(** explore.rs 158-165 and its copies: [v.push(s.len().try_into().unwrap()); v.extend(s.as_bytes())]: one length byte, then the bytes; more than 255
    bytes do not fit ([try_into] fails, [unwrap] panics). *)
Definition len_prefixed (s : string) : outcome bytes :=
  if (String.length s <=? 255)%nat then Ok (String (ascii_of_nat (String.length s)) s) else Panic.
(** explore.rs 174-182: [slice::split_at]: panics beyond the end. *)
Fixpoint split_at (n : nat) (s : bytes) : option (bytes * bytes) :=
  match n, s with
  | O, _ => Some (EmptyString, s)
  | S m, String c r => match split_at m r with Some (a, b) => Some (String c a, b) | None => None end
  | S _, EmptyString => None
  end.

(** explore.rs 136-140, 204-208.  [HashSet<OCAObject>] is a list without duplicates; its iteration order is left to a
    parameter where it matters. *)
Record oobject := OObj { oo_said : string; oo_kind : obj_kind }.
(** derived [PartialEq, Eq] of ast/mod.rs 392-399. *)
Definition nvalue_eq_dec : forall a b : nvalue, {a = b} + {a <> b}.
Proof.
  fix IH 1. intros a b. destruct a as [r|s|l|l], b as [r'|s'|l'|l']; try (right; discriminate).
  - destruct (decide (r = r')) as [E|H]; [left; congruence|right; congruence].
  - destruct (decide (s = s')) as [E|H]; [left; congruence|right; congruence].
  - assert (D : {l = l'} + {l <> l'}).
    { revert l'. induction l as [|[k x] l IHl]; intros [|[k' y] l']; try (right; discriminate); [left; reflexivity|].
      destruct (decide (k = k')) as [E1|H]; [|right; congruence]. destruct (IH x y) as [E2|H]; [|right; congruence].
      destruct (IHl l') as [E3|H]; [left; congruence|right; congruence]. }
    destruct D as [E|H]; [left; congruence|right; congruence].
  - assert (D : {l = l'} + {l <> l'}).
    { revert l'. induction l as [|x l IHl]; intros [|y l']; try (right; discriminate); [left; reflexivity|].
      destruct (IH x y) as [E1|H]; [|right; congruence]. destruct (IHl l') as [E2|H]; [left; congruence|right; congruence]. }
    destruct D as [E|H]; [left; congruence|right; congruence].
Defined.
#[global] Instance nvalue_dec : EqDecision nvalue := nvalue_eq_dec.
#[global] Instance obj_kind_dec : EqDecision obj_kind.
Proof.
  intros a b. unfold Decision. destruct a as [[a p f]|[r]|t [a p]], b as [[a' p' f']|[r']|t' [a' p']]; try (right; discriminate).
  - destruct (decide (a = a')) as [E1|H]; [|right; congruence]. destruct (decide (p = p')) as [E2|H]; [|right; congruence].
    destruct (decide (f = f')) as [E3|H]; [left; congruence|right; congruence].
  - destruct (decide (r = r')) as [E1|H]; [left; congruence|right; congruence].
  - destruct (decide (t = t')) as [E1|H]; [|right; congruence]. destruct (decide (a = a')) as [E2|H]; [|right; congruence].
    destruct (decide (p = p')) as [E3|H]; [left; congruence|right; congruence].
Defined.
#[global] Instance oobject_eq : EqDecision oobject.
Proof.
  intros [s k] [s' k']. unfold Decision. destruct (decide (s = s')) as [E1|H]; [|right; congruence].
  destruct (decide (k = k')) as [E2|H]; [left; congruence|right; congruence].
Defined.
(** [Relationship::add_relation], 150-152. *)
Definition add_relation (o : oobject) (l : list oobject) : list oobject := if bool_decide (o ∈ l) then l else l ++ [o].
(** [From<Relationship> for Vec<u8>], 155-167, for a listing of the set. *)
Fixpoint rel_encode (l : list oobject) : outcome bytes :=
  match l with
  | [] => Ok EmptyString
  | o :: r => let! a := len_prefixed (oo_said o) in let! b := rel_encode r in
              Ok (String (ascii_of_nat (obj_byte (oo_kind o))) (a +:+ b)%string)
  end.
(** [From<Vec<u8>> for Relationship] and [From<Vec<u8>> for OCAObject], 169-203.  The identifier is taken as it is
    ([String::from_utf8] on bytes that came from a string).  [n] bounds the number of iterations: every object takes
    at least two bytes. *)
Fixpoint rel_decode_loop (n : nat) (s : bytes) (acc : list oobject) : outcome (list oobject) :=
  match s with
  | EmptyString => Ok acc
  | String k EmptyString => Panic
  | String k (String len r) =>
    match n with
    | O => Panic
    | S m => match split_at (nat_of_ascii len) r with
             | Some (said, r') => let! o := obj_of_byte (nat_of_ascii k) in rel_decode_loop m r' (add_relation (OObj said o) acc)
             | None => Panic
             end
    end
  end.
(** explore.rs 169-190. *)
Definition rel_decode (s : bytes) : outcome (list oobject) := rel_decode_loop (String.length s) s [].

Section Relations.
(** Iteration order of the relation set of an object. *)
Variable listing : string -> list oobject -> list oobject.

(** explore.rs 28, 38, 49, 129: [format!("{}.metadata", said)]. *)
Definition meta_key (said : string) : string := (said +:+ ".metadata")%string.
(** 126-134 [object_type]. *)
Definition object_type (db : mem) (said : string) : outcome obj_kind :=
  match mem_get NsRelations (meta_key said) db with
  | Ok (Some (String k _)) => obj_of_byte (nat_of_ascii k)
  | _ => Panic
  end.
(** 238-245 [OCAObject::new]. *)
Definition object_new (db : mem) (said : string) : outcome oobject := let! k := object_type db said in Ok (OObj said k).
(** 10-23 [explore]; the result is the relations (the base object is [object_new]). *)
Definition explore (db : mem) (said : string) : outcome (option (oobject * list oobject)) :=
  match mem_get NsRelations said db with
  | Ok (Some r) => let! l := rel_decode r in let! o := object_new db said in Ok (Some (o, l))
  | _ => Ok None
  end.
(** 25-62 [insert_oca_objects_metadata]. *)
Definition kind_bytes (k : obj_kind) : bytes := String (ascii_of_nat (obj_byte k)) EmptyString.
(** explore.rs 46-59: the loop over the overlays. *)
Fixpoint insert_ov_metadata (ovs : list overlay) (db : mem) : outcome mem :=
  match ovs with
  | [] => Ok db
  | ov :: r => match ov_said ov with
               | None => Panic
               | Some s => let! db' := mem_insert NsRelations (meta_key s) (kind_bytes (OOverlay (ov_type ov) (Content None None))) db in insert_ov_metadata r db'
               end
  end.
(** explore.rs 25-62. *)
Definition insert_metadata (B : bundle) (db : mem) : outcome mem :=
  match b_said B, cb_said (b_cb B) with
  | Some s, Some c =>
    let! db1 := mem_insert NsRelations (meta_key s) (kind_bytes empty_bundle) db in
    let! db2 := mem_insert NsRelations (meta_key c) (kind_bytes empty_capture) db1 in
    insert_ov_metadata (b_ovs B) db2
  | _, _ => Panic
  end.
(** 70-75 and its copies: the stored relations of an object, or a new empty set. *)
Definition rel_or_new (db : mem) (said : string) : outcome (oobject * list oobject) :=
  let! x := explore db said in
  match x with Some r => Ok r | None => let! o := object_new db said in Ok (o, []) end.
(** explore.rs 101-121: a relation record is written. *)
Definition rel_insert (r : oobject * list oobject) (key : string) (db : mem) : outcome mem :=
  let! v := rel_encode (listing key r.2) in mem_insert NsRelations key v db.
(** 85-106, the loop over the overlays. *)
Fixpoint rel_overlays (bs cs : string) (ovs : list overlay) (st : mem * (oobject * list oobject) * (oobject * list oobject)) :
  outcome (mem * (oobject * list oobject) * (oobject * list oobject)) :=
  match ovs with
  | [] => Ok st
  | ov :: r =>
    match ov_said ov with
    | None => Panic
    | Some s =>
      let db := st.1.1 in
      let! o := object_new db s in
      let! vr := rel_or_new db s in
      let! ob := object_new db bs in
      let! oc := object_new db cs in
      let vr' := (vr.1, add_relation oc (add_relation ob vr.2)) in
      let! db' := rel_insert vr' s db in
      rel_overlays bs cs r (db', (st.1.2.1, add_relation o st.1.2.2), (st.2.1, add_relation o st.2.2))
    end
  end.
(** 64-124 [add_relations]. *)
Definition add_relations (B : bundle) (db : mem) : outcome mem :=
  let! db1 := insert_metadata B db in
  match b_said B, cb_said (b_cb B) with
  | Some bs, Some cs =>
    let! br := rel_or_new db1 bs in
    let! oc := object_new db1 cs in
    let! cr := rel_or_new db1 cs in
    let! ob := object_new db1 bs in
    let! st := rel_overlays bs cs (b_ovs B) (db1, (br.1, add_relation oc br.2), (cr.1, add_relation ob cr.2)) in
    let! db2 := rel_insert st.1.2 (oo_said st.1.2.1) st.1.1 in
    rel_insert st.2 (oo_said st.2.1) db2
  | _, _ => Panic
  end.
End Relations.
