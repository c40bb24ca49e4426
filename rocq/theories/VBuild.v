(** The versioned build into a flat store.  Models semantics/oca-dag/src/versioning/ocafile.rs 6-69 [build_oca] and
    semantics/oca-dag/src/data_storage.rs 3-46.  Definitions only. *)
From Verif Require Export Facade.

(** data_storage.rs 12-46: a store that could not be opened answers every call with an error. *)
Definition vstore : Type := option (gmap string bytes).
(** data_storage.rs 32, 43 *)
Definition closed_msg : string := "Data Storage must be opened first".
(** data_storage.rs 25-34 *)
Definition v_get (k : string) (d : vstore) : outcome (option bytes) :=
  match d with Some m => Ok (m !! k) | None => Err [closed_msg] end.
(** data_storage.rs 36-45 *)
Definition v_insert (k : string) (v : bytes) (d : vstore) : outcome vstore :=
  match d with Some m => Ok (Some (<[k := v]> m)) | None => Err [closed_msg] end.

Section VBuild.
Variable digest : json -> string.
Variable from1 : string -> option string.
Variables said_ok digits lang_ok : string -> bool.
Variable standard_read : string -> option string.
Variable to_text : json -> string.
Variable of_text : string -> option json.
(** The iteration orders: command [i] calls load or [generate_bundle] (0: on the new box, 1: on the base); after the
    last command [generate_bundle] runs once more (0). *)
Variable os : nat -> nat -> order.

(** ocafile.rs 56, 62. *)
Definition vop_key (said : string) : string := ("oca." +:+ said +:+ ".operation")%string.
(** ocafile.rs 62 *)
Definition vbundle_key (said : string) : string := ("oca." +:+ said)%string.
(** 40-53: parent length and bytes (0 without a base), command length and bytes; a length beyond 255 panics. *)
Definition vrecord (parent : option string) (c : command) : outcome bytes :=
  let! h := match parent with Some s => len_prefixed s | None => Ok (String zero EmptyString) end in
  let! t := len_prefixed (to_text (command_json c)) in
  Ok (h +:+ t)%string.
(** 12-28: FROM. *)
Definition vfrom (o : order) (c : command) (d : vstore) : outcome obox :=
  match cmd_obj c with
  | OBundle (BundleContent (RSaid s)) =>
    let! x := v_get (vbundle_key s) d in
    match x with
    | None => Err ["OCA not found"]
    | Some t => match read_bundle said_ok digits lang_ok standard_read of_text t with
                | Ok B => unwrap_some (load o B)
                | _ => Panic
                end
    end
  | OBundle (BundleContent (RName _)) => Err ["Not implemented"]
  | _ => Err ["Missing bundle content"]
  end.
(** [generate_bundle] on a box; a panic inside it is [None] in Bundle.v. *)
(** ocafile.rs 39, 45 *)
Definition vgenerate (o : order) (b : obox) : outcome bundle := unwrap_some (generate_bundle digest o b).
(** 29-38: the box after a command; a rejected command only prints its errors and leaves a new, empty box. *)
Definition vbox (base : option obox) (c : command) : outcome obox :=
  match apply_command from1 base c with Ok b => Ok b | Err _ => Ok box_new | Panic => Panic end.
(** 39-53: everything computed before the store is touched: box, SAID, operation record, bundle. *)
Definition vwork (o0 o1 : order) (base : option obox) (c : command) : outcome (obox * string * bytes * bundle) :=
  let! b := vbox base c in
  let! B := vgenerate o0 b in
  let! p := match base with
            | Some x => let! P := vgenerate o1 x in let! s := unwrap_some (b_said P) in Ok (Some s)
            | None => Ok None
            end in
  let! r := vrecord p c in
  let! s := unwrap_some (b_said B) in
  Ok (b, s, r, B).
(** 10-65: one command.  The store keeps what was written before an error or a panic. *)
Definition vstep (i : nat) (base : option obox) (c : command) (d : vstore) : vstore * outcome obox :=
  match cmd_kind c with
  | CFrom => (d, vfrom (os i 0) c d)
  | _ =>
    match vwork (os i 0) (os i 1) base c with
    | Ok (b, s, r, B) =>
      match v_insert (vop_key s) r d with
      | Ok d1 => match v_insert (vbundle_key s) (to_text (bundle_json B)) d1 with
                 | Ok d2 => (d2, Ok b)
                 | Err e => (d1, Err e)
                 | Panic => (d1, Panic)
                 end
      | Err e => (d, Err e)
      | Panic => (d, Panic)
      end
    | Err e => (d, Err e)
    | Panic => (d, Panic)
    end
  end.
(** ocafile.rs 10-69 *)
Fixpoint vloop (i : nat) (base : option obox) (cs : list command) (d : vstore) : vstore * outcome bundle :=
  match cs with
  | [] => (d, let! b := unwrap_some base in vgenerate (os i 0) b)
  | c :: r =>
    match vstep i base c d with
    | (d', Ok b) => vloop (S i) (Some b) r d'
    | (d', Err e) => (d', Err e)
    | (d', Panic) => (d', Panic)
    end
  end.
(** ocafile.rs 6-69 [build_oca] *)
Definition versioned_build (cs : list command) (d : vstore) : vstore * outcome bundle := vloop 0 None cs d.
End VBuild.
