(** The single writes a facade build makes to its stores, in program order: the process may stop between any two of
    them (nothing in oca/src/facade/build.rs groups them into a transaction).  Each function here mirrors one of
    Facade.v / Relations.v, with the write made explicit; [Props_Crash.C44_writes_are_the_build] ties the two. *)
From Verif Require Export Facade.

(** One write: a key-value insert into the database or the cache store (data_storage.rs 26-40), or an INSERT into one of
    the three SQLite tables (repositories/). *)
Inductive write :=
| WDb (n : namespace) (k v : string)
| WCache (n : namespace) (k v : string)
| WBundle (k v : string)
| WCapture (k v : string)
| WFts (r : fts_row).
(** The store after one write. *)
(** data_storage.rs 26-40; the INSERTs of the repositories (oca/src/repositories/), one at a time. *)
Definition put (w : write) (f : facade) : facade :=
  match w with
  | WDb n k v => match mem_insert n k v (fa_db f) with Ok d => with_db d f | _ => f end
  | WCache n k v => match mem_insert n k v (fa_cache f) with Ok d => with_cache d f | _ => f end
  | WBundle k v => Facade (fa_db f) (fa_cache f) (table_insert k v (fa_bundles f)) (fa_captures f) (fa_fts f)
  | WCapture k v => Facade (fa_db f) (fa_cache f) (fa_bundles f) (table_insert k v (fa_captures f)) (fa_fts f)
  | WFts r => Facade (fa_db f) (fa_cache f) (fa_bundles f) (fa_captures f) (fts_insert r (fa_fts f))
  end.
(** The same, for a sequence of writes. *)
Definition puts (ws : list write) (f : facade) : facade := fold_left (fun f w => put w f) ws f.

(** A computation that reads and writes the stores: its writes, and its outcome with the final state. *)
(** Semantic domain: what oca/src/facade/build.rs 119-450 does to the stores, write by write. *)
Definition tr (A : Type) : Type := facade -> list write * outcome (facade * A).
(** Returning without a write. *)
Definition tret {A} (a : A) : tr A := fun f => ([], Ok (f, a)).
(** Sequencing ([;] and [?] in oca/src/facade/build.rs 119-450): the writes made before an error or a panic stay. *)
Definition tbind {A B} (m : tr A) (k : A -> tr B) : tr B := fun f =>
  let r := m f in
  match r.2 with
  | Ok x => let q := k x.2 x.1 in (r.1 ++ q.1, q.2)
  | Err e => (r.1, Err e)
  | Panic => (r.1, Panic)
  end.
(** A step that only reads the stores. *)
Definition tread {A} (g : facade -> outcome A) : tr A := fun f => ([], match g f with Ok a => Ok (f, a) | Err e => Err e | Panic => Panic end).
(** A step that is one write. *)
Definition twrite (w : write) : tr unit := fun f => ([w], Ok (put w f, tt)).
Notation "'do!' x := m 'in' k" := (tbind m (fun x => k)) (at level 200, x name, m at level 100, k at level 200).

Section Trace.
Variable digest : json -> string.
Variables from1 to1 : string -> option string.
Variable listing : string -> list oobject -> list oobject.
Variables said_ok digits lang_ok : string -> bool.
Variable standard_read : string -> option string.
Variable to_text : json -> string.
Variable of_text : string -> option json.
Variable hash : string -> string.

(** build.rs 245-253. *)
Definition t_cache (B : bundle) : tr unit :=
  do! s := tread (fun _ => unwrap_some (b_said B)) in
  do! u := twrite (WBundle s (to_text (bundle_json B))) in
  do! c := tread (fun _ => unwrap_some (cb_said (b_cb B))) in
  twrite (WCapture c (to_text (cb_json (b_cb B)))).
(** build.rs 255-285. *)
Fixpoint t_rows (l : list fts_row) : tr unit := match l with [] => tret tt | r :: l' => do! u := twrite (WFts r) in t_rows l' end.
(** oca/src/facade/build.rs 255-285 *)
Definition t_meta (B : bundle) : tr unit :=
  match omap (meta_row (unwrap_or "" (b_said B))) (b_ovs B) with
  | [] => tret tt
  | rows => do! s := tread (fun _ => unwrap_some (b_said B)) in t_rows rows
  end.
(** build.rs 287-337. *)
Fixpoint t_overlays (ovs : list overlay) : tr unit :=
  match ovs with
  | [] => tret tt
  | ov :: r => do! s := tread (fun _ => unwrap_some (ov_said ov)) in do! u := twrite (WCache NsObjects s (to_text (overlay_json ov))) in t_overlays r
  end.
(** oca/src/facade/build.rs 287-337, one step. *)
Definition t_step (s : bstep) : tr unit :=
  do! input := tread (fun _ => op_encode to_text (bs_parent s) (bs_cmd s)) in
  do! bs := tread (fun _ => unwrap_some (b_said (bs_result s))) in
  do! u := twrite (WDb NsOCA (op_key bs) input) in
  do! u := twrite (WCache NsBundles bs (to_text (bundle_json (bs_result s)))) in
  do! cs := tread (fun _ => unwrap_some (cb_said (b_cb (bs_result s)))) in
  do! u := twrite (WCache NsObjects cs (to_text (cb_json (b_cb (bs_result s))))) in
  t_overlays (b_ovs (bs_result s)).
(** oca/src/facade/build.rs 287-337 *)
Fixpoint t_steps (l : list bstep) : tr unit := match l with [] => tret tt | s :: r => do! u := t_step s in t_steps r end.
(** explore.rs 25-62. *)
Fixpoint t_ov_metadata (ovs : list overlay) : tr unit :=
  match ovs with
  | [] => tret tt
  | ov :: r => match ov_said ov with
               | None => tread (fun _ => Panic)
               | Some s => do! u := twrite (WDb NsRelations (meta_key s) (kind_bytes (OOverlay (ov_type ov) (Content None None)))) in t_ov_metadata r
               end
  end.
(** oca/src/facade/explore.rs 25-62 *)
Definition t_metadata (B : bundle) : tr unit :=
  match b_said B, cb_said (b_cb B) with
  | Some s, Some c =>
    do! u := twrite (WDb NsRelations (meta_key s) (kind_bytes empty_bundle)) in
    do! u := twrite (WDb NsRelations (meta_key c) (kind_bytes empty_capture)) in
    t_ov_metadata (b_ovs B)
  | _, _ => tread (fun _ => Panic)
  end.
(** explore.rs 64-124. *)
Definition t_rel (r : oobject * list oobject) (key : string) : tr unit :=
  do! v := tread (fun _ => rel_encode (listing key r.2)) in twrite (WDb NsRelations key v).
(** oca/src/facade/explore.rs 88-124 *)
Fixpoint t_rel_overlays (bs cs : string) (ovs : list overlay) (st : (oobject * list oobject) * (oobject * list oobject)) :
  tr ((oobject * list oobject) * (oobject * list oobject)) :=
  match ovs with
  | [] => tret st
  | ov :: r =>
    match ov_said ov with
    | None => tread (fun _ => Panic)
    | Some s =>
      do! o := tread (fun f => object_new (fa_db f) s) in
      do! vr := tread (fun f => rel_or_new (fa_db f) s) in
      do! ob := tread (fun f => object_new (fa_db f) bs) in
      do! oc := tread (fun f => object_new (fa_db f) cs) in
      do! u := t_rel (vr.1, add_relation oc (add_relation ob vr.2)) s in
      t_rel_overlays bs cs r ((st.1.1, add_relation o st.1.2), (st.2.1, add_relation o st.2.2))
    end
  end.
(** oca/src/facade/explore.rs 64-124 *)
Definition t_relations (B : bundle) : tr unit :=
  do! u := t_metadata B in
  match b_said B, cb_said (b_cb B) with
  | Some bs, Some cs =>
    do! br := tread (fun f => rel_or_new (fa_db f) bs) in
    do! oc := tread (fun f => object_new (fa_db f) cs) in
    do! cr := tread (fun f => rel_or_new (fa_db f) cs) in
    do! ob := tread (fun f => object_new (fa_db f) bs) in
    do! st := t_rel_overlays bs cs (b_ovs B) ((br.1, add_relation oc br.2), (cr.1, add_relation ob cr.2)) in
    do! u := t_rel st.1 (oo_said st.1.1) in
    t_rel st.2 (oo_said st.2.1)
  | _, _ => tread (fun _ => Panic)
  end.
(** build.rs 339-450. *)
Definition t_node (n : option node) : tr unit :=
  match n with None => tret tt | Some n => do! v := tread (fun _ => node_bytes n) in twrite (WDb NsCore (model_key (nd_said n)) v) end.
(** oca/src/facade/build.rs 339-450, one model. *)
Definition t_model (m : rmodel) : tr unit :=
  do! u := twrite (WDb NsCore (model_key (cmo_digest (rm_cmd m))) (cmo_json (rm_cmd m))) in
  do! u := t_node (rm_cb m) in
  do! u := t_node (rm_ov m) in
  do! v := tread (fun _ => bnode_bytes (rm_bundle m)) in
  twrite (WDb NsCore (model_key (bn_said (rm_bundle m))) v).
(** oca/src/facade/build.rs 339-450 *)
Fixpoint t_model_list (ms : list rmodel) : tr unit := match ms with [] => tret tt | m :: r => do! u := t_model m in t_model_list r end.
(** oca/src/facade/build.rs 339-450 *)
Definition t_models (steps : list bstep) : tr unit :=
  do! ms := tread (fun _ => build_core_db_model from1 to1 to_text hash steps) in t_model_list ms.
(** build.rs 124-139. *)
Definition t_build (B : bundle) (steps : list bstep) : tr bundle :=
  do! u := t_cache B in
  do! u := t_meta B in
  do! u := t_steps steps in
  do! u := t_relations B in
  do! u := t_models steps in
  tret B.
(** build.rs 119-122, 156-243, 141-154: the name is registered before the build. *)
Definition t_validate (os : nat -> order) (a : ast) : tr (bundle * list bstep) :=
  do! x := tread (fun f => check_base said_ok digits lang_ok standard_read of_text (fa_cache f) a) in
  do! cs := tread (fun f => resolve said_ok (find_ref (fa_db f)) (ast_commands x.2)) in
  match from_ast digest from1 os x.1 (Ast (ast_version x.2) cs (ast_cmeta x.2) (ast_meta x.2)) with
  | BuildOk B steps =>
    match ast_meta x.2 !! "name" with
    | Some n => do! s := tread (fun _ => unwrap_some (b_said B)) in do! u := twrite (WDb NsReferences n s) in tret (B, steps)
    | None => tret (B, steps)
    end
  | BuildErr es => tread (fun _ => Err (map be_msg es))
  | BuildPanic => tread (fun _ => Panic)
  end.
(** oca/src/facade/build.rs 119-139, 141-154 *)
Definition t_build_ast (os : nat -> order) (a : ast) : tr bundle := do! x := t_validate os a in t_build x.1 x.2.
End Trace.

(** The states the stores can be in if the process stops at some point of the computation [m] started in [f]:
    those after its first [n] writes. *)
(** Specification: models no code; a stop after any number of the writes of oca/src/facade/build.rs 119-154. *)
Definition stopped {A} (m : tr A) (f g : facade) : Prop := exists n, g = puts (take n (m f).1) f.
