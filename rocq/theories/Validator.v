(** The bundle validator.  Models semantics/oca-bundle/src/state/validator.rs 83-398.
    Error texts are kept structured: each constructor below stands for one [format!] of the source
    (with the language where the source prints one).  Definitions only. *)
From Verif Require Export Bundle.

(** validator.rs 14-21 and the texts at the lines beside each constructor. *)
Inductive verr :=
| VBundleSaid                                       (* 95  "OCA Bundle: Malformed SAID" *)
| VCaptureSaid                                      (* 104 "capture_base: Malformed SAID" *)
| VOverlaySaid (k : okind) (lang : option string)   (* 110-116 *)
| VOverlayBase (k : okind) (lang : option string)   (* 118-126 *)
| VCondSelf (attr : string)                         (* 237-241 *)
| VCondLua (attr : string) (e : string)             (* 286-301 *)
| VUnexpected (k : okind) (lang : string)           (* 151-154, 191-195 *)
| VMissing (k : okind) (lang : string)              (* 155-158, 196-199 *)
| VMissingKey (k : okind) (lang key : string).      (* 159-162, 200-203 *)

(** validator.rs 46-49 and the result of 85; [VPanic] models an unwrap. *)
Inductive vresult := VValid | VInvalid (es : list verr) | VPanic.

(** 247-266: the value standing in for a dependency; [None] = panic (264). *)
Definition mock_base (t : attr_type) : string :=
  match t with TText => "'test'" | TNumeric => "0" | TDateTime => "'2020-01-01'" | TBinary => "test" | TBoolean => "true" end.
(** validator.rs 247-266. *)
Definition mock (t : nattr) : option string :=
  match t with
  | NNull => Some "null"
  | NVal b => Some (mock_base b)
  | NArr (NVal b) => Some ("[" +:+ mock_base b +:+ "]")%string
  | NArr _ => None
  | NRef r => Some (ref_text r)
  end.
(** 244-268: the mocks of all dependencies; [None] = panic (246 missing type, 264). *)
Fixpoint mocks (types : imap nattr) (deps : list string) : option (gmap string string) :=
  match deps with
  | [] => Some ∅
  | d :: ds =>
      match imap_get d types with
      | None => None
      | Some t => match mock t, mocks types ds with
                  | Some v, Some m => Some (<[d := v]> m)
                  | _, _ => None
                  end
      end
  end.

(** [o.attributes()] of the translated overlays (label.rs 108, entry.rs 75, information.rs 75). *)
Definition ov_attrs (ov : overlay) : list string :=
  match ov_body ov with
  | BEncoding m => (map_to_list m).*1
  | BFormat m | BConformance m | BCardinality m | BUnit m | BInformation _ m | BLink _ m | BMapping m => (map_to_list m).*1
  | BConditional c _ => (map_to_list c).*1
  | BEntryCode m => (map_to_list m).*1
  | BEntry _ m => (map_to_list m).*1
  | BLabel _ _ m _ => (map_to_list m).*1
  | BFraming _ m => (map_to_list m).*1
  | BMeta _ _ => []
  | BSubset l => l
  | BStandard l => map fst l
  | BEntryCodeMapping m => (map_to_list m).*1
  end.
(** validator.rs 312-397: what the two translation checks compare: meta keys for Meta (312-356), attributes otherwise. *)
Definition tr_keys (ov : overlay) : list string :=
  match ov_body ov with BMeta _ m => (map_to_list m).*1 | _ => ov_attrs ov end.

(** validator.rs 318-333, 362-376: HashSet difference / collect.  Hash-set iteration order is fixed here; it only permutes the
    reported errors. *)
Definition diff (a b : list string) : list string :=
  List.filter (fun x => negb (existsb (String.eqb x) b)) (remove_dups a).

(** 312-397 [validate_meta] and [validate_translations] share this shape. *)
Definition validate_translations (k : okind) (langs : list string) (ovs : list overlay) : list verr :=
  let ls := map (fun ov => unwrap_or "" (ov_lang ov)) ovs in
  let all := concat (map tr_keys ovs) in
  map (VUnexpected k) (diff ls langs)
  ++ map (VMissing k) (diff langs ls)
  ++ concat (map (fun ov => map (VMissingKey k (unwrap_or "" (ov_lang ov))) (diff all (tr_keys ov))) ovs).

(** validator.rs 143-148, 180-184: the overlays of one type. *)
Definition is_kind (k : okind) (ov : overlay) : bool := bool_decide (body_kind (ov_body ov) = k).
(** 134-212: the enforced-translations block. *)
Definition check_kind (langs : list string) (ovs : list overlay) (k : okind) : list verr :=
  match List.filter (is_kind k) ovs with
  | [] => []
  | l => validate_translations k langs l
  end.
(** validator.rs 142-213. *)
Definition translation_errors (langs : list string) (ovs : list overlay) : list verr :=
  match langs with
  | [] => []
  | _ => concat (map (check_kind langs ovs) [KMeta; KEntry; KInformation; KLabel])
  end.

(** 126-129: the first Conditional overlay. *)
Fixpoint find_conditional (ovs : list overlay) : option (gmap string string * gmap string (list string)) :=
  match ovs with
  | [] => None
  | ov :: r => match ov_body ov with BConditional c d => Some (c, d) | _ => find_conditional r end
  end.

Section Oracles.
Variable digest : json -> string.
Variable lua : string -> bool + string.

(** 86-126: SAID and capture base checks. *)
Definition opt_str_eqb (a b : option string) : bool := bool_decide (a = b).
(** validator.rs 86-128. *)
Definition said_errors (b : bundle) : list verr :=
  (if opt_str_eqb (b_said b) (b_said (bundle_fill digest b)) then [] else [VBundleSaid])
  ++ (if opt_str_eqb (cb_said (b_cb b)) (cb_said (cb_fill digest (b_cb b))) then [] else [VCaptureSaid])
  ++ concat (map (fun ov =>
       (if opt_str_eqb (ov_said ov) (ov_said (ov_fill digest ov)) then [] else [VOverlaySaid (body_kind (ov_body ov)) (ov_lang ov)])
       ++ (if opt_str_eqb (ov_cb ov) (cb_said (b_cb b)) then [] else [VOverlayBase (body_kind (ov_body ov)) (ov_lang ov)]))
     (b_ovs b)).

(** 222-310 [validate_conditional]: errors, or [None] = panic (missing dependencies 234, missing type 246,
    unsupported array 264, bad index 273-275). *)
Fixpoint cond_errors (types : imap nattr) (d : gmap string (list string)) (cs : list (string * string)) : option (list verr) :=
  match cs with
  | [] => Some []
  | (attr, c) :: r =>
      match d !! attr with
      | None => None
      | Some deps =>
          let here :=
            if existsb (String.eqb attr) deps then Some [VCondSelf attr]
            else match mocks types deps with
                 | None => None
                 | Some m => match script_of c deps m with
                             | None => None
                             | Some s => match lua ("return " +:+ s)%string with
                                         | inl _ => Some []
                                         | inr e => Some [VCondLua attr e]
                                         end
                             end
                 end in
          match here, cond_errors types d r with
          | Some a, Some b => Some (a ++ b)
          | _, _ => None
          end
      end
  end.

(** 83-219 [validate].  Line 131-137: errors of the condition check are returned at once, dropping the
    SAID errors found before. *)
Definition validate (o : order) (langs : list string) (b : bundle) : vresult :=
  let es := said_errors b in
  let fin := match es ++ translation_errors langs (b_ovs b) with [] => VValid | l => VInvalid l end in
  match find_conditional (b_ovs b) with
  | None => fin
  | Some (c, d) =>
      match cond_errors (cb_attrs (b_cb b)) d (o ["conditions"] _ c) with
      | None => VPanic
      | Some [] => fin
      | Some ces => VInvalid ces
      end
  end.
End Oracles.
