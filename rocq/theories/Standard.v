(** Standards.  Models semantics/oca-bundle/src/state/standard.rs and config/standards.yml. *)
From Verif Require Export Regex OcaFile.

(** config/standards.yml 1-2, verbatim: the namespaces and their patterns. *)
Definition standards : list (string * string) :=
  [("ietf", "^([Rr][Ff][Cc]:[0-9]+|[Ff][Yy][Ii]:[0-9]+|[Ss][Tt][Dd]:[0-9]+|[Bb][Cc][Pp]:[0-9]+|[Ii][Dd]:(([0-9A-Za-z]|-)+)|[Mm][Tt][Gg]:(([0-9A-Za-z]|-)+)|(([0-9A-Za-z]|-)+))$");
   ("iso", "^[Ss][Tt][Dd]:([Ii][Ss][Oo]|[Ii][Ss][Oo]-[Ii][Ee][Cc]|[Ii][Ss][Oo]-[Cc][Ii][Ee]|[Ii][Ss][Oo]-[Aa][Ss][Tt][Mm]|[Ii][Ss][Oo]-[Ii][Ee][Ee][Ee]|[Ii][Ee][Cc])(:([Dd][Aa][Tt][Aa]|[Gg][Uu][Ii][Dd][Ee]|[Ii][Ss][Pp]|[Ii][Ww][Aa]|[Pp][Aa][Ss]|[Rr]|[Tt][Rr]|[Tt][Ss]|[Tt][Tt][Aa]))?:[0-9][0-9]*(:(-([0-9A-Za-z]|-)+))?((:(([Dd][Rr][Aa][Ff][Tt]|[Cc][Aa][Nn][Cc][Ee][Ll][Ll][Ee][Dd])|[Ss][Tt][Aa][Gg][Ee]-[0-9][0-9].[0-9][0-9](.[Vv][0-9][0-9]*)?))?:[Ee][Dd]-[0-9][0-9]*)?(:([Vv]([0-9][0-9]*|[0-9][0-9]*(-([Aa][Mm][Dd]|[Cc][Oo][Rr]|[Aa][Dd][Dd])[0-9][0-9]*(.[Vv][0-9][0-9]*)?)*)))?(:(([Ee][Nn]|[Ff][Rr]|[Rr][Uu]|[Ee][Ss]|[Aa][Rr])|([Ee][Nn],[Ff][Rr]|[Ee][Nn],[Rr][Uu]|[Ff][Rr],[Rr][Uu])|[Ee][Nn],[Ff][Rr],[Rr][Uu]))?(:([Aa][Mm][Dd]|[Cc][Oo][Rr]|[Aa][Dd][Dd]):[0-9][0-9]*(:[Vv][0-9][0-9]*)?(:(([Ee][Nn]|[Ff][Rr]|[Rr][Uu]|[Ee][Ss]|[Aa][Rr])|([Ee][Nn],[Ff][Rr]|[Ee][Nn],[Rr][Uu]|[Ff][Rr],[Rr][Uu])|[Ee][Nn],[Ff][Rr],[Rr][Uu]))?)*(:([Cc][Ll][Aa][Uu][Ss][Ee]|[Ff][Ii][Gg][Uu][Rr][Ee]|[Tt][Aa][Bb][Ll][Ee]|[Tt][Ee][Rr][Mm]):(((([A-Za-z]|[0-9][0-9]*)(.[0-9][0-9]*)*)|(([A-Za-z]|[0-9][0-9]*)(.[0-9][0-9]*)*)-(([A-Za-z]|[0-9][0-9]*)(.[0-9][0-9]*)*))(,((([A-Za-z]|[0-9][0-9]*)(.[0-9][0-9]*)*)|((([A-Za-z]|[0-9][0-9]*)(.[0-9][0-9]*)*)-(([A-Za-z]|[0-9][0-9]*)(.[0-9][0-9]*)*))))*))*((:[Tt][Ee][Cc][Hh]:.*|[A-Za-z]*))?$")].

(** The patterns of config/standards.yml 1-2 are anchored at both ends: what is between [^] and [$]. *)
Definition unanchored (p : string) : option string :=
  match list_ascii_of_string p with
  | c :: s => if Ascii.eqb c "^" then
      match reverse s with
      | d :: s' => if Ascii.eqb d "$" then Some (string_of_list_ascii (reverse s')) else None
      | [] => None
      end else None
  | [] => None
  end.
(** A pattern of standards.yml compiled.  A pattern that does not compile counts as no pattern, [.ok()] at standard.rs 27. *)
Definition compiled (p : string) : option rx :=
  match unanchored p with
  | Some q => match rx_new q with RxTree r => Some r | _ => None end
  | None => None
  end.

Section Standard.
(** [urn::Urn::from_str], with [nid()] and [nss()] of the result (urn crate). *)
Variable urn : string -> option (string * string).

(** [Standard::regexes], standard.rs 19-30. *)
Definition regexes (nid : string) : option rx :=
  match imap_get nid standards with Some p => compiled p | None => None end.
(** [Standard::validate], standard.rs 32-48. *)
Definition standard_validate (v : string) : outcome string :=
  match urn v with
  | None => Err ["urn error"]
  | Some (nid, nss) =>
    match regexes nid with
    | Some r => if rx_match r nss then Ok v else Err [nss +:+ " nss is invalid for " +:+ nid +:+ " namespace"]
    | None => Err [nid +:+ " namespace is unsupported"]
    end
  end.
(** [Standard::new] and [Deserialize], standard.rs 12-17 and 61-75; [str::to_lowercase] restricted to ASCII. *)
Definition standard_new (v : string) : string := lower_str v.
(** [Standard::new(value).validate()], standard.rs 67-70: the value kept, if it is a standard. *)
Definition read_standard (v : string) : option string :=
  match standard_validate (standard_new v) with Ok t => Some t | _ => None end.
End Standard.
