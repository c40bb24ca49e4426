(** Reading and checking a file line by line. *)
From Verif Require Export Entry Spec_Build Spec_OcaFile.

Section SpecEntry.
Variable from1 : string -> option string.
Variable said_ok : string -> bool.
(** The table of known names. *)
Variable find : string -> option string.

(** The errors of a file checked line by line from the working state [st]: a line without a command is passed over, the command of
    a line is applied to the state the lines before it left, and a rejected one leaves the state as it was and is reported under
    the number of its line (counted from [n] + 1) and its text. *)
Fixpoint line_errors (st : option obox) (n : nat) (l : list (fline * string)) : list berr :=
  match l with
  | [] => []
  | (f, t) :: l =>
    match line_command f with
    | None => line_errors st (S n) l
    | Some c =>
      match resolve_cmd said_ok find c with
      | Ok c' =>
        match apply_command from1 st c' with
        | Ok st' => line_errors (Some st') (S n) l
        | Err ms => map (BErr (S n) t) ms ++ line_errors st (S n) l
        | Panic => []
        end
      | _ => []
      end
    end
  end.
End SpecEntry.
(** No line before the first command. *)
Definition silent (fs : list fline) : Prop := Forall (fun f => line_command f = None) fs.
(** The first command is not FROM. *)
Definition no_base (fs : list fline) : Prop := forall pre s post, fs = pre ++ FFrom s :: post -> ~ silent pre.
