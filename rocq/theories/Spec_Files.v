(** Independent specification of the file store (C50). *)
From Verif Require Export Files Spec_Storage.

(** A text that can be the name of a file. *)
Record file_name (k : string) : Prop := {
  fn_some : k <> ""; fn_dot : k <> "."; fn_dots : k <> "..";
  fn_slash : forall i, String.get i k <> Some "/"%char;
  fn_nul : forall i, String.get i k <> Some zero;
  fn_short : String.length k <= 255 }.
(** A disk: the parent of every entry is a directory (or the root). *)
Definition sane_disk (t : tree) : Prop := forall c p x, t !! (c :: p) = Some x -> p = [] \/ t !! p = Some None.
(** The position [p] is a directory. *)
Definition is_dir (t : tree) (p : list string) : Prop := p = [] \/ t !! p = Some None.
(** The absolute path of the directory whose names, outermost first, are [l]. *)
Fixpoint path_of (l : list string) : string := match l with [] => "" | c :: l => ("/" +:+ c +:+ path_of l)%string end.
(** The directory [l] can be used as a fresh store: no file is on the way, and it does not exist or is empty. *)
Record fresh_dir (t : tree) (l : list string) : Prop := {
  fd_some : l <> [];
  fd_names : Forall file_name l;
  fd_way : forall p x, p `suffix_of` rev l -> t !! p = Some x -> x = None;
  fd_empty : forall c q, t !! (q ++ c :: rev l) = None }.
(** The effect of a sequence of inserts. *)
Definition run_files (cwd : list string) (d : string) (ws : list write) (t : tree) : outcome tree :=
  fold_left (fun acc w => let! t := acc in file_insert cwd (Some d) w.1.1 w.1.2 w.2 t) ws (Ok t).
