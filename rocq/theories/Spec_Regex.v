(** What a pattern means, independent of how it is matched: the set of texts it describes. *)
From Verif Require Export Regex.

(** The texts of a pattern.  A leaf takes one character; a star takes any number of pieces. *)
Inductive means : rx -> list ascii -> Prop :=
| m_empty : means REmpty []
| m_char c : means (RChar c) [c]
| m_dot c : c <> newline -> means RDot [c]
| m_class_in l c : in_ranges l c = true -> means (RClass false l) [c]
| m_class_out l c : in_ranges l c = false -> means (RClass true l) [c]
| m_cat a b s t : means a s -> means b t -> means (RCat a b) (s ++ t)
| m_left a b s : means a s -> means (RAlt a b) s
| m_right a b s : means b s -> means (RAlt a b) s
| m_stop a : means (RStar a) []
| m_more a s t : means a s -> means (RStar a) t -> means (RStar a) (s ++ t)
| m_group a s : means a s -> means (RGroup a) s.
