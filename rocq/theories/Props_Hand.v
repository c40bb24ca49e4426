(** C62: commands written by hand mean what they say. *)
From Verif Require Import Spec_OcaFile OcaLayout AsRead Spec_Ast AstValidator_proofs Props_Ast Condition_proofs Props_OcaFile.
From Verif Require Import Spec_Hand HandLayout.

(** A file of commands written by hand - key words in any letter case, words apart by blanks, tabs and continued lines, texts
    between quotes of either kind or bare -, of comments, blank lines and metadata, with any line breaks, is read as exactly those
    commands, each validated against those before it and recorded with its text. *)
Theorem C62_reads : forall wide said_ok lines text, Forall (fun ft => hline_ok wide ft.1) lines -> hfile wide said_ok lines text ->
  parse_ocafile wide said_ok text =
  (let! a := push_all ast_new (hand_commands 0 lines) in Ok (Ast (ast_version a) (ast_commands a) (ast_cmeta a) (hand_meta (map fst lines) ∅))).
Proof. exact hand_layout. Qed.
Print Assumptions C62_reads.
(** A text says at most one command. *)
Theorem C62_unambiguous : forall wide said_ok c c' t, hand wide said_ok c t -> hand wide said_ok c' t -> c = c'.
Proof.
  intros wide said_ok c c' t H H'. destruct (hand_reads wide said_ok c t H) as (tok & Htk & _ & Hi & _). destruct (hand_reads wide said_ok c' t H') as (tok' & Htk' & _ & Hi' & _).
  assert (E : OcaHand.ends "") by (by left). destruct (takes_det _ _ _ _ _ _ _ _ _ (Htk _ E) (Htk' _ E)) as (_ & T & _). injection T as ->. rewrite Hi in Hi'. by injection Hi'.
Qed.
Print Assumptions C62_unambiguous.
(** specification (the command of a line) *)
Definition hline_command (f : hline) : option command := match f with HCmd c => Some c | _ => None end.
Lemma hand_commands_fst l : forall n, map fst (hand_commands n l) = omap hline_command (map fst l).
Proof. induction l as [|[f t] l IH]; intros n; [done|]. destruct f; cbn; try (by apply IH); f_equal; by apply IH. Qed.
(** Spelling, spacing, quotes, line breaks, comments and blank lines do not matter: two files that say the same commands in the
    same order are both rejected, or give the same commands and the same build. *)
Theorem C62_same_commands : forall wide said_ok lines text lines' text' a, Forall (fun ft => hline_ok wide ft.1) lines -> hfile wide said_ok lines text ->
  Forall (fun ft => hline_ok wide ft.1) lines' -> hfile wide said_ok lines' text' -> omap hline_command (map fst lines) = omap hline_command (map fst lines') ->
  parse_ocafile wide said_ok text = Ok a ->
  exists b, parse_ocafile wide said_ok text' = Ok b /\ ast_commands b = ast_commands a /\ ast_commands a = omap hline_command (map fst lines) /\
    ast_meta a = hand_meta (map fst lines) ∅ /\ ast_meta b = hand_meta (map fst lines') ∅ /\
    forall digest from1 os from, same_build (from_ast digest from1 os from b) (from_ast digest from1 os from a).
Proof.
  intros wide said_ok fs ts fs' ts' a H1 H2 H1' H2' E Hp. rewrite (C62_reads wide said_ok fs ts) in Hp by done. rewrite (C62_reads wide said_ok fs' ts') by done.
  set (l := hand_commands 0 fs) in *. set (l' := hand_commands 0 fs').
  assert (El : map fst l = omap hline_command (map fst fs)) by apply hand_commands_fst.
  assert (El' : map fst l' = omap hline_command (map fst fs')) by apply hand_commands_fst.
  rewrite <- E, <- El in El'.
  destruct (push_all ast_new l) as [x| |] eqn:Ex; [|discriminate Hp|discriminate Hp]. injection Hp as <-. apply C15_assembly in Ex as [Hw ->].
  assert (P : push_all ast_new l' = Ok (Ast "1.0.0" (map fst l') (zip (seq 0 (length l')) (map snd l')) ∅)).
  { apply C15_assembly. split; [|done]. intros pre c m post E'. assert (E2 : map fst l = map fst pre ++ c :: map fst post) by (by rewrite <- El', E', map_app).
    apply map_eq_app in E2 as (p1 & r1 & E3 & E4 & E5). destruct r1 as [|[d m'] r1]; [done|]. injection E5 as -> _. rewrite <- E4. by apply (Hw p1 c m' r1). }
  rewrite P. eexists. split; [reflexivity|]. cbn [ast_commands ast_meta]. rewrite El'. do 4 (split; [done|]). intros digest from1 os from.
  apply (build_same (fun c => c)); [by apply Forall_true|]. cbn [ast_commands]. by rewrite map_id.
Qed.
Print Assumptions C62_same_commands.
