(** C59: comparing, hashing and showing commands and objects. *)
From Verif Require Import Base Ast Bundle Spec_Bundle Build Spec_Build Codec Storage Relations Spec_Relations Inj_digest Props_Bundle Props_Build Equality Spec_Equality Upd_proofs Effect_proofs Command_proofs Box_proofs Equality_proofs.
Local Open Scope list_scope.

(** Commands compare equal exactly when they are the same but for the order of names. *)
Theorem C59_equal_iff_reordered : forall c c', command_ok c -> command_ok c' -> command_eqb c c' = true <-> reordered_command c c'.
Proof. exact command_eqb_same. Qed.
Print Assumptions C59_equal_iff_reordered.
Theorem C59_equivalence : forall c c' c'', command_ok c -> command_ok c' -> command_ok c'' ->
  command_eqb c c = true /\ (command_eqb c c' = true -> command_eqb c' c = true) /\
  (command_eqb c c' = true -> command_eqb c' c'' = true -> command_eqb c c'' = true).
Proof.
  intros c c' c'' H H' H''. rewrite !command_eqb_same by done. split; [apply reordered_command_refl|]. split; [apply reordered_command_sym|apply reordered_command_trans].
Qed.
Print Assumptions C59_equivalence.
(** A command that is accepted does to a state exactly what an equal one does. *)
Theorem C59_same_effect : forall from1 b b' c c', api_box b -> command_ok c -> command_ok c' -> command_eqb c c' = true -> ~ gives_groups c ->
  apply_command from1 (Some b) c = Ok b' -> apply_command from1 (Some b) c' = Ok b'.
Proof.
  intros from1 b b' c c' Hb H H' E Hg. apply command_eqb_same in E; [|done..]. apply apply_same; try done. intros x [= <-]. by apply box_ok_names, api_box_ok.
Qed.
Print Assumptions C59_same_effect.
(** ASTs that compare equal build the same bundle, and record steps with the same parents and results. *)
Theorem C59_same_build : forall digest from1 os from a a' B steps, (forall i, order_ok (os i)) -> Forall command_ok (ast_commands a) -> Forall command_ok (ast_commands a') ->
  Forall (fun c => ~ gives_groups c) (ast_commands a) -> ast_eqb a a' = true -> from_ast digest from1 os from a = BuildOk B steps ->
  exists steps', from_ast digest from1 os from a' = BuildOk B steps' /\
    Forall2 (fun s s' => bs_parent s = bs_parent s' /\ bs_result s = bs_result s' /\ reordered_command (bs_cmd s) (bs_cmd s')) steps steps'.
Proof.
  intros digest from1 os from a a' B steps Ho H H' Hg E Eb. unfold ast_eqb in E. apply andb_true_iff in E as [_ E]. apply andb_true_iff in E as [E _].
  apply (from_ast_same digest from1 os from a a' B steps); try done. clear -E H H'. revert E H'. generalize (ast_commands a') as cs'. induction (ast_commands a) as [|c cs IH]; intros [|c' cs'] E H'; try done.
  cbn in E. apply andb_true_iff in E as [E1 E2]. apply Forall_cons in H as [H0 H], H' as [H0' H']. constructor; [by apply command_eqb_same|by apply IH].
Qed.
Print Assumptions C59_same_build.

(** ** Cases *)
Definition eq_first : ast := mk_ast [add_attrs [("a", NVal TText); ("b", NVal TNumeric)];
  add_ov KLabel [("a", VVal "A"); ("b", VVal "B")] [("lang", VVal "en")]; add_ov KEntry [("a", VObj [("x", VVal "X"); ("y", VVal "Y")])] [("lang", VVal "en")]].
Definition eq_second : ast := mk_ast [add_attrs [("b", NVal TNumeric); ("a", NVal TText)];
  add_ov KLabel [("b", VVal "B"); ("a", VVal "A")] [("lang", VVal "en")]; add_ov KEntry [("a", VObj [("y", VVal "Y"); ("x", VVal "X")])] [("lang", VVal "en")]].
Lemma ok_ov k l p : NoDup (map fst l) -> NoDup (map fst p) -> (forall n v, (n, v) ∈ l ++ p -> nvalue_ok v) -> command_ok (add_ov k l p).
Proof.
  intros H1 H2 H. split; intros x Ex; injection Ex as <-; (split; [done|]); intros n v Hg; apply imap_get_elem in Hg; apply (H n v), elem_of_app; auto.
Qed.
Lemma ok_attrs l : NoDup (map fst l) -> command_ok (add_attrs l).
Proof. intros H. split; [intros x Ex; by injection Ex as <-|by intros x Ex]. Qed.
Ltac ok_case := first [apply ok_attrs; by apply (bool_decide_unpack _)|apply ok_ov; [by apply (bool_decide_unpack _)..|]; intros n v Hin; cbn [app] in Hin;
  repeat (apply elem_of_cons in Hin as [Hin|Hin]; [injection Hin as _ ->; cbn; repeat split; try (by apply (bool_decide_unpack _))|]); by apply elem_of_nil in Hin].
Theorem C59_hypotheses_met : Forall command_ok (ast_commands eq_first) /\ Forall command_ok (ast_commands eq_second) /\
  Forall (fun c => ~ gives_groups c) (ast_commands eq_first) /\ ast_eqb eq_first eq_second = true /\ eq_first <> eq_second /\
  exists B steps, from_ast inj_digest ex_from1 (fun _ => ord1) None eq_first = BuildOk B steps /\ length steps = 3.
Proof.
  split; [|split; [|split; [|split; [vm_compute; reflexivity|split; [discriminate|]]]]].
  - cbn [ast_commands eq_first mk_ast]. repeat apply Forall_cons_2; try apply Forall_nil_2; ok_case.
  - cbn [ast_commands eq_second mk_ast]. repeat apply Forall_cons_2; try apply Forall_nil_2; ok_case.
  - cbn [ast_commands eq_first mk_ast]. repeat apply Forall_cons_2; try apply Forall_nil_2; intros (v & ct & n & l & E & _); discriminate E.
  - assert (X : match from_ast inj_digest ex_from1 (fun _ => ord1) None eq_first with BuildOk _ steps => Nat.eqb (length steps) 3 | _ => false end = true) by (vm_compute; reflexivity).
    destruct (from_ast inj_digest ex_from1 (fun _ => ord1) None eq_first) as [B steps| |]; [|discriminate X..]. exists B, steps. split; [done|by apply Nat.eqb_eq].
Qed.
Print Assumptions C59_hypotheses_met.
(** Finding: with entry codes in groups, two ASTs compare equal and give bundles with different SAIDs. *)
Definition groups_ast (l : imap nvalue) : ast := mk_ast [add_attrs [("a", NVal TText)]; add_ov KEntryCode [("a", VObj l)] []].
Theorem C59_equal_saids_refuted : exists a a' B B' steps steps', Forall command_ok (ast_commands a) /\ Forall command_ok (ast_commands a') /\ ast_eqb a a' = true /\
  from_ast inj_digest ex_from1 (fun _ => ord1) None a = BuildOk B steps /\ from_ast inj_digest ex_from1 (fun _ => ord1) None a' = BuildOk B' steps' /\ b_said B <> b_said B'.
Proof.
  exists (groups_ast [("g", VArr [VVal "x"]); ("h", VArr [VVal "y"])]), (groups_ast [("h", VArr [VVal "y"]); ("g", VArr [VVal "x"])]).
  assert (X : match from_ast inj_digest ex_from1 (fun _ => ord1) None (groups_ast [("g", VArr [VVal "x"]); ("h", VArr [VVal "y"])]), from_ast inj_digest ex_from1 (fun _ => ord1) None (groups_ast [("h", VArr [VVal "y"]); ("g", VArr [VVal "x"])]) with
    | BuildOk B _, BuildOk B' _ => match b_said B, b_said B' with Some s, Some s' => negb (String.eqb s s') | _, _ => false end | _, _ => false end = true) by (vm_compute; reflexivity).
  destruct (from_ast inj_digest ex_from1 (fun _ => ord1) None (groups_ast [("g", VArr [VVal "x"]); ("h", VArr [VVal "y"])])) as [B steps| |]; [|discriminate X..].
  destruct (from_ast inj_digest ex_from1 (fun _ => ord1) None (groups_ast [("h", VArr [VVal "y"]); ("g", VArr [VVal "x"])])) as [B' steps'| |]; [|discriminate X..].
  exists B, B', steps, steps'. split; [|split; [|split; [vm_compute; reflexivity|split; [done|split; [done|]]]]].
  - cbn [ast_commands groups_ast mk_ast]. repeat apply Forall_cons_2; try apply Forall_nil_2; ok_case.
  - cbn [ast_commands groups_ast mk_ast]. repeat apply Forall_cons_2; try apply Forall_nil_2; ok_case.
  - intros E. rewrite E in X. destruct (b_said B') as [s|]; [|discriminate X]. by rewrite String.eqb_refl in X.
Qed.
Print Assumptions C59_equal_saids_refuted.
(** Finding: of two equal commands one is rejected with an error and the other one panics. *)
Theorem C59_equal_outcomes_refuted : exists b c c' es, api_box b /\ command_ok c /\ command_ok c' /\ command_eqb c c' = true /\
  apply_command ex_from1 (Some b) c = Err es /\ apply_command ex_from1 (Some b) c' = Panic.
Proof.
  exists (add_attribute (set_type (NVal TText) (attr_new "a")) box_new), (add_ov KLabel [("z", VVal "Z"); ("a", VVal "A")] []), (add_ov KLabel [("a", VVal "A"); ("z", VVal "Z")] []), ["Undefined attribute: z"].
  split; [|split; [ok_case|split; [ok_case|split; [vm_compute; reflexivity|split; vm_compute; reflexivity]]]].
  apply (apply_api ex_from1 None _ (add_attrs [("a", NVal TText)])); [ok_case|done|reflexivity].
Qed.
Print Assumptions C59_equal_outcomes_refuted.

(** ** Hashing *)
(** Equal bundle references and equal overlays feed a hasher the same. *)
Theorem C59_equal_hash : forall k k', (forall c, k <> OCaptureBase c) -> object_eqb k k' = true -> object_feed k = object_feed k'.
Proof.
  intros k k' H E. destruct k as [c|r|t c], k' as [c'|r'|t' c']; try discriminate E; [by destruct (H c)| |].
  - cbn in E. apply ref_eqb_eq in E. cbn. by rewrite E.
  - cbn in E. apply andb_true_iff in E as [E _]. apply otype_eqb_eq in E as ->. done.
Qed.
Print Assumptions C59_equal_hash.
(** Finding: equal capture bases do not, which breaks the contract of [Hash]; the flagged attributes are not fed at all. *)
Theorem C59_capture_hash_refuted : exists k k', object_eqb k k' = true /\ object_feed k <> object_feed k'.
Proof.
  exists (OCaptureBase (CapContent (Some [("a", NVal TText); ("b", NVal TText)]) None None)), (OCaptureBase (CapContent (Some [("b", NVal TText); ("a", NVal TText)]) None None)).
  split; [reflexivity|]. discriminate.
Qed.
Print Assumptions C59_capture_hash_refuted.
(** The objects of relations: comparing them is being the same, and a hash set of them, with whatever hasher, keeps one of each. *)
Lemma shown_eqb r r' : object_eqb (shown r) (shown r') = true <-> r = r'.
Proof.
  destruct r as [| |k], r' as [| |k']; cbn; try (split; done). rewrite !andb_true_r. unfold otype_eqb. cbn. rewrite andb_true_r, bool_decide_eq_true. split; [by intros ->|by intros [= ->]].
Qed.
Theorem C59_relation_sets : forall H x l, (exists r, oo_kind x = shown r) -> (forall y, y ∈ l -> exists r, oo_kind y = shown r) ->
  set_insert H x l = (if bool_decide (x ∈ l) then l else l ++ [x]).
Proof.
  intros H x l [r Hx] Hl. unfold set_insert.
  assert (G : forall y, y ∈ l -> oobject_eqb x y = true <-> x = y).
  { intros y Hy. destruct (Hl y Hy) as [r' Hr']. destruct x as [s k], y as [s' k']. cbn in Hx, Hr'. subst k k'. unfold oobject_eqb. cbn [oo_said oo_kind]. rewrite andb_true_iff, String.eqb_eq, shown_eqb.
    split; [by intros [-> ->]|]. intros E. injection E as -> E. split; [done|]. destruct r as [| |k], r' as [| |k']; try discriminate E; try done. cbn in E. by injection E as ->. }
  destruct (existsb _ l) eqn:E.
  - apply existsb_exists in E as (y & Hy & E). apply elem_of_list_In in Hy. apply andb_true_iff in E as [_ E]. apply (G y Hy) in E as ->. by rewrite bool_decide_true.
  - rewrite bool_decide_false; [done|]. intros Hin. assert (X : existsb (fun y => Nat.eqb (H (oobject_feed x)) (H (oobject_feed y)) && oobject_eqb x y) l = true).
    { apply existsb_exists. exists x. split; [by apply elem_of_list_In|]. by rewrite Nat.eqb_refl, (proj2 (G x Hin)). } congruence.
Qed.
Print Assumptions C59_relation_sets.
(** Finding: a hash set of objects with capture contents can keep two equal ones. *)
Theorem C59_set_keeps_equal_refuted : exists H x y, oobject_eqb x y = true /\ set_insert H y (set_insert H x []) = [x; y].
Proof.
  exists (fun l => match l with _ :: FText s :: _ => String.length s | _ => 0 end),
    (OObj "E" (OCaptureBase (CapContent (Some [("a", NVal TText); ("bb", NVal TText)]) None None))), (OObj "E" (OCaptureBase (CapContent (Some [("bb", NVal TText); ("a", NVal TText)]) None None))).
  split; reflexivity.
Qed.
Print Assumptions C59_set_keeps_equal_refuted.

(** ** As JSON *)
Lemma kind_name_inj k k' : okind_name k = okind_name k' -> k = k'.
Proof. destruct k, k'; intros E; first [reflexivity|discriminate E]. Qed.
(** The JSON of a related object tells its SAID and what it is. *)
Theorem C59_json_tells : forall s s' r r', oobject_json (OObj s (shown r)) = oobject_json (OObj s' (shown r')) -> s = s' /\ r = r'.
Proof.
  intros s s' r r' E. destruct r as [| |k], r' as [| |k']; try discriminate E; cbn in E.
  - injection E as ->. done.
  - injection E as ->. done.
  - assert (K : okind_name k = okind_name k' /\ s = s'). { unfold oobject_json, object_kind_json in E. cbn [shown oo_kind oo_said obj_name ot_kind] in E. by injection E. }
    destruct K as [K ->]. split; [done|]. f_equal. by apply kind_name_inj.
Qed.
Print Assumptions C59_json_tells.
(** "object_type" is a text for overlays, with the kind under "metadata", and an object for bundles and capture bases. *)
Theorem C59_json_shape : forall s r, exists t rest, oobject_json (OObj s (shown r)) = JObj (("said", JStr s) :: ("object_type", t) :: rest) /\
  match r with
  | RBundle => t = JObj [("object_kind", JStr "OCABundle"); ("content", JObj [("said", JStr "refn:")])] /\ rest = []
  | RCapture => t = JObj [("object_kind", JStr "CaptureBase"); ("content", JObj [])] /\ rest = []
  | ROverlay k => t = JStr "Overlay" /\ rest = [("metadata", JObj [("kind", JObj [("object_kind", JStr (okind_name k)); ("content", JObj [])])])]
  end.
Proof. intros s r. destruct r as [| |k]; eexists _, _; (split; [reflexivity|]); split; reflexivity. Qed.
Print Assumptions C59_json_shape.

(** ** A file that is rewritten (C57) reads as commands that compare equal. *)
From Verif Require Import Peg OcaGrammar OcaFile Spec_OcaFile Spec_Read Spec_Rewrite OcaForms OcaBuilds Props_Rewrite.
Theorem C59_rewritten_equal : forall wide said_ok s a, parse_ocafile wide said_ok s = Ok a -> Forall (fun c => ~ unwritable c) (ast_commands a) ->
  exists s' b, generate_ocafile a = Ok s' /\ parse_ocafile wide said_ok s' = Ok b /\ Forall2 (fun c c' => command_eqb c c' = true) (ast_commands a) (ast_commands b).
Proof.
  intros wide said_ok s a Hs Hu. destruct (C57_rewriting _ _ _ _ Hs Hu) as (s' & b & Hg & Hp & F & _). exists s', b. split; [done|]. split; [done|].
  assert (K : forall t x, parse_ocafile wide said_ok t = Ok x -> Forall command_ok (ast_commands x)).
  { intros t x Hx. destruct (file_form _ _ _ _ Hx) as [Hr _]. eapply Forall_impl; [exact Hr|]. intros c. apply readable_ok. }
  pose proof (K _ _ Hs) as K1. pose proof (K _ _ Hp) as K2. clear -F K1 K2. induction F as [|c c' cs cs' H F IH]; [constructor|]. apply Forall_cons in K1 as [K1 K1'], K2 as [K2 K2']. constructor; [|by apply IH].
  apply command_eqb_same; [done|done|]. destruct H as [->|(ats & ps & ps' & -> & -> & P)]; [apply reordered_command_refl|]. split; [done|]. cbn. split; [done|]. split; [apply same_values_refl|].
  exists ps'. split; [done|]. clear. induction ps' as [|x l IH]; constructor; [split; [done|apply same_value_refl]|done].
Qed.
Print Assumptions C59_rewritten_equal.
