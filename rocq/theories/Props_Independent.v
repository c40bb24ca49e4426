(** C60: the order of commands that touch different things. *)
From Verif Require Import Base Ast Bundle Spec_Bundle Build Spec_Build Inj_digest Props_Bundle Props_Build Equality_proofs Upd_proofs Effect_proofs Command_proofs Box_proofs Spec_Independent Independent_proofs Props_Equality.
Local Open Scope list_scope.

(** Two independent commands, applied in either order, both succeed or not, and leave the same box. *)
Theorem C60_exchange : forall from1 b c c' b1 b2, api_box b -> command_ok c -> command_ok c' -> independent from1 c c' ->
  apply_command from1 (Some b) c = Ok b1 -> apply_command from1 (Some b1) c' = Ok b2 ->
  exists b1', apply_command from1 (Some b) c' = Ok b1' /\ apply_command from1 (Some b1') c = Ok b2.
Proof. intros from1 b c c' b1 b2. apply swap_ok. Qed.
Print Assumptions C60_exchange.
(** An error of one does not depend on the other. *)
Theorem C60_same_error : forall from1 b c c' b1 es, api_box b -> command_ok c -> command_ok c' -> independent from1 c c' ->
  apply_command from1 (Some b) c = Ok b1 -> (apply_command from1 (Some b1) c' = Err es <-> apply_command from1 (Some b) c' = Err es) /\
  (apply_command from1 (Some b1) c' = Panic <-> apply_command from1 (Some b) c' = Panic).
Proof.
  intros from1 b c c' b1 es Hb Hc Hc' Hi E. pose proof (verdict_after from1 b c c' Hb Hc Hc' Hi b1 E) as V.
  destruct (apply_command from1 (Some b1) c'), (apply_command from1 (Some b) c'); try done. cbn in V. injection V as ->. done.
Qed.
Print Assumptions C60_same_error.
(** A build whose commands were rearranged by exchanging independent neighbours gives the same bundle, or the same messages, or
    aborts too. *)
Theorem C60_rearranged_build : forall digest from1 os from a a', (forall i, order_ok (os i)) -> Forall command_ok (ast_commands a) -> rearranged from1 (ast_commands a) (ast_commands a') ->
  match from_ast digest from1 os from a with
  | BuildOk B _ => exists steps, from_ast digest from1 os from a' = BuildOk B steps
  | BuildErr es => exists es', from_ast digest from1 os from a' = BuildErr es' /\ map be_msg es ≡ₚ map be_msg es'
  | BuildPanic => from_ast digest from1 os from a' = BuildPanic
  end.
Proof. intros digest from1 os from a a' Ho Hc R. by apply from_ast_rearranged. Qed.
Print Assumptions C60_rearranged_build.
(** A stretch of commands no two of which touch the same thing can be given in any order. *)
Theorem C60_any_order : forall digest from1 os from a a' before l l' rest, (forall i, order_ok (os i)) -> Forall command_ok (ast_commands a) ->
  ast_commands a = before ++ l ++ rest -> ast_commands a' = before ++ l' ++ rest -> l ≡ₚ l' -> all_independent from1 l ->
  match from_ast digest from1 os from a with
  | BuildOk B _ => exists steps, from_ast digest from1 os from a' = BuildOk B steps
  | BuildErr es => exists es', from_ast digest from1 os from a' = BuildErr es' /\ map be_msg es ≡ₚ map be_msg es'
  | BuildPanic => from_ast digest from1 os from a' = BuildPanic
  end.
Proof.
  intros digest from1 os from a a' before l l' rest Ho Hc Ea Ea' Hp Hi. apply from_ast_rearranged; [done| |done]. rewrite Ea, Ea'. pose proof (perm_rearranged from1 l l' Hp Hi) as R. clear -R.
  induction before as [|c before IH]; [|by apply rearranged_cons]. cbn [app]. induction R as [l|p c c' q l Hi R IH]; [constructor|].
  rewrite <- app_assoc in IH |- *. cbn [app] in *. by apply (ra_swap from1 p c c' (q ++ rest)).
Qed.
Print Assumptions C60_any_order.

(** ** Cases *)
(** The things a command touches, as a list. *)
Definition touched (from1 : string -> option string) (c : command) : list thing :=
  match cmd_obj c with
  | OCaptureBase cc => map (fun kv : string * nattr => TheAttr kv.1) (unwrap_or [] (cc_attrs cc)) ++ (if imap_mem "classification" (unwrap_or [] (cc_props cc)) then [TheClass] else [])
  | OBundle _ => []
  | OOverlay t ct =>
      (if loops (ot_kind t) then map (fun kv : string * nvalue => Named kv.1) (unwrap_or [] (ct_attrs ct)) else []) ++
      omap (M := list) (fun kv : string * nvalue => match value_upd from1 (ot_kind t) (ct_props ct) kv.2 with Ok (Some u) => Some (TheSlot kv.1 (upd_slot u)) | _ => None end) (unwrap_or [] (ct_attrs ct)) ++
      match ot_kind t, cmd_lang from1 (ct_props ct) with
      | KMeta, Some l => map (fun kv : string * nvalue => TheMeta l kv.1) (List.filter (fun kv : string * nvalue => negb (String.eqb kv.1 "lang")) (unwrap_or [] (ct_props ct)))
      | _, _ => []
      end
  end.
Lemma has_in m k v : has m k v -> (k, v) ∈ (unwrap_or [] m : list (string * nvalue)).
Proof. intros (l & -> & H). by apply imap_get_elem. Qed.
Lemma touched_all from1 c t : command_ok c -> touches from1 c t -> t ∈ touched from1 c.
Proof.
  intros Hc H. destruct H as [k cc l n E Hn|k cc v H|k t ct n v Hk H|k t ct n v s d H Hs|k t ct l key s Hk Hl Hne H]; unfold touched, command_ok in *; cbn [cmd_obj] in *.
  - rewrite E. apply elem_of_app. left. apply elem_of_list_fmap in Hn as ([m x] & -> & Hn). apply elem_of_list_fmap. by exists (m, x).
  - apply elem_of_app. right. destruct H as (l & -> & H). rewrite imap_mem_get. cbn. rewrite H. left.
  - apply elem_of_app. left. rewrite (proj2 (loops_kinds _) Hk). apply has_in in H. apply elem_of_list_fmap. by exists (n, v).
  - apply elem_of_app. right. apply elem_of_app. left. destruct Hc as [Ha Hp]. apply elem_of_list_omap. exists (n, v). split; [by apply has_in|]. cbn [fst snd].
    destruct H as (l & El & H). destruct (Ha l El) as [_ Hv]. destruct (says_upd from1 _ _ _ _ _ (Hv n v H) Hp Hs) as (u & -> & <- & _). done.
  - apply elem_of_app. right. apply elem_of_app. right. rewrite Hk. destruct Hc as [_ Hp]. rewrite (proj2 (cmd_lang_spec from1 _ l) Hl). apply has_in in H. apply elem_of_list_fmap. exists (key, VVal s). split; [done|]. apply elem_of_list_In, filter_In. split; [by apply elem_of_list_In|]. cbn. by apply negb_true_iff, String.eqb_neq.
Qed.
Definition clash_b (t t' : thing) : bool :=
  match t, t' with
  | TheAttr n, TheAttr m | TheAttr n, Named m | Named n, TheAttr m => String.eqb n m
  | TheSlot n s, TheSlot m s' => String.eqb n m && bool_decide (s = s')
  | TheMeta l k, TheMeta l' k' => String.eqb l l' && String.eqb k k'
  | TheClass, TheClass => true
  | _, _ => false
  end.
Lemma independent_check from1 c c' : command_ok c -> command_ok c' -> forallb (fun t => forallb (fun t' => negb (clash_b t t')) (touched from1 c')) (touched from1 c) = true -> independent from1 c c'.
Proof.
  intros Hc Hc' H t t' T T' X. apply touched_all in T, T'; [|done..]. rewrite forallb_forall in H. apply elem_of_list_In in T, T'. specialize (H t T). rewrite forallb_forall in H. specialize (H t' T').
  destruct X; cbn in H; rewrite ?String.eqb_refl in H; try done. by rewrite bool_decide_true in H.
Qed.
Fixpoint independent_list (from1 : string -> option string) (l : list command) : bool :=
  match l with [] => true | c :: r => forallb (fun c' => forallb (fun t => forallb (fun t' => negb (clash_b t t')) (touched from1 c')) (touched from1 c)) r && independent_list from1 r end.
Lemma independent_list_ok from1 l : Forall command_ok l -> independent_list from1 l = true -> all_independent from1 l.
Proof.
  induction l as [|c l IH]; intros Hc H; [constructor|]. apply Forall_cons in Hc as [Hc Hl]. cbn [independent_list] in H. apply andb_true_iff in H as [H1 H2]. constructor; [|by apply IH].
  intros c' Hin. rewrite forallb_forall in H1. apply independent_check; [done| |by apply H1, elem_of_list_In]. rewrite Forall_forall in Hl. by apply Hl.
Qed.
Definition in_from1 (s : string) : option string := if String.eqb s "en" then Some "eng" else if String.eqb s "fr" then Some "fra" else None.
Definition in_decl : list command := [add_attrs [("a", NVal TText); ("b", NVal TNumeric)]].
Definition in_first : list command := [add_ov KLabel [("a", VVal "A"); ("b", VVal "B")] [("lang", VVal "en")]; add_ov KLabel [("a", VVal "A2")] [("lang", VVal "fr")]; add_ov KUnit [("b", VVal "kg")] [];
  add_ov KMeta [] [("lang", VVal "en"); ("name", VVal "N")]; add_ov KMeta [] [("lang", VVal "en"); ("description", VVal "D")]; add_attrs [("c", NVal TText)]; add_ov KUnit [("a", VVal "m")] []].
Definition in_second : list command := [add_attrs [("c", NVal TText)]; add_ov KMeta [] [("lang", VVal "en"); ("description", VVal "D")]; add_ov KUnit [("a", VVal "m")] []; add_ov KLabel [("a", VVal "A2")] [("lang", VVal "fr")];
  add_ov KLabel [("a", VVal "A"); ("b", VVal "B")] [("lang", VVal "en")]; add_ov KUnit [("b", VVal "kg")] []; add_ov KMeta [] [("lang", VVal "en"); ("name", VVal "N")]].
Theorem C60_hypotheses_met : Forall command_ok (in_decl ++ in_first ++ []) /\ in_first ≡ₚ in_second /\ in_first <> in_second /\ all_independent in_from1 in_first /\
  exists B steps steps', from_ast inj_digest in_from1 (fun _ => ord1) None (mk_ast (in_decl ++ in_first)) = BuildOk B steps /\
    from_ast inj_digest in_from1 (fun _ => ord1) None (mk_ast (in_decl ++ in_second)) = BuildOk B steps' /\ length (b_ovs B) = 4%nat.
Proof.
  assert (Hc : Forall command_ok (in_decl ++ in_first)) by (repeat apply Forall_cons_2; try apply Forall_nil_2; ok_case).
  assert (Hp : in_first ≡ₚ in_second). { unfold in_first, in_second. solve_Permutation. }
  assert (Hi : all_independent in_from1 in_first). { apply independent_list_ok; [by apply Forall_app in Hc as [_ Hc]|vm_compute; reflexivity]. }
  split; [by rewrite app_nil_r|]. split; [done|]. split; [discriminate|]. split; [done|].
  assert (X : match from_ast inj_digest in_from1 (fun _ => ord1) None (mk_ast (in_decl ++ in_first)) with BuildOk B _ => Nat.eqb (length (b_ovs B)) 4 | _ => false end = true) by (vm_compute; reflexivity).
  pose proof (C60_any_order inj_digest in_from1 (fun _ => ord1) None (mk_ast (in_decl ++ in_first)) (mk_ast (in_decl ++ in_second)) in_decl in_first in_second [] (fun _ => ord1_ok) Hc) as Y.
  rewrite !app_nil_r in Y. specialize (Y eq_refl eq_refl Hp Hi).
  destruct (from_ast inj_digest in_from1 (fun _ => ord1) None (mk_ast (in_decl ++ in_first))) as [B steps| |]; [|discriminate X..]. destruct Y as (steps' & Y). exists B, steps, steps'. split; [done|]. split; [done|]. by apply Nat.eqb_eq.
Qed.
Print Assumptions C60_hypotheses_met.
(** Finding: commands for the same slot do not commute, and a later UNIT or ENTRY_CODE loses to an earlier one, while a later FORMAT wins. *)
Theorem C60_same_slot_refuted : exists c c', command_ok c /\ command_ok c' /\ ~ independent in_from1 c c' /\
  exists B steps B' steps', from_ast inj_digest in_from1 (fun _ => ord1) None (mk_ast (in_decl ++ [c; c'])) = BuildOk B steps /\
    from_ast inj_digest in_from1 (fun _ => ord1) None (mk_ast (in_decl ++ [c'; c])) = BuildOk B' steps' /\ b_said B <> b_said B'.
Proof.
  exists (add_ov KUnit [("a", VVal "kg")] []), (add_ov KUnit [("a", VVal "m")] []). split; [ok_case|]. split; [ok_case|]. split.
  - intros H. apply (H (TheSlot "a" (SPlain KUnit)) (TheSlot "a" (SPlain KUnit))); [..|constructor]; eapply t_slot; try (by exists [("a", VVal "kg")]); try (by exists [("a", VVal "m")]); constructor.
  - set (r := from_ast inj_digest in_from1 (fun _ => ord1) None (mk_ast (in_decl ++ [add_ov KUnit [("a", VVal "kg")] []; add_ov KUnit [("a", VVal "m")] []]))).
    set (r' := from_ast inj_digest in_from1 (fun _ => ord1) None (mk_ast (in_decl ++ [add_ov KUnit [("a", VVal "m")] []; add_ov KUnit [("a", VVal "kg")] []]))).
    assert (X : match r, r' with BuildOk B _, BuildOk B' _ => negb (bool_decide (b_said B = b_said B')) | _, _ => false end = true) by (vm_compute; reflexivity).
    destruct r as [B steps| |], r' as [B' steps'| |]; try discriminate X. exists B, steps, B', steps'. split; [done|]. split; [done|]. apply negb_true_iff, bool_decide_eq_false in X. done.
Qed.
Print Assumptions C60_same_slot_refuted.
(** An attribute must be declared before it is named, and removing it afterwards forgets what was said of it. *)
Theorem C60_declare_first_refuted : exists c c', command_ok c /\ command_ok c' /\ ~ independent in_from1 c c' /\
  (exists B steps, from_ast inj_digest in_from1 (fun _ => ord1) None (mk_ast [c; c']) = BuildOk B steps) /\
  exists es, from_ast inj_digest in_from1 (fun _ => ord1) None (mk_ast [c'; c]) = BuildErr es /\ map be_msg es = ["Undefined attribute: a"].
Proof.
  exists (add_attrs [("a", NVal TText)]), (add_ov KUnit [("a", VVal "m")] []). split; [ok_case|]. split; [ok_case|]. split.
  - intros H. apply (H (TheAttr "a") (Named "a")); [..|constructor]; [eapply t_declares; [done|left]|]. eapply t_names; [by apply (bool_decide_unpack _)|]. by exists [("a", VVal "m")].
  - set (r := from_ast inj_digest in_from1 (fun _ => ord1) None (mk_ast [add_attrs [("a", NVal TText)]; add_ov KUnit [("a", VVal "m")] []])).
    set (r' := from_ast inj_digest in_from1 (fun _ => ord1) None (mk_ast [add_ov KUnit [("a", VVal "m")] []; add_attrs [("a", NVal TText)]])).
    assert (X : match r, r' with BuildOk B _, BuildErr es => bool_decide (map be_msg es = ["Undefined attribute: a"]) | _, _ => false end = true) by (vm_compute; reflexivity).
    destruct r as [B steps|e0|], r' as [B0 s0|es|]; try discriminate X. split; [by exists B, steps|]. exists es. split; [done|]. by apply bool_decide_eq_true in X.
Qed.
Print Assumptions C60_declare_first_refuted.
