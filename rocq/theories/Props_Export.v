(** C47: what the facade exports builds the bundle again. *)
From Verif Require Import Base Ast Bundle Spec_Bundle Build Spec_Build Text Facade Spec_Facade Spec_BundleCodec Spec_Ast Spec_Refs Spec_Total Spec_Export Facade_proofs Props_Storage AstValidator AstValidator_proofs Props_Ast Run_proofs Build_proofs
  Bundle_proofs Box_proofs Determinism_proofs Command_proofs Incremental_proofs Stored_proofs BundleCodec_proofs Props_BundleCodec Props_Bundle Props_Build Props_Codec Props_Dag Props_Facade
  History_proofs Props_History Props_Refs Props_From VBuild_proofs Replay_proofs Peg OcaGrammar OcaFile Spec_OcaFile AsRead Props_OcaFile ToAst ToAst_proofs Reload_proofs Load_proofs Props_Reload Props_ToAst Export Spec_Writable.
Local Open Scope list_scope.

(** ** Every history the facade answers with rebuilds the bundle asked for: after any validations and builds, replayed from
    scratch, with any iteration order, the recorded commands build a bundle with that SAID, the stored one. *)
Theorem C47_history_rebuilds : forall digest from1 to1 listing said_ok digits lang_ok standard_read to_text of_text hash ss f,
  text_ok to_text of_text -> digits_class digits -> said_ok "" = false ->
  steps_run digest from1 to1 listing said_ok digits lang_ok standard_read to_text of_text hash ss f -> steps_fine digest said_ok digits lang_ok ss ->
  forall n k cs, get_ast said_ok digits lang_ok standard_read of_text n f k = Some (Ok cs) ->
  exists B0, get_bundle said_ok digits lang_ok standard_read of_text (fa_cache f) k = Ok B0 /\
  forall os a, (forall i, order_ok (os i)) -> ast_commands a = cs ->
  exists B steps, from_ast digest from1 os None a = BuildOk B steps /\ b_said B = Some k /\ bundle_json B = bundle_json B0.
Proof.
  intros dig f1 t1 ls so dg lo sr tt ot hs ss f Ht Hd He HR [Hst Hn Hag] n k cs HA.
  assert (Hco : Forall command_ok (map bs_cmd ss)). { apply Forall_forall. intros c Hc. apply elem_of_list_fmap in Hc as (s & -> & Hs). by destruct (Hst s Hs) as [_ _ (? & _)]. }
  assert (Hu := agree_uniform _ Hag Hco). set (M := M_of (map bs_cmd ss)) in *.
  assert (Hall : storable_all so dg lo M ss). { intros s Hs. split; [by apply Hst|]. rewrite Forall_forall in Hu. apply Hu. by apply elem_of_list_fmap_1. }
  pose proof (recorded_run dig f1 t1 ls so dg lo sr tt ot hs Ht Hd M ss f HR Hall) as R.
  unfold get_ast, get_steps in HA. destruct (steps_loop so dg lo sr ot n f k) as [[L|e|]|] eqn:EL; [|discriminate..]. injection HA as HA. rewrite map_rev in HA. subst cs.
  destruct (replay dig f1 so dg lo sr tt ot Ht Hd M He ss f n R Hall Hn k L EL) as (s & b0 & b & Hin & Es & Hm & T & Est & Hne & Hcok & Hout).
  assert (HF : exists B0, get_bundle so dg lo sr ot (fa_cache f) k = Ok B0).
  { destruct n as [|n]; cbn in EL; [discriminate|]. destruct (get_op so ot (fa_db f) k) as [[p c]|e|]; [|discriminate..]. destruct (String.eqb p k); [discriminate|].
    destruct (negb (so k)); [discriminate|]. destruct (get_bundle so dg lo sr ot (fa_cache f) k) as [B0|e|]; [by exists B0|discriminate..]. }
  destruct HF as [B0 HF]. exists B0. split; [done|]. destruct (read_base dig f1 so dg lo sr tt ot Ht Hd M ss f k k Hall R B0 HF eq_refl) as (s' & Hin' & Es' & EB).
  assert (J0 : bundle_json B0 = bundle_json (bs_result s')). { subst B0. apply bundle_read_json. by destruct (Hst s' Hin'). }
  intros os a Ho Ea. rewrite <- Ea in Hcok, Hout, Est.
  destruct (proj2 (C12_ok dig f1 os Ho None a None (bo_none _) Hcok)) as (B & steps & EB').
  { split; [by rewrite Forall_forall in Hout|]. right. rewrite Ea. intros X. apply (f_equal (@length _)) in X. rewrite rev_length, map_length in X. by destruct L. }
  exists B, steps. split; [done|]. pose proof EB' as G. unfold from_ast in G. apply base_ok in G as (_ & _ & y & Hy & G). rewrite Est in Hy. injection Hy as <-.
  assert (Q : forall s' , s' ∈ ss -> b_said (bs_result s') = Some k -> bundle_json (bs_result s') = bundle_json B /\ b_said (bs_result s') = b_said B).
  { intros x Hx Ex. destruct (rc_just dig f1 tt M ss f R x Hx) as (bx & Hmx & _).
    assert (Tx : tracked M bx b0). { eapply tracked_trans; [|by apply tracked_sym]. apply (same_said_tracked dig so dg lo sr Hd M ss x s); try done. congruence. }
    pose proof Hmx as [_ (o & Oo & Gx)].
    destruct (bundle_json_equiv dig o (os (length (ast_commands a))) bx b0 (bs_result x) B) as (J1 & J2 & _); try done.
    - apply api_box_ok, Tx.
    - apply api_box_ok, Tx.
    - eapply sim_equiv; [apply Tx|apply Tx|apply Tx].
    - eapply uniform_consistent, Tx.
    - intros v w Hv Hw. eapply (Hn (bs_result x) (bs_result x)); [by apply elem_of_list_fmap_1|by apply elem_of_list_fmap_1|by constructor|by constructor]. }
  destruct (Q s Hin Es) as [_ Q1]. destruct (Q s' Hin' Es') as [Q2 _]. split; [by rewrite <- Q1|]. by rewrite J0, Q2.
Qed.
Print Assumptions C47_history_rebuilds.

(** ** The exported file *)
Lemma printable_plain wide said_ok c n : printable wide said_ok c -> ~ mentions c n.
Proof.
  intros H Hm. destruct Hm as [(l & a & t & (p & fl & E) & Hin & Hn)|(ps & pre & post & (v & a & E) & (Ep & _))].
  - destruct H as [l' Ht|w Hw|ver l' ps ats H1 H2 H3 H4|k ver l' ats H1 H2 H3|k ver ats ps H1 H2 H3|ver ats ps H1 H2|ver l' ats H1 H2|ver s ats H1 H2 H3|l' H1 H2|w]; try discriminate E.
    injection E as E _ _. subst l'. destruct Ht as (_ & _ & HF). rewrite Forall_forall in HF. destruct (HF _ Hin) as [_ Ht]. cbn in Ht.
    destruct Hn as [Hn|Hn]; subst t.
    + inversion Ht.
    + inversion Ht as [| |t' Ht']. inversion Ht'.
  - subst c. inversion H as [|  | |k ver l' ats H1|k ver ats ps' H1| | |ver s ats H1 H2 H3| |]; subst.
    + destruct H1 as [H1|H1]; discriminate H1.
    + destruct H1 as [H1|[H1|[H1|[H1|[H1|H1]]]]]; discriminate H1.
    + match goal with H : _ :: _ = _ |- _ => rename H into E | H : _ = _ :: _ |- _ => rename H into E end. destruct pre as [|? [|? ?]]; discriminate E.
Qed.

Lemma printable_not_from wide said_ok c : printable wide said_ok c -> cmd_kind (as_read c) <> CFrom.
Proof.
  intros H. destruct H as [l' Ht|w Hw|ver l' ps ats H1 H2 H3 H4|k ver l' ats H1 H2 H3|k ver ats ps H1 H2 H3|ver ats ps H1 H2|ver l' ats H1 H2|ver s ats H1 H2 H3|l' H1 H2|w]; try done.
  - by destruct H1 as [ -> | -> ].
  - by destruct H1 as [ -> |[ -> |[ -> |[ -> |[ -> | -> ]]]]].
Qed.
Lemma as_read_mentions c n : mentions (as_read c) n -> mentions c n.
Proof.
  intros [(l & a & t & (p & fl & E) & Hin & Hn)|(ps & pre & post & (v & a & E) & (Ep & Hpre))].
  - left. exists l, a, t. split; [|done]. exists p, fl. destruct c as [[] [[ats ps' fl']|b|[k ver] [ats ps']]]; cbn in E; try discriminate E; try done.
    + destruct k; try discriminate E. by destruct ps' as [[|? ?]|].
    + destruct ats as [ats|]; [discriminate E|]. by destruct ps' as [[|[? ?] [|? ?]]|].
  - right. destruct c as [[] [[ats ps' fl']|b|[k ver] [ats ps']]]; cbn in E; try discriminate E.
    + destruct k; try discriminate E; [by destruct ps' as [[|? ?]|]|]. injection E as _ _ E. destruct ps' as [ps'|]; cbn in E; [|subst ps; by destruct pre]. subst ps'.
      exists ps, pre, post. split; [by exists ver, ats|done].
    + destruct ats as [ats|]; [discriminate E|]. by destruct ps' as [[|[? ?] [|? ?]]|].
Qed.

(** A text printed from commands, read again: accepted exactly when the commands can stand one after the other, and then
    validating it, on any facade, builds what the commands build. *)
Theorem C47_text_builds : forall wide said_ok cs, Forall (printable wide said_ok) cs -> exists s,
  generate_ocafile (commands_ast cs) = Ok s /\
  ((exists b, parse_ocafile wide said_ok s = Ok b) <-> each_placed cs) /\
  forall b, parse_ocafile wide said_ok s = Ok b ->
  forall digest from1 digits lang_ok standard_read of_text os g B steps, from_ast digest from1 os None (commands_ast cs) = BuildOk B steps ->
  exists steps', validate_ast digest from1 said_ok digits lang_ok standard_read of_text os b g = Ok (g, (B, steps')) /\ map step_data steps' = map step_data steps.
Proof.
  intros wide said_ok cs Hp. destruct (C41_round_trip wide said_ok (commands_ast cs) Hp) as (ts & H2 & Eg & Ep). cbn [ast_commands commands_ast] in *.
  exists (file_of ts). split; [done|]. pose proof (Forall2_length _ _ _ H2) as Hlen. rewrite Ep. set (fc := file_commands 0 (zip (map FCmd cs) ts)) in *.
  assert (Efst : map fst fc = map as_read cs) by (by apply file_commands_fst). split.
  - split.
    + intros [b Eb] pre c post E. apply C15_assembly in Eb as [Hw _]. subst cs. rewrite map_app in Efst. cbn in Efst. apply map_eq_app in Efst as (p1 & r1 & E1 & E2 & E3).
      destruct r1 as [|[d m] r1]; [discriminate E3|]. injection E3 as E3 _. apply as_read_placed. rewrite <- E2, <- E3. apply (Hw p1 d m r1 E1).
    + intros Hw. eexists. apply C15_assembly. split; [|reflexivity]. intros pre c m post E.
      assert (E' : map as_read cs = map fst pre ++ c :: map fst post) by (by rewrite <- Efst, E, map_app).
      apply map_eq_app in E' as (p' & rest & E1 & <- & E2). destruct rest as [|d rest]; [discriminate E2|]. injection E2 as <- _. apply as_read_placed, (Hw p' d rest E1).
  - intros b Eb digest from1 digits lang_ok standard_read of_text os g B steps HB. apply C15_assembly in Eb as [_ ->]. rewrite Efst.
    set (b := Ast "1.0.0" (map as_read cs) (zip (seq 0 (length fc)) (map snd fc)) ∅).
    pose proof (build_as_read wide said_ok digest from1 os None (commands_ast cs) b Hp eq_refl) as Hs. rewrite HB in Hs.
    unfold validate_ast. assert (Ec : check_base said_ok digits lang_ok standard_read of_text (fa_cache g) b = Ok (None, b)).
    { unfold check_base. subst b. cbn [ast_commands]. destruct Hp as [|c cs' Hc _]; [done|]. cbn [map]. pose proof (printable_not_from _ _ _ Hc) as Hk.
      destruct (as_read c) as [k ob]. cbn in Hk. destruct k; try done. }
    rewrite Ec. cbn [obind snd fst]. subst b. cbn [ast_commands ast_version ast_cmeta ast_meta]. rewrite resolve_plain.
    2: { intros c n Hin. apply elem_of_list_fmap in Hin as (d & -> & Hd). intros Hm. rewrite Forall_forall in Hp. apply (printable_plain wide said_ok d n (Hp d Hd)), as_read_mentions, Hm. }
    clear HB. cbn [obind]. rewrite lookup_empty. destruct (from_ast digest from1 os None _) as [B' ss|es|]; [|destruct Hs..].
    destruct Hs as [ -> E]. by exists ss.
Qed.
Print Assumptions C47_text_builds.

(** ** Exporting what a run stored *)
Theorem C47_export_builds : forall wide digest from1 to1 listing said_ok digits lang_ok standard_read to_text of_text hash ss f,
  text_ok to_text of_text -> digits_class digits -> said_ok "" = false ->
  steps_run digest from1 to1 listing said_ok digits lang_ok standard_read to_text of_text hash ss f -> steps_fine digest said_ok digits lang_ok ss ->
  forall n k cs, get_ast said_ok digits lang_ok standard_read of_text n f k = Some (Ok cs) -> Forall (printable wide said_ok) cs ->
  exists s B0, (forall dereference, export_file said_ok digits lang_ok standard_read of_text n f k dereference = Some (Ok s)) /\
  get_bundle said_ok digits lang_ok standard_read of_text (fa_cache f) k = Ok B0 /\
  ((exists b, parse_ocafile wide said_ok s = Ok b) <-> each_placed cs) /\
  forall b, parse_ocafile wide said_ok s = Ok b -> forall os g, (forall i, order_ok (os i)) ->
  exists B steps, validate_ast digest from1 said_ok digits lang_ok standard_read of_text os b g = Ok (g, (B, steps)) /\ b_said B = Some k /\ bundle_json B = bundle_json B0.
Proof.
  intros wide dig f1 t1 ls so dg lo sr tt ot hs ss f Ht Hd He HR Hf n k cs HA Hp.
  destruct (C47_history_rebuilds dig f1 t1 ls so dg lo sr tt ot hs ss f Ht Hd He HR Hf n k cs HA) as (B0 & HF & HB).
  destruct (C47_text_builds wide so cs Hp) as (s & Eg & Hparse & Hval). exists s, B0. split.
  { intros d. unfold export_file. rewrite HA. destruct d; [|exact (f_equal Some Eg)]. rewrite resolve_plain; [exact (f_equal Some Eg)|].
    intros c m Hin. rewrite Forall_forall in Hp. apply (printable_plain wide so), Hp, Hin. }
  split; [done|]. split; [done|]. intros b Eb os g Ho. destruct (HB os (commands_ast cs) Ho eq_refl) as (B & steps & EB & Ek & J).
  destruct (Hval b Eb dig f1 dg lo sr ot os g B steps EB) as (steps' & V & _). exists B, steps'. done.
Qed.
Print Assumptions C47_export_builds.

(** ** One file *)
(** Whatever the parser accepts is a list of commands that can stand one after the other. *)
Lemma placed_snoc cs c : each_placed cs -> well_placed cs c -> each_placed (cs ++ [c]).
Proof.
  intros H Hc pre d post E. destruct post as [|e post _] using rev_ind.
  - apply app_inj_tail in E as [<- <-]. done.
  - rewrite app_comm_cons, app_assoc in E. apply app_inj_tail in E as [E _]. by apply (H pre d post).
Qed.
Theorem C15_read_file : forall wide said_ok s a, parse_ocafile wide said_ok s = Ok a -> each_placed (ast_commands a).
Proof.
  intros wide so s a. unfold parse_ocafile. destruct (sparse wide Rfile s) as [| |c0 [|p ps] rest]; try done. intros H. revert H.
  assert (G : forall l n a0 b, ast_version a0 = "1.0.0" -> each_placed (ast_commands a0) -> read_lines so n l a0 = Ok b -> each_placed (ast_commands b)).
  { clear. induction l as [|p l IH]; intros n a0 b V Hp H; [by injection H as <-|].
    assert (Cmd : (let! c := instruction so p in let! _ := ast_validate a0 c in read_lines so (S n) l (push_command a0 c (CmdMeta (S n) (p_text p)))) = Ok b -> each_placed (ast_commands b)).
    { intros G. apply obind_ok in G as (c & _ & G). apply obind_ok in G as (x & Ev & G).
      assert (x = true) as ->. { destruct (validate_total a0 c) as [E|[es E]]; rewrite E in Ev; [by injection Ev|discriminate]. }
      apply validate_ok in Ev as [_ Hw]. apply (IH _ (push_command a0 c (CmdMeta (S n) (p_text p))) _ V) in G; [done|]. cbn [push_command ast_commands]. by apply placed_snoc. }
    cbn [read_lines] in H. destruct (p_rule p); try (by apply (IH _ _ _ V Hp H)); try (by apply Cmd).
    apply obind_ok in H as (kv & _ & H). exact (IH (S n) (Ast (ast_version a0) (ast_commands a0) (ast_cmeta a0) (<[kv.1:=kv.2]> (ast_meta a0))) b V Hp H). }
  intros H. apply (G _ _ ast_new _ eq_refl) in H; [done|]. intros [|? ?] d post E; discriminate E.
Qed.
Print Assumptions C15_read_file.
(** Resolving names keeps the commands in place. *)
Definition same_names (c c' : command) : Prop := forall k n, (names_attr k n c <-> names_attr k n c') /\ (names_prop k n c <-> names_prop k n c').
Lemma resolve_names said_ok find cs : forall cs', resolve said_ok find cs = Ok cs' -> Forall2 same_names cs cs'.
Proof.
  induction cs as [|c cs IH]; intros cs' H; [injection H as <-; constructor|]. cbn [resolve] in H. apply obind_ok in H as (c' & Hc & H). apply obind_ok in H as (r & Hr & H).
  injection H as <-. constructor; [|by apply IH]. clear IH Hr. assert (Same : forall d, same_names d d) by done.
  destruct c as [[] [[[l|] p fl]|b|[kd v] [a [p|]]]]; cbn [resolve_cmd] in Hc; try (injection Hc as <-; apply Same); try (destruct kd; injection Hc as <-; apply Same).
  - apply obind_ok in Hc as (l' & Hl & Hc). injection Hc as <-. assert (E : map fst l = map fst l').
    { clear -Hl. revert l' Hl. induction l as [|[a t] l IH]; intros l' Hl; cbn in Hl; [by injection Hl as <-|]. apply obind_ok in Hl as (t' & _ & Hl). apply obind_ok in Hl as (r & Hr & Hl).
      injection Hl as <-. cbn. by rewrite (IH r Hr). }
    intros k n. split; split; intros (cc & x & E1 & E2 & Hn); injection E1 as -> <-; cbn in E2.
    + injection E2 as <-. exists (CapContent (Some l') p fl), l'. by rewrite <- E.
    + injection E2 as <-. exists (CapContent (Some l) p fl), l. by rewrite E.
    + exists (CapContent (Some l') p fl), x. done.
    + exists (CapContent (Some l) p fl), x. done.
  - assert (N : forall ot ct ot' ct' k n, (names_attr k n (Command CAdd (OOverlay ot ct)) <-> names_attr k n (Command CAdd (OOverlay ot' ct'))) /\
      (names_prop k n (Command CAdd (OOverlay ot ct)) <-> names_prop k n (Command CAdd (OOverlay ot' ct')))).
    { intros. split; split; intros (cc & x & E & _); discriminate E. }
    destruct kd; try (injection Hc as <-; apply Same). destruct (imap_get "target" p) as [[[s|m]|w|w|w]|]; try (injection Hc as <-; apply Same).
    apply obind_ok in Hc as (r' & _ & Hc). injection Hc as <-. intros k n. apply N.
Qed.
Lemma forall2_right {A B} (R : A -> B -> Prop) l l' y : Forall2 R l l' -> y ∈ l' -> exists x, x ∈ l /\ R x y.
Proof. intros H Hy. apply elem_of_list_split in Hy as (p & q & ->). apply Forall2_app_inv_r in H as (l1 & l2 & _ & H & ->). apply Forall2_cons_inv_r in H as (x & l3 & Hx & _ & ->). exists x. split; [set_solver|done]. Qed.
Lemma forall2_left {A B} (R : A -> B -> Prop) l l' x : Forall2 R l l' -> x ∈ l -> exists y, y ∈ l' /\ R x y.
Proof. intros H Hx. apply elem_of_list_split in Hx as (p & q & ->). apply Forall2_app_inv_l in H as (l1 & l2 & _ & H & ->). apply Forall2_cons_inv_l in H as (y & l3 & Hy & _ & ->). exists y. split; [set_solver|done]. Qed.
Lemma stack_forall2 (R : command -> command -> Prop) names : (forall k n c c', R c c' -> names k n c <-> names k n c') ->
  forall cs cs' n, Forall2 R cs cs' -> on_stack names cs n <-> on_stack names cs' n.
Proof.
  intros H cs cs' n HF. split; intros (pre & c & post & E & Ha & Hr); subst.
  - apply Forall2_app_inv_l in HF as (l1 & l2 & _ & HF & ->). apply Forall2_cons_inv_l in HF as (c' & l3 & Hc & HF & ->). exists l1, c', l3. split; [done|].
    split; [by apply (H _ _ _ _ Hc)|]. intros d Hd Hn. destruct (forall2_right _ _ _ _ HF Hd) as (d0 & Hd0 & R0). apply (Hr d0 Hd0). by apply (H _ _ _ _ R0).
  - apply Forall2_app_inv_r in HF as (l1 & l2 & _ & HF & ->). apply Forall2_cons_inv_r in HF as (c' & l3 & Hc & HF & ->). exists l1, c', l3. split; [done|].
    split; [by apply (H _ _ _ _ Hc)|]. intros d Hd Hn. destruct (forall2_left _ _ _ _ HF Hd) as (d0 & Hd0 & R0). apply (Hr d0 Hd0). by apply (H _ _ _ _ R0).
Qed.
Lemma renamed_placed cs cs' : Forall2 same_names cs cs' -> each_placed cs -> each_placed cs'.
Proof.
  intros HF H pre' c' post' ->. apply Forall2_app_inv_r in HF as (pre & l2 & Hp & HF & ->). apply Forall2_cons_inv_r in HF as (c & post & Hc & _ & ->).
  destruct (H pre c post eq_refl) as (W1 & W2 & W3).
  assert (A : forall k n c c', same_names c c' -> names_attr k n c <-> names_attr k n c') by (intros k n d d' Hd; apply Hd).
  assert (P : forall k n c c', same_names c c' -> names_prop k n c <-> names_prop k n c') by (intros k n d d' Hd; apply Hd).
  split; [|split]; intros n Hn.
  - rewrite <- (stack_forall2 _ _ A _ _ _ Hp). apply W1. by apply (A _ _ _ _ Hc).
  - rewrite <- (stack_forall2 _ _ A _ _ _ Hp). apply W2. by apply (A _ _ _ _ Hc).
  - rewrite <- (stack_forall2 _ _ P _ _ _ Hp). apply W3. by apply (P _ _ _ _ Hc).
Qed.

(** A file that does not start from another bundle, read and built: what is exported under the SAID of the bundle is an OCAfile
    the parser accepts and that builds that bundle again, on any facade. *)
Theorem C47_file_export : forall wide digest from1 to1 listing said_ok digits lang_ok standard_read to_text of_text hash ss f src a os g B steps h B',
  text_ok to_text of_text -> digits_class digits -> said_ok "" = false ->
  steps_run digest from1 to1 listing said_ok digits lang_ok standard_read to_text of_text hash ss f ->
  parse_ocafile wide said_ok src = Ok a -> (forall c, head (ast_commands a) = Some c -> cmd_kind c <> CFrom) -> (forall i, order_ok (os i)) ->
  validate_ast digest from1 said_ok digits lang_ok standard_read of_text os a f = Ok (g, (B, steps)) ->
  build from1 to1 listing to_text hash B steps g = Ok (h, B') ->
  steps_fine digest said_ok digits lang_ok (ss ++ steps) -> steps <> [] -> NoDup (map (fun s => b_said (bs_result s)) steps) ->
  Forall (printable wide said_ok) (map bs_cmd steps) ->
  exists k s b, b_said B = Some k /\
  (forall n dereference, (length steps <= n)%nat -> export_file said_ok digits lang_ok standard_read of_text n h k dereference = Some (Ok s)) /\
  parse_ocafile wide said_ok s = Ok b /\ ast_commands b = map as_read (map bs_cmd steps) /\
  forall os' g', (forall i, order_ok (os' i)) ->
  exists B'' steps', validate_ast digest from1 said_ok digits lang_ok standard_read of_text os' b g' = Ok (g', (B'', steps')) /\ b_said B'' = Some k /\ bundle_json B'' = bundle_json B.
Proof.
  intros wide dig f1 t1 ls so dg lo sr tt ot hs ss f src a os g B steps h B' Ht Hd He HR Hsrc Hfrom Ho Hv HB Hfine Hne Hnd Hp.
  pose proof (C15_read_file _ _ _ _ Hsrc) as Hplaced.
  (* what the validation built *)
  assert (Ha : exists a1, each_placed (ast_commands a1) /\ from_ast dig f1 os None a1 = BuildOk B steps).
  { pose proof Hv as Hv'. unfold validate_ast in Hv'. assert (Ec : check_base so dg lo sr ot (fa_cache f) a = Ok (None, a)).
    { unfold check_base. destruct (ast_commands a) as [|[[] [|b|]] cs]; try done. by destruct (Hfrom _ eq_refl). }
    rewrite Ec in Hv'. cbn [obind fst snd] in Hv'. apply obind_ok in Hv' as (cs & Hcs & Hv'). exists (Ast (ast_version a) cs (ast_cmeta a) (ast_meta a)).
    split; [cbn; eapply renamed_placed; [by eapply resolve_names|done]|]. destruct (from_ast dig f1 os None _) as [B0 st|es|] eqn:FA; [|discriminate Hv'..].
    assert (E : B0 = B /\ st = steps). { destruct (ast_meta a !! "name"); [|by injection Hv']. apply obind_ok in Hv' as (x & _ & Hv'). apply obind_ok in Hv' as (y & _ & Hv'). by injection Hv'. }
    by destruct E as [-> ->]. }
  destruct Ha as (a1 & Hpl & FA). pose proof (bo_none (os (S (length (ast_commands a1))))) as Hb.
  destruct (C13_step_chain _ _ _ _ _ _ _ _ Hb FA) as (Hl & X & _).
  assert (Hcs : ast_commands a1 = map bs_cmd steps).
  { apply list_eq. intros j. rewrite list_lookup_fmap. destruct (steps !! j) as [x|] eqn:Ej; cbn [fmap option_fmap option_map]; [by apply (X j x Ej)|]. apply lookup_ge_None. apply lookup_ge_None in Ej. by rewrite <- Hl. }
  destruct Hfine as [Hst Hn Hag]. assert (Hco : Forall command_ok (map bs_cmd (ss ++ steps))). { apply Forall_forall. intros c Hc. apply elem_of_list_fmap in Hc as (s & -> & Hs). by destruct (Hst s Hs) as [_ _ (? & _)]. }
  assert (Hu := agree_uniform _ Hag Hco). set (M := M_of (map bs_cmd (ss ++ steps))) in *.
  assert (Hall : storable_all so dg lo M (ss ++ steps)). { intros s Hs. split; [by apply Hst|]. rewrite Forall_forall in Hu. apply Hu. by apply elem_of_list_fmap_1. }
  assert (Hrun : steps_run dig f1 t1 ls so dg lo sr tt ot hs (ss ++ steps) h) by (by eapply sr_build).
  pose proof (recorded_run dig f1 t1 ls so dg lo sr tt ot hs Ht Hd M _ h Hrun Hall) as R.
  (* the last step is the result *)
  destruct (last steps) as [s|] eqn:El; [|by apply last_None in El]. pose proof El as El'. apply last_Some in El' as [pre Epre].
  assert (Hi : steps !! length pre = Some s) by (subst steps; by rewrite list_lookup_middle).
  destruct (X _ s Hi) as (Hci & _ & b & Es & G). assert (Hlen : S (length pre) = length (ast_commands a1)) by (rewrite <- Hl, Epre, app_length; cbn; lia).
  rewrite Hlen, firstn_all in Es. pose proof FA as FB. unfold from_ast in FB. apply base_ok in FB as (Hout & _ & y & Hy & FB). rewrite Es in Hy. injection Hy as <-.
  assert (T : tracked M b b).
  { rewrite map_app in Hco, Hu. apply Forall_app in Hco as [_ Hco], Hu as [_ Hu]. rewrite <- Hcs in Hco, Hu. apply (state_tracked f1 M None (ast_commands a1)); try done. }
  assert (JS : bundle_json (bs_result s) = bundle_json B /\ b_said (bs_result s) = b_said B).
  { destruct (bundle_json_equiv dig (os (length pre)) (os (length (ast_commands a1))) b b (bs_result s) B) as (J1 & J2 & _); try done.
    - apply api_box_ok, T.
    - apply api_box_ok, T.
    - eapply uniform_consistent, T.
    - assert (Hin : bs_result s ∈ map bs_result (ss ++ steps)) by (apply elem_of_list_fmap_1, elem_of_app; right; by eapply elem_of_list_lookup_2).
      intros v w Hv' Hw. eapply (Hn (bs_result s) (bs_result s)); try done; by constructor. }
  destruct JS as [JS SS]. pose proof (gen_said _ _ _ _ G) as Sk. destruct (b_said (bs_result s)) as [k|] eqn:Ek; [|discriminate Sk]. clear Sk.
  (* the history *)
  destruct (validate_effect _ _ _ _ _ _ _ _ _ _ _ _ _ Hv) as (Ec & _).
  assert (Hold : storable_all so dg lo M ss) by (intros x Hx; apply Hall, elem_of_app; by left).
  pose proof (recorded_run dig f1 t1 ls so dg lo sr tt ot hs Ht Hd M _ f HR Hold) as R0.
  assert (Hcons : consistent so dg lo sr ot (fa_cache g)).
  { rewrite Ec. intros k0 B0 HF. destruct (read_base dig f1 so dg lo sr tt ot Ht Hd M ss f k0 k0 Hold R0 B0 HF eq_refl) as (s0 & _ & E0 & ->). exact E0. }
  assert (HA : forall n, (length steps <= n)%nat -> get_ast so dg lo sr ot n h k = Some (Ok (map bs_cmd steps))).
  { intros n Hle. rewrite <- Hcs. apply (C22_commands_replay dig f1 t1 ls so dg lo sr tt ot hs os None a1 None B steps g h B' [] 0 k Ht Hd He Hb FA HB Hcons).
    - intros x Hx. apply Hst, elem_of_app. by right.
    - done.
    - done.
    - by rewrite El.
    - by rewrite <- Hl. }
  destruct (C47_export_builds wide dig f1 t1 ls so dg lo sr tt ot hs (ss ++ steps) h Ht Hd He Hrun) with (n := length steps) (k := k) (cs := map bs_cmd steps) as (t & B0 & He' & HF & Hparse & Hval); [by split|by apply HA|done|].
  destruct (proj2 Hparse) as [b' Eb']; [by rewrite <- Hcs|]. exists k, t, b'. split; [congruence|]. split.
  { intros n d Hle. rewrite <- (He' d). unfold export_file. by rewrite !HA by done. }
  split; [done|]. split.
  { destruct (C41_round_trip wide so (commands_ast (map bs_cmd steps)) Hp) as (ts & H2 & Eg & Ep). specialize (He' false). unfold export_file in He'. rewrite HA in He' by done. injection He' as He'.
    cbn [obind] in He'. rewrite Eg in He'. injection He' as <-. rewrite Ep in Eb'. apply C15_assembly in Eb' as [_ ->]. cbn [ast_commands]. apply file_commands_fst.
    by apply Forall2_length in H2. }
  intros os' g' Ho'. destruct (Hval b' Eb' os' g' Ho') as (B2 & steps2 & V & S2 & J2). exists B2, steps2. split; [done|]. split; [done|]. rewrite J2, <- JS.
  destruct (read_base dig f1 so dg lo sr tt ot Ht Hd M (ss ++ steps) h k k Hall R B0 HF eq_refl) as (s' & Hin' & Es' & EB). subst B0.
  destruct (Hst s' Hin') as [_ Hr' _]. rewrite (bundle_read_json _ Hr').
  assert (Hins : s ∈ ss ++ steps) by (apply elem_of_app; right; by eapply elem_of_list_lookup_2).
  destruct (rc_just dig f1 tt M _ h R s' Hin') as (b1 & [T1 (o1 & O1 & G1)] & _). apply gen_said in G1 as S1. apply gen_said in G as S0.
  assert (E : bundle_json_d (JStr dummy_said) (bs_result s') = bundle_json_d (JStr dummy_said) (bs_result s)).
  { eapply (Hn (bs_result s') (bs_result s)); [by apply elem_of_list_fmap_1|by apply elem_of_list_fmap_1|constructor|constructor|]. congruence. }
  unfold bundle_json. rewrite Es', Ek. unfold bundle_json_d in *. apply (f_equal (fun j => match j with JObj l => l | _ => [] end)) in E. apply cons_inj in E as [_ E]. by rewrite E.
Qed.
Print Assumptions C47_file_export.

(** ** Exporting a bundle *)
Section BundleExport.
Variable wide : ascii -> bool.
Variable said_ok : string -> bool.
Variable to1 : string -> option string.
Variable o : order.
Hypothesis Ho : order_ok o.
Lemma each_table {V} p (f : string -> V -> nvalue) (m : gmap string V) (ok : V -> Prop) (P : nvalue -> Prop) : names_to ok m -> (forall n v, ok v -> P (f n v)) -> table_ok P (each_value o p f m).
Proof.
  intros [Hne H] HP. assert (Perm : o p V m ≡ₚ map_to_list m) by apply Ho. split; [|split].
  - intros E. apply Hne. apply map_eq_nil in E. rewrite E in Perm. apply Permutation_nil in Perm. by apply map_to_list_empty_iff.
  - unfold each_value. rewrite map_map. cbn. change (NoDup ((o p V m).*1)). rewrite Perm. apply NoDup_fst_map_to_list.
  - apply Forall_forall. intros kv Hin. apply elem_of_list_fmap in Hin as ([n v] & -> & Hin). rewrite Perm in Hin. apply elem_of_map_to_list in Hin. destruct (H n v Hin). split; [done|by apply HP].
Qed.
Lemma text_plain n v : quoted v -> plain_ok (text_value n v).
Proof. intros H. by exists v. Qed.
Lemma vals_plain l : Forall quoted l -> Forall plain_ok (map VVal l).
Proof. intros H. apply Forall_map. eapply Forall_impl; [exact H|]. intros x Hx. by exists x. Qed.
Lemma codes_written n e : ecodes_writable e -> Spec_OcaFile.codes_ok (code_value n e).
Proof.
  destruct e as [s|l|g]; cbn.
  - intros H. left. by exists s.
  - intros H. right. left. exists (map VVal l). split; [done|by apply vals_plain].
  - intros [H1 H2]. right. right. eexists. split; [reflexivity|]. split; [by rewrite map_map|]. apply Forall_map. eapply Forall_impl; [exact H2|]. intros x [A B]. cbn. split; [done|].
    eexists. split; [reflexivity|by apply vals_plain].
Qed.
Lemma entries_written p n e : entries_writable e -> entries_ok (entry_value o p n e).
Proof.
  destruct e as [s|m]; cbn.
  - intros H. left. by exists s.
  - intros H. right. eexists. split; [reflexivity|]. assert (Perm : o (p ++ [n]) string m ≡ₚ map_to_list m) by apply Ho. split.
    + unfold each_value. rewrite map_map. cbn. change (NoDup ((o (p ++ [n]) string m).*1)). rewrite Perm. apply NoDup_fst_map_to_list.
    + apply Forall_forall. intros kv Hin. apply elem_of_list_fmap in Hin as ([k v] & -> & Hin). rewrite Perm in Hin. apply elem_of_map_to_list in Hin. destruct (H k v Hin). split; [done|by exists v].
Qed.
Lemma cond_fst d l : forall vs, cond_values d l = Some vs -> map fst vs = l.*1 /\
  Forall (fun kv => exists x deps t, (kv.1, x) ∈ l /\ d !! kv.1 = Some deps /\ decode_condition x deps = Some t /\ kv.2 = VVal t) vs.
Proof.
  induction l as [|[n c] l IH]; intros vs H; cbn in H; [by injection H as <-|]. destruct (d !! n) as [deps|] eqn:Ed; [|discriminate H].
  destruct (decode_condition c deps) as [t|] eqn:Et; [|discriminate H]. destruct (cond_values d l) as [vs'|]; [|discriminate H]. injection H as <-. destruct (IH vs' eq_refl) as [E F].
  split; [cbn; by rewrite E|]. constructor; [exists c, deps, t; cbn; split; [left|done]|]. eapply Forall_impl; [exact F|]. intros kv (x & ds & u & Hin & R). exists x, ds, u. split; [by right|done].
Qed.
Lemma fold_fresh l : forall acc : imap nvalue, NoDup (map fst acc ++ l.*1) ->
  fold_left (fun acc (kv : string * string) => imap_insert kv.1 (VVal kv.2) acc) l acc = acc ++ map (fun kv => (kv.1, VVal kv.2)) l.
Proof.
  induction l as [|[k v] l IH]; intros acc H; [by rewrite app_nil_r|]. cbn [fold_left fst snd]. cbn in H.
  assert (Hk : k ∉ map fst acc). { apply NoDup_app in H as (_ & H & _). intros Hin. by apply (H k Hin), elem_of_cons; left. }
  rewrite imap_insert_fresh by done. rewrite IH.
  - by rewrite <- app_assoc.
  - rewrite map_app, <- app_assoc. done.
Qed.
Lemma overlay_printable i ov c : body_writable to1 (ov_body ov) -> overlay_command to1 o i ov = Ok (Some c) -> printable wide said_ok c.
Proof.
  intros Hw. unfold overlay_command, ov_type. destruct (ov_body ov) as [m|m|m|m|m|cm d|m|l m|l cats m cl|l m|l m|t m|meta m|m|l|l|m]; cbn [body_writable] in Hw; cbn [body_kind]; intros H; try discriminate H.
  - injection H as <-. apply pr_plain; [tauto| |by left]. eapply each_table; [exact Hw|]. intros n v _. cbn. destruct v; (eexists; split; [reflexivity|vm_compute; reflexivity]).
  - injection H as <-. apply pr_plain; [tauto| |by left]. eapply each_table; [exact Hw|exact text_plain].
  - injection H as <-. apply pr_plain; [tauto| |by left]. eapply each_table; [exact Hw|exact text_plain].
  - injection H as <-. apply pr_plain; [tauto| |by left]. eapply each_table; [exact Hw|exact text_plain].
  - injection H as <-. apply pr_plain; [tauto| |by left]. eapply each_table; [exact Hw|exact text_plain].
  - destruct (cond_values d (o ["ast"; dec_of_nat i] _ cm)) as [vs|] eqn:Ev; [|discriminate H]. injection H as <-. apply pr_plain; [tauto| |by left]. destruct Hw as [Hne Hw].
    assert (Perm : o ["ast"; dec_of_nat i] _ cm ≡ₚ map_to_list cm) by apply Ho. destruct (cond_fst d _ _ Ev) as [Ek HF]. split; [|split].
    + intros ->. destruct (o ["ast"; dec_of_nat i] _ cm); [|discriminate Ek]. apply Permutation_nil in Perm. by apply Hne, map_to_list_empty_iff.
    + rewrite Ek, Perm. apply NoDup_fst_map_to_list.
    + eapply Forall_impl; [exact HF|]. intros [n v] (x & deps & t & Hin & Hd & Hc & Hv). cbn in *. subst v. rewrite Perm in Hin. apply elem_of_map_to_list in Hin. destruct (Hw n x deps t Hin) as [Hn Hq].
      split; [done|]. exists t. split; [done|by apply Hq].
  - injection H as <-. apply pr_codes; [|by left]. eapply each_table; [exact Hw|exact codes_written].
  - destruct (to1 l) as [s|] eqn:El; [|discriminate H]. injection H as <-. destruct Hw as [Hl Hw]. apply pr_entry; [by apply Hl|]. eapply each_table; [exact Hw|apply entries_written].
  - destruct (to1 l) as [s|] eqn:El; [|discriminate H]. injection H as <-. destruct Hw as [Hl Hw]. apply pr_lang; [by left|by apply Hl|]. eapply each_table; [exact Hw|exact text_plain].
  - destruct (to1 l) as [s|] eqn:El; [|discriminate H]. injection H as <-. destruct Hw as [Hl Hw]. apply pr_lang; [by right|by apply Hl|]. eapply each_table; [exact Hw|exact text_plain].
  - destruct (to1 l) as [s|] eqn:El; [|discriminate H]. injection H as <-. destruct Hw as (Hl & Hw & Hk).
    assert (Perm : o ["ast"; dec_of_nat i] _ m ≡ₚ map_to_list m) by apply Ho. rewrite fold_fresh.
    + change ([("lang", VVal s)] ++ map (fun kv => (kv.1, VVal kv.2)) (o ["ast"; dec_of_nat i] _ m)) with (("lang", VVal s) :: each_value o ["ast"; dec_of_nat i] text_value m).
      apply pr_meta; [by apply Hl| |eapply each_table; [exact Hw|exact text_plain]|by left]. unfold each_value. rewrite map_map. cbn. intros Hin. apply elem_of_list_fmap in Hin as ([n v] & E & Hin).
      cbn in E. subst n. rewrite Perm in Hin. apply elem_of_map_to_list in Hin. congruence.
    + cbn. rewrite Perm. apply NoDup_cons. split; [|apply NoDup_fst_map_to_list]. intros Hin. apply elem_of_list_fmap in Hin as ([n v] & E & Hin). cbn in E. subst n.
      apply elem_of_map_to_list in Hin. congruence.
Qed.
Lemma bundle_printable B a : bundle_writable wide said_ok to1 B -> to_ast to1 o B = Ok a ->
  exists cs, a = commands_ast (base_command (b_cb B) :: cs) /\ Forall (printable wide said_ok) (base_command (b_cb B) :: cs) /\ Forall (fun c => exists k ot ct, c = Command k (OOverlay ot ct)) cs.
Proof.
  intros [Ha Hc Hov] H. unfold to_ast in H. apply obind_ok in H as (cs & Hcs & H). injection H as <-. exists cs. split; [done|].
  assert (G : forall l cs, (forall i ov, (i, ov) ∈ l -> body_writable to1 (ov_body ov)) -> overlay_commands to1 o l = Ok cs ->
    Forall (printable wide said_ok) cs /\ Forall (fun c => exists k ot ct, c = Command k (OOverlay ot ct)) cs).
  { clear -Ho. induction l as [|[i ov] l IH]; intros cs Hw H; cbn [overlay_commands] in H; [injection H as <-; by split|].
    apply obind_ok in H as (c & Hc & H). apply obind_ok in H as (r & Hr & H). injection H as <-. destruct (IH r) as [A B]; [intros j x Hx; apply (Hw j), elem_of_cons; by right|done|].
    destruct c as [c|]; [|done]. split; constructor; try done.
    - apply (overlay_printable i ov); [apply (Hw i), elem_of_cons; by left|done].
    - unfold overlay_command in Hc. destruct (ov_body ov); try (injection Hc as <-; by eauto); try discriminate Hc;
      repeat match type of Hc with context [match ?x with Some _ => _ | None => _ end] => destruct x end; try discriminate Hc; injection Hc as <-; eauto. }
  destruct (G (indexed (b_ovs B)) cs) as [G1 G2]; [|exact Hcs|].
  { intros i ov Hin. apply Hov. apply indexed_elem in Hin. by apply elem_of_list_lookup_2 in Hin. }
  split; [|done]. constructor; [|done]. unfold base_command. rewrite Hc. cbn. by apply pr_attrs.
Qed.
End BundleExport.

(** A bundle built through the API, written as an OCAfile by way of its AST: the parser accepts the text, and it builds a bundle
    with the same SAID and JSON, on any facade. *)
Theorem C47_bundle_export : forall wide said_ok digest from1 to1 o1 o2 b B,
  order_ok o1 -> order_ok o2 ->
  api_box b -> no_links b -> no_framings b -> no_flags b -> no_mappings b -> no_category_labels b -> groups_distinct b ->
  two_letter to1 from1 b -> no_lang_key b ->
  generate_bundle digest o1 b = Some B -> no_collision digest (b_ovs B) -> bundle_writable wide said_ok to1 B ->
  exists s a, export_bundle to1 o2 B = Ok s /\ parse_ocafile wide said_ok s = Ok a /\
  forall digits lang_ok standard_read of_text os g, (forall i, order_ok (os i)) ->
  exists B' steps, validate_ast digest from1 said_ok digits lang_ok standard_read of_text os a g = Ok (g, (B', steps)) /\ bundle_json B' = bundle_json B /\ b_said B' = b_said B.
Proof.
  intros wide so dig f1 t1 o1 o2 b B O1 O2 Hb Hl Hf Hfl Hm Hc Hg H2 Hk G Hcol Hw.
  destruct (C07_round_trip dig f1 t1 o1 o2 (fun _ => o1) b B O1 O2 (fun _ => O1) Hb Hl Hf Hfl Hm Hc Hg H2 Hk G Hcol) as (a & _ & _ & Ea & _).
  destruct (bundle_printable wide so t1 o2 O2 B a Hw Ea) as (cs & Ecs & Hp & Hov). destruct (C47_text_builds wide so _ Hp) as (s & Eg & Hparse & Hval).
  destruct (proj2 Hparse) as [p Ep].
  { intros pre c post E. destruct pre as [|x pre]; injection E as E1 E2; subst.
    - assert (N : forall names n, ~ on_stack names [] n) by (intros names n ([|? ?] & ? & ? & E & _); discriminate E).
      split; [intros n _; apply N|]. split; intros n (cc & l & E & _); discriminate E.
    - rewrite Forall_forall in Hov. destruct (Hov c) as (k & ot & ct & ->); [set_solver|]. split; [|split]; intros n (cc & l & E & _); discriminate E. }
  exists s, p. split; [unfold export_bundle; rewrite Ea; cbn [obind]; by rewrite Ecs|]. split; [done|]. intros dg lo sr ot os g Ho.
  destruct (C07_round_trip dig f1 t1 o1 o2 os b B O1 O2 Ho Hb Hl Hf Hfl Hm Hc Hg H2 Hk G Hcol) as (a' & B' & steps & Ea' & EB & J & S & _).
  rewrite Ea in Ea'. injection Ea' as <-. rewrite Ecs in EB. destruct (Hval p Ep dig f1 dg lo sr ot os g B' steps EB) as (steps' & V & _). exists B', steps'. done.
Qed.
Print Assumptions C47_bundle_export.
