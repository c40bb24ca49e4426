(** C51: the errors of a rejected file name its lines.  C52: the entry points agree. *)
From Coq Require Import Lia.
From Verif Require Import Base Ast Spec_Ast AstValidator_proofs Props_Ast Bundle Spec_Bundle Build Spec_Build OcaFile Spec_OcaFile OcaLayout OcaForms OcaBuilds Spec_Read TFile
  Facade Spec_Facade Spec_Refs Entry Spec_Entry Facade_proofs Run_proofs Build_proofs Props_Build Props_Bundle Props_Storage Props_Refs Props_From Props_OcaFile Props_History Props_Read Props_TRead Storage Relations Dag Index Text Codec Runs Props_Codec Props_BundleCodec Props_Dag.

(** ** C51 *)
Lemma file_commands_app l1 : forall n l2, file_commands n (l1 ++ l2) = file_commands n l1 ++ file_commands (n + length l1) l2.
Proof.
  induction l1 as [|[f t] l1 IH]; intros n l2; cbn [app length file_commands]; [by rewrite Nat.add_0_r|]. rewrite <- Nat.add_succ_comm.
  destruct (line_command f); cbn [app]; [f_equal|]; apply IH.
Qed.
Lemma silent_commands l : silent (map fst l) -> forall n, file_commands n l = [].
Proof.
  induction l as [|[f t] l IH]; intros H n; [done|]. apply Forall_cons in H as [H1 H2]. cbn [fst] in H1. cbn [file_commands]. rewrite H1. by apply IH.
Qed.
(** Checking the resolved commands one by one is checking the lines one by one. *)
Lemma lines_report from1 said_ok find cm fts : forall n i st cs, resolve said_ok find (map fst (file_commands n fts)) = Ok cs ->
  (forall j m, map snd (file_commands n fts) !! j = Some m -> cm (i + j)%nat = m) ->
  (forall r, r ∈ outcomes from1 st cs -> is_panic r = false) -> line_errors from1 said_ok find st n fts = report cm i (outcomes from1 st cs).
Proof.
  induction fts as [|[f t] fts IH]; intros n i st cs E Hm Hp; cbn [file_commands line_errors] in *.
  { cbn in E. by injection E as <-. }
  destruct (line_command f) as [c|] eqn:Ef; [|by apply IH].
  cbn [map fst resolve] in E. destruct (resolve_cmd said_ok find c) as [c'| |] eqn:Ec; cbn [obind] in E; [|done|done].
  destruct (resolve said_ok find (map fst (file_commands (S n) fts))) as [cs'| |] eqn:Er; cbn [obind] in E; [|done|done]. injection E as <-.
  assert (M : cm i = CmdMeta (S n) t). { rewrite <- (Nat.add_0_r i). by apply Hm. }
  assert (M' : forall j m, map snd (file_commands (S n) fts) !! j = Some m -> cm (S i + j)%nat = m).
  { intros j m Hj. rewrite Nat.add_succ_comm. by apply Hm. }
  cbn [outcomes] in Hp |- *. cbv zeta in Hp |- *. cbn [report]. destruct (apply_command from1 st c') as [b|ms|] eqn:Ea; cbn [after] in Hp |- *.
  - cbn [app]. apply IH; [done|done|]. intros r Hr. apply Hp. by right.
  - rewrite M. cbn [cm_line cm_raw]. f_equal. apply IH; [done|done|]. intros r Hr. apply Hp. by right.
  - exfalso. specialize (Hp Panic). by discriminate Hp; left.
Qed.
Lemma metas_get (l : list (command * cmd_meta)) : forall k j m, map snd l !! j = Some m -> cmeta_get (k + j) (zip (seq k (length l)) (map snd l)) = Some m.
Proof.
  induction l as [|[c x] l IH]; intros k j m H; [done|]. cbn [length seq map snd zip zip_with cmeta_get]. destruct j as [|j]; cbn in H.
  - injection H as ->. by rewrite Nat.add_0_r, Nat.eqb_refl.
  - rewrite (proj2 (Nat.eqb_neq _ _)) by lia. rewrite <- Nat.add_succ_comm. by apply IH.
Qed.
Lemma as_read_same_kind c : cmd_kind (as_read c) = cmd_kind c.
Proof. destruct c as [[] [[[l|] [[|[k v] [|? ?]]|] fl]|b|[kd v] [ats [[|x ps]|]]]]; try done; by destruct kd. Qed.
(** What a build over given lines reports. *)
Definition reported (errors : list berr) (r : bresult) : Prop :=
  match r with BuildOk _ _ => errors = [] | BuildErr es => es = errors /\ es <> [] | BuildPanic => True end.
Lemma from_ast_lines digest from1 said_ok find os from st a cs n fts : (forall i, order_ok (os i)) -> base_of (os (S (length cs))) from st -> Forall command_ok cs ->
  ast_commands a = cs -> resolve said_ok find (map fst (file_commands n fts)) = Ok cs ->
  (forall j m, map snd (file_commands n fts) !! j = Some m -> command_line from a j = m) ->
  reported (line_errors from1 said_ok find st n fts) (from_ast digest from1 os from a).
Proof.
  intros Ho Hb Hc Ea E Hm. subst cs. destruct (from_ast digest from1 os from a) as [B ss|es|] eqn:F; [| |done].
  - assert (S : exists B ss, from_ast digest from1 os from a = BuildOk B ss) by eauto.
    apply (C12_success_exactly digest from1 os from a st Ho Hb Hc) in S as [S _]. cbn [reported].
    rewrite (lines_report from1 said_ok find (command_line from a) fts n 0 st (ast_commands a) E Hm).
    + assert (Z : forall l i, (forall r, r ∈ l -> is_ok r = true) -> report (command_line from a) i l = []).
      { induction l as [|r l IH]; intros i Hl; [done|]. cbn [report]. rewrite IH by (intros; apply Hl; by right). pose proof (Hl r ltac:(left)) as Hr. by destruct r. }
      by apply Z.
    + intros r Hr. specialize (S r Hr). by destruct r.
  - apply (C12_errors_exactly digest from1 os from a st es Ho Hb Hc) in F as (P & Hn & ->). split; [|done]. symmetry. by apply lines_report.
Qed.
Lemma layout_ast wide said_ok fs lines a : Forall (fline_ok wide said_ok) fs -> Forall2 is_line fs lines -> parse_ocafile wide said_ok (file_of lines) = Ok a ->
  ast_commands a = map fst (file_commands 0 (zip fs lines)) /\
  ast_cmeta a = zip (seq 0 (length (file_commands 0 (zip fs lines)))) (map snd (file_commands 0 (zip fs lines))) /\
  exists c, Forall (readable c said_ok) (ast_commands a).
Proof.
  intros H1 H2 Hp. pose proof Hp as Hr. apply file_form in Hr as [Hr _]. rewrite (layout wide said_ok fs lines H1 H2) in Hp.
  destruct (push_all ast_new (file_commands 0 (zip fs lines))) as [b| |] eqn:Eb; cbn [obind] in Hp; [|done|done]. injection Hp as <-.
  apply C15_assembly in Eb as [_ ->]. split; [done|]. split; [done|]. by eexists.
Qed.

(** A file laid out line by line, without FROM: what validation reports is the errors of its lines, in order, each under the number
    and the text of its line; it succeeds only if there are none. *)
Theorem C51_error_lines : forall digest from1 said_ok digits lang_ok standard_read of_text find os wide fs lines a f a' r, (forall i, order_ok (os i)) ->
  Forall (fline_ok wide said_ok) fs -> Forall2 is_line fs lines -> no_base fs -> parse_ocafile wide said_ok (file_of lines) = Ok a ->
  validate_report digest from1 said_ok digits lang_ok standard_read of_text find os a f = Ok (a', r) ->
  reported (line_errors from1 said_ok find None 0 (zip fs lines)) r.
Proof.
  intros dig f1 so dg lo sr ot find os wide fs lines a f a' r Ho H1 H2 Hn Hp E. destruct (layout_ast wide so fs lines a H1 H2 Hp) as (Ec & Em & cont & Hr).
  assert (B : check_base so dg lo sr ot (fa_cache f) a = Ok (None, a)).
  { unfold check_base. destruct (ast_commands a) as [|c cs] eqn:Ea; [done|].
    assert (K : cmd_kind c <> CFrom).
    { intros K. assert (X : forall l n, map fst l = c :: cs -> forall fs lines, l = file_commands n (zip fs lines) -> length fs = length lines -> Forall (fline_ok wide so) fs ->
        exists pre s post, fs = pre ++ FFrom s :: post /\ silent pre).
      { clear -K. intros l n El fs. revert l n El. induction fs as [|f fs IH]; intros l n El [|t lines] -> Hl Hf; [done|done|done|]. injection Hl as Hl. apply Forall_cons in Hf as [Hf1 Hf2].
        cbn [zip zip_with file_commands] in El. destruct (line_command f) as [d|] eqn:Ed.
        - cbn in El. injection El as -> _. destruct f as [| | |s|m|e]; try done.
          + exists [], s, fs. split; [done|constructor].
          + cbn in Ed. injection Ed as <-. done.
          + cbn in Ed. injection Ed as <-. cbn in Hf1. exfalso. rewrite as_read_same_kind in K. by destruct Hf1.
        - destruct (IH _ (S n) El lines eq_refl Hl Hf2) as (pre & s & post & -> & Hs). exists (f :: pre), s, post. split; [done|]. by constructor. }
      destruct (X (file_commands 0 (zip fs lines)) 0 (eq_sym Ec) fs lines eq_refl (Forall2_length _ _ _ H2) H1) as (pre & s & post & Es & Hs). by apply (Hn pre s post). }
    destruct c as [[] o]; try done. }
  unfold validate_report in E. rewrite B in E. cbn [obind fst snd] in E. destruct (resolve so find (ast_commands a)) as [cs| |] eqn:Er; cbn [obind] in E; [|done|done].
  apply (f_equal (fun o => match o with Ok x => x.2 | _ => r end)) in E. cbn [snd] in E. subst r. eapply from_ast_lines; [done|constructor| |reflexivity| |].
  - by destruct (resolve_list f1 so find cont _ Hr cs Er) as (_ & Hok & _).
  - by rewrite <- Ec.
  - intros j m Hj. unfold command_line. cbn [ast_cmeta]. rewrite Em. pose proof (metas_get _ 0 j m Hj) as G. cbn [Nat.add] in G. by rewrite G.
Qed.
Print Assumptions C51_error_lines.

(** A file whose first command is FROM a stored bundle: the same, from the state loaded from that bundle, for the lines after FROM. *)
Theorem C51_error_lines_on_base : forall digest from1 said_ok digits lang_ok standard_read of_text find os wide pre s rest lines a f a' r B, (forall i, order_ok (os i)) ->
  Forall (fline_ok wide said_ok) (pre ++ FFrom s :: rest) -> Forall2 is_line (pre ++ FFrom s :: rest) lines -> silent pre -> parse_ocafile wide said_ok (file_of lines) = Ok a ->
  get_bundle said_ok digits lang_ok standard_read of_text (fa_cache f) s = Ok B ->
  validate_report digest from1 said_ok digits lang_ok standard_read of_text find os a f = Ok (a', r) ->
  r = BuildPanic \/ exists st, load (os (S (length (ast_commands a')))) B = Some st /\
  reported (line_errors from1 said_ok find (Some st) (S (length pre)) (zip rest (drop (S (length pre)) lines))) r.
Proof.
  intros dig f1 so dg lo sr ot find os wide pre s rest lines a f a' r B Ho H1 H2 Hs Hp Hb E. destruct (layout_ast wide so _ lines a H1 H2 Hp) as (Ec & Em & cont & Hr).
  apply Forall2_app_inv_l in H2 as (lpre & lrest & Hpre & H2 & ->). apply Forall2_cons_inv_l in H2 as (t & lrest' & Ht & Hrest & ->).
  pose proof (Forall2_length _ _ _ Hpre) as Hlen.
  assert (Z : zip (pre ++ FFrom s :: rest) (lpre ++ t :: lrest') = zip pre lpre ++ (FFrom s, t) :: zip rest lrest') by (by rewrite zip_with_app).
  assert (F : file_commands 0 (zip (pre ++ FFrom s :: rest) (lpre ++ t :: lrest')) = (from_cmd (RSaid s), CmdMeta (S (length pre)) t) :: file_commands (S (length pre)) (zip rest lrest')).
  { rewrite Z, file_commands_app, silent_commands by (by rewrite zip_fst). cbn [app Nat.add file_commands line_command]. by rewrite zip_with_length_l by lia. }
  assert (D : drop (S (length pre)) (lpre ++ t :: lrest') = lrest').
  { rewrite Hlen. change (S (length lpre)) with (1 + length lpre)%nat. rewrite Nat.add_comm, <- drop_drop, drop_app. done. }
  rewrite D. set (l := file_commands (S (length pre)) (zip rest lrest')) in *. rewrite F in Ec, Em. cbn [map fst] in Ec.
  unfold validate_report, check_base in E. rewrite Ec in E. cbn [from_cmd] in E. rewrite Hb in E. cbn [obind fst snd ast_commands ast_version ast_cmeta ast_meta] in E.
  destruct (resolve so find (map fst l)) as [cs| |] eqn:Er; cbn [obind] in E; [|done|done]. pose proof (f_equal (fun o => match o with Ok x => x.1 | _ => a' end) E) as E'. apply (f_equal (fun o => match o with Ok x => x.2 | _ => r end)) in E. cbn [fst snd] in E, E'. subst r a'. cbn [ast_commands].
  destruct (load (os (S (length cs))) B) as [st|] eqn:El; [|left; unfold from_ast; cbn [ast_commands]; by rewrite El]. right. exists st. split; [done|].
  rewrite Ec in Hr. apply Forall_cons in Hr as [_ Hr].
  eapply from_ast_lines; [done|by constructor| |reflexivity|exact Er|].
  - by destruct (resolve_list f1 so find cont _ Hr cs Er) as (_ & Hok & _).
  - intros j m Hj. unfold command_line. cbn [ast_cmeta]. rewrite Em. cbn [length seq zip zip_with map snd cmeta_get Nat.eqb]. pose proof (metas_get l 1 j m Hj) as G. cbn [Nat.add] in G. by rewrite G.
Qed.
Print Assumptions C51_error_lines_on_base.

(** Every reported error names a line of the file: its number, counted from 1, and its text, as they are in the file. *)
Lemma errors_cite from1 said_ok find fts : forall st n e, e ∈ line_errors from1 said_ok find st n fts ->
  exists j f t, fts !! j = Some (f, t) /\ is_Some (line_command f) /\ be_line e = S (n + j) /\ be_raw e = t.
Proof.
  induction fts as [|[f t] fts IH]; intros st n e He; cbn [line_errors] in He; [by apply elem_of_nil in He|].
  assert (Next : forall st', e ∈ line_errors from1 said_ok find st' (S n) fts -> exists j g u, ((f, t) :: fts) !! j = Some (g, u) /\ is_Some (line_command g) /\ be_line e = S (n + j) /\ be_raw e = u).
  { intros st' H. destruct (IH st' (S n) e H) as (j & g & u & A & B & C & D). exists (S j), g, u. split; [done|]. split; [done|]. split; [|done]. rewrite C. lia. }
  destruct (line_command f) as [c|] eqn:Ef; [|by eapply Next]. destruct (resolve_cmd said_ok find c) as [c'| |]; [|by apply elem_of_nil in He|by apply elem_of_nil in He].
  destruct (apply_command from1 st c') as [st'|ms|]; [by eapply Next| |by apply elem_of_nil in He].
  apply elem_of_app in He as [He|He]; [|by eapply Next]. apply elem_of_list_fmap in He as (m & -> & _). exists 0, f, t. rewrite Ef. split; [done|]. split; [done|]. split; [|done].
  cbn. by rewrite Nat.add_0_r.
Qed.
Theorem C51_errors_name_lines : forall digest from1 said_ok digits lang_ok standard_read of_text find os wide fs lines a f a' es e, (forall i, order_ok (os i)) ->
  Forall (fline_ok wide said_ok) fs -> Forall2 is_line fs lines -> no_base fs -> parse_ocafile wide said_ok (file_of lines) = Ok a ->
  validate_report digest from1 said_ok digits lang_ok standard_read of_text find os a f = Ok (a', BuildErr es) -> e ∈ es ->
  exists n t, lines !! n = Some t /\ be_line e = S n /\ be_raw e = t.
Proof.
  intros dig f1 so dg lo sr ot find os wide fs lines a f a' es e Ho H1 H2 Hn Hp E He.
  pose proof (C51_error_lines dig f1 so dg lo sr ot find os wide fs lines a f a' _ Ho H1 H2 Hn Hp E) as [-> _].
  destruct (errors_cite f1 so find (zip fs lines) None 0 e He) as (j & g & t & Hj & _ & B & C). apply lookup_zip_with_Some in Hj as (x & y & [= -> ->] & _ & Hy). eauto.
Qed.
Print Assumptions C51_errors_name_lines.
(** The report is what validation returns: on success the build, on failure the messages. *)
Theorem C51_report_of_validation : forall digest from1 said_ok digits lang_ok standard_read of_text os a f,
  validate_ast digest from1 said_ok digits lang_ok standard_read of_text os a f =
  (let! r := validate_report digest from1 said_ok digits lang_ok standard_read of_text (find_ref (fa_db f)) os a f in
   match r.2 with
   | BuildOk B steps => match ast_meta a !! "name" with Some n => let! s := unwrap_some (b_said B) in let! d := mem_insert NsReferences n s (fa_db f) in Ok (with_db d f, (B, steps)) | None => Ok (f, (B, steps)) end
   | BuildErr es => Err (map be_msg es)
   | BuildPanic => Panic
   end).
Proof.
  intros dig f1 so dg lo sr ot os a f. unfold validate_ast, validate_report. destruct (check_base so dg lo sr ot (fa_cache f) a) as [[from a1]| |] eqn:E; cbn [obind fst snd]; [|done|done].
  assert (M : ast_meta a1 = ast_meta a).
  { unfold check_base in E. destruct (ast_commands a) as [|[[] [?|[[s|n]]|?]] cs]; try (by injection E as <- <-); try done. destruct (get_bundle _ _ _ _ _ _ _); try done; by injection E as <- <-. }
  rewrite M. by destruct (resolve so (find_ref (fa_db f)) (ast_commands a1)).
Qed.
Print Assumptions C51_report_of_validation.

(** ** C52 *)
(** Storing a build never ends in an error: it succeeds, or aborts (C46). *)
Definition quiet {A} (x : outcome A) : Prop := forall e, x <> Err e.
Lemma quiet_bind {A B} (x : outcome A) (k : A -> outcome B) : quiet x -> (forall a, quiet (k a)) -> quiet (obind x k).
Proof. intros Hx Hk. destruct x as [a|e|]; cbn; [apply Hk|by destruct (Hx e)|done]. Qed.
Lemma quiet_ok {A} (a : A) : quiet (Ok a). Proof. done. Qed.
Lemma quiet_panic {A} : quiet (@Panic A). Proof. done. Qed.
Lemma quiet_unwrap {A} (x : option A) : quiet (unwrap_some x). Proof. by destruct x. Qed.
Lemma quiet_insert n k v d : quiet (mem_insert n k v d). Proof. by rewrite mem_ins2. Qed.
Lemma quiet_prefix s : quiet (len_prefixed s). Proof. unfold len_prefixed. by destruct (_ <=? _)%nat. Qed.
Lemma quiet_prefixes l : quiet (prefixed_all l).
Proof. induction l as [|s l IH]; [done|]. apply quiet_bind; [apply quiet_prefix|]. intros a. by apply quiet_bind. Qed.
Lemma quiet_parent p : quiet (parent_bytes p). Proof. destruct p; [apply quiet_prefix|done]. Qed.
Ltac quiet := repeat first [apply quiet_ok|apply quiet_panic|apply quiet_unwrap|apply quiet_insert|apply quiet_prefix|apply quiet_prefixes|apply quiet_parent|apply quiet_bind; [|intros ?]|assumption].
Lemma quiet_byte n : quiet (obj_of_byte n).
Proof. unfold quiet, obj_of_byte. intros e. repeat (destruct n as [|n]; try done). Qed.
Lemma quiet_type d k : quiet (object_type d k).
Proof. unfold object_type. destruct (mem_get _ _ _) as [[[|c s]|]| |]; try done. apply quiet_byte. Qed.
Lemma quiet_new d k : quiet (object_new d k). Proof. apply quiet_bind; [apply quiet_type|done]. Qed.
Lemma quiet_decode s : quiet (rel_decode s).
Proof.
  unfold rel_decode. generalize (String.length s) (@nil oobject). intros n. revert s. induction n as [|n IH]; intros [|c [|k r]] acc; try done. cbn [rel_decode_loop].
  destruct (split_at _ r) as [[said r']|]; [|done]. apply quiet_bind; [apply quiet_byte|]. intros o. apply IH.
Qed.
Lemma quiet_rel d k : quiet (rel_or_new d k).
Proof.
  unfold rel_or_new, explore. apply quiet_bind.
  - destruct (mem_get _ _ _) as [[r|]| |]; try done. apply quiet_bind; [apply quiet_decode|]. intros l. apply quiet_bind; [apply quiet_new|done].
  - intros [r|]; [done|]. apply quiet_bind; [apply quiet_new|done].
Qed.

Lemma quiet_encode l : quiet (rel_encode l).
Proof. induction l as [|o l IH]; [done|]. apply quiet_bind; [apply quiet_prefix|]. intros a. by apply quiet_bind. Qed.
Section Stores.
Variable digest : json -> string.
Variables from1 to1 : string -> option string.
Variable listing : string -> list oobject -> list oobject.
Variable to_text : json -> string.
Variable hash : string -> string.
Lemma quiet_relations B d : quiet (add_relations listing B d).
Proof.
  assert (I : forall r k d, quiet (rel_insert listing r k d)) by (intros; apply quiet_bind; [apply quiet_encode|intros; apply quiet_insert]).
  apply quiet_bind.
  - unfold insert_metadata. destruct (b_said B), (cb_said (b_cb B)); try done. quiet. revert a0. induction (b_ovs B) as [|ov l IH]; intros x; [done|]. cbn [insert_ov_metadata].
    destruct (ov_said ov); [|done]. apply quiet_bind; [quiet|]. intros y. apply IH.
  - intros d1. destruct (b_said B) as [bs|], (cb_said (b_cb B)) as [cs|]; try done.
    do 4 (apply quiet_bind; [first [apply quiet_rel|apply quiet_new]|intros ?]). apply quiet_bind; [|intros st; apply quiet_bind; [apply I|intros ?; apply I]].
    match goal with |- quiet (rel_overlays _ _ _ _ ?st) => generalize st end. induction (b_ovs B) as [|ov l IH]; intros st; [done|]. cbn [rel_overlays]. destruct (ov_said ov) as [s|]; [|done].
    cbv zeta. do 5 (apply quiet_bind; [first [apply quiet_rel|apply quiet_new|apply I]|intros ?]). apply IH.
Qed.
Lemma quiet_steps l : forall f, quiet (build_steps to_text l f).
Proof.
  induction l as [|s l IH]; intros f; [done|]. cbn [build_steps]. apply quiet_bind; [|intros ?; apply IH]. unfold build_step, op_encode. cbv zeta. apply quiet_bind; [destruct (bs_parent s); quiet|]. intros op.
  do 5 (apply quiet_bind; [quiet|intros ?]). apply quiet_bind; [|done]. generalize a3. induction (b_ovs (bs_result s)) as [|ov r IHr]; intros d; [done|]. cbn [store_overlays]. quiet. apply IHr.
Qed.
Lemma quiet_models steps d : quiet (build_models from1 to1 to_text hash steps d).
Proof.
  unfold build_models, build_core_db_model. apply quiet_bind.
  - generalize dstate_new. induction steps as [|s l IH]; intros st; [done|]. cbn [dag_steps]. apply quiet_bind; [|intros x; apply quiet_bind; [apply IH|done]].
    unfold dag_step. cbv zeta. apply quiet_bind.
    + destruct (cmd_obj (bs_cmd s)) as [cc|b|t ct]; [quiet|done|]. destruct (find_overlay _ _ _) as [ov|]; [|done]. quiet. unfold line_key. destruct (ov_lang ov); quiet.
    + intros x. quiet. induction (map ov_said (b_ovs (bs_result s))) as [|o r IHr]; [done|]. cbn [unwrap_all]. by quiet.
  - intros ms. assert (N : forall n d, quiet (store_node n d)) by (intros [n|] x; [|done]; unfold store_node, node_bytes; quiet).
    assert (S : forall d m, quiet (store_model d m)).
    { intros x m. unfold store_model, bnode_bytes. repeat (apply quiet_bind; [first [apply N|quiet]|intros ?]). quiet. }
    assert (F : forall acc, quiet acc -> quiet (fold_left (fun acc m => let! d := acc in store_model d m) ms acc)).
    { induction ms as [|m ms IH]; intros acc Ha; [done|]. cbn [fold_left]. apply IH. apply quiet_bind; [done|]. intros x. apply S. }
    by apply F.
Qed.
Lemma build_quiet B steps f : quiet (build from1 to1 listing to_text hash B steps f).
Proof.
  unfold build. apply quiet_bind; [unfold build_cache; destruct (b_said B), (cb_said (b_cb B)); done|]. intros f1. apply quiet_bind.
  { unfold build_meta. destruct (omap _ _); [done|]. by destruct (b_said B). }
  intros f2. apply quiet_bind; [apply quiet_steps|]. intros f3. apply quiet_bind; [apply quiet_relations|]. intros d4. apply quiet_bind; [apply quiet_models|done].
Qed.
Lemma build_returns B steps f g B' : build from1 to1 listing to_text hash B steps f = Ok (g, B') -> B' = B.
Proof. unfold build. intros H. do 5 inv_ok H. by injection H as _ <-. Qed.
End Stores.

(** A file without FROM and without references by name: the free function and the method of a facade in any state give the same
    bundle or the same errors; only the method stores, and that cannot add an error. *)
Theorem C52_free_and_facade : forall wide digest from1 to1 listing said_ok digits lang_ok standard_read to_text of_text hash os s f,
  (forall a, parse_ocafile wide said_ok s = Ok a -> not_from_first a /\ forall c n, c ∈ ast_commands a -> ~ mentions c n) ->
  match build_from_ocafile wide said_ok digest from1 os s, facade_build_file wide digest from1 to1 listing said_ok digits lang_ok standard_read to_text of_text hash os s f with
  | Ok B, Ok (_, B') => B' = B
  | Ok _, Panic => True
  | Err e, Err e' => e' = e
  | Panic, Panic => True
  | _, _ => False
  end.
Proof.
  intros wide dig f1 t1 ls so dg lo sr tt ot hs os s f Hf. rewrite build_from_eq, build_file_eq.
  assert (P : forall a, parse_any wide so s = Ok (SemanticsAst a) -> parse_ocafile wide so s = Ok a).
  { intros a. unfold parse_any. destruct (file_precompiler wide s) as [[v|]| |]; cbn [obind]; try discriminate.
    - destruct (String.eqb v "transformation"); [destruct (parse_transformation wide s); discriminate|]. destruct (String.eqb v "semantics"); [|discriminate].
      destruct (parse_ocafile wide so s); [|discriminate|discriminate]. by intros [= ->].
    - destruct (parse_ocafile wide so s); [|discriminate|discriminate]. by intros [= ->]. }
  generalize dependent (parse_any wide so s). intros [[t|a]|e|] P; [done| |done|done].
  rewrite (P a eq_refl). cbn [obind]. destruct (Hf a (P a eq_refl)) as [Hn Hm].
  assert (C : check_base so dg lo sr ot (fa_cache f) a = Ok (None, a)).
  { unfold check_base. destruct (ast_commands a) as [|[[] o] cs] eqn:E; try done. by destruct (Hn _ _ E). }
  unfold build_ast, validate_ast. rewrite C. cbn [obind fst snd]. rewrite resolve_plain by done. cbn [obind].
  replace (Ast (ast_version a) (ast_commands a) (ast_cmeta a) (ast_meta a)) with a by (by destruct a).
  destruct (from_ast dig f1 os None a) as [B steps|es|] eqn:E; [|done|done].
  destruct (from_ast_said _ _ _ _ _ _ _ E) as [j Ej].
  assert (K : forall g, match build f1 t1 ls tt hs B steps g with Ok (_, B') => B' = B | Err _ => False | Panic => True end).
  { intros g. destruct (build f1 t1 ls tt hs B steps g) as [[g' B']|e|] eqn:Eb; [by eapply build_returns|by destruct (build_quiet f1 t1 ls tt hs B steps g e)|done]. }
  destruct (ast_meta a !! "name") as [n|].
  - rewrite Ej. cbn [unwrap_some obind]. rewrite mem_ins2. cbn [obind fst snd]. specialize (K (with_db (ins2 NsReferences n (dig j) (fa_db f)) f)). by destruct (build _ _ _ _ _ _ _ _) as [[]| |].
  - cbn [obind fst snd]. specialize (K f). by destruct (build _ _ _ _ _ _ _ _) as [[]| |].
Qed.
Print Assumptions C52_free_and_facade.

(** Validation with references kept by the caller: as long as the caller's table says what the facade's does, the outcome is that of
    the validation with internal references, and so does the table afterwards.  The facade itself is not changed. *)
Theorem C52_external_references : forall digest from1 said_ok digits lang_ok standard_read of_text os a f refs,
  (forall n, find_ref (fa_db f) n = refs !! n) ->
  match validate_ast digest from1 said_ok digits lang_ok standard_read of_text os a f, validate_external digest from1 said_ok digits lang_ok standard_read of_text os a refs f with
  | Ok (f', r), Ok (refs', r') => r' = r /\ forall n, find_ref (fa_db f') n = refs' !! n
  | Err e, Err e' => e' = e
  | Panic, Panic => True
  | _, _ => False
  end.
Proof.
  intros dig f1 so dg lo sr ot os a f refs H. rewrite C51_report_of_validation. unfold validate_external.
  assert (F : validate_report dig f1 so dg lo sr ot (find_ref (fa_db f)) os a f = validate_report dig f1 so dg lo sr ot (fun n => refs !! n) os a f).
  { unfold validate_report. destruct (check_base so dg lo sr ot (fa_cache f) a) as [[from a1]| |]; cbn [obind fst snd]; [|done|done].
    assert (R : forall cs, resolve so (find_ref (fa_db f)) cs = resolve so (fun n => refs !! n) cs).
    { assert (N : forall n, resolve_name so (find_ref (fa_db f)) n = resolve_name so (fun n => refs !! n) n) by (intros n; unfold resolve_name; by rewrite H).
      assert (T : forall t, resolve_attr so (find_ref (fa_db f)) t = resolve_attr so (fun n => refs !! n) t) by (intros [[]| |[[]| | |]|]; cbn [resolve_attr]; by rewrite ?N).
      assert (L : forall l, resolve_attrs so (find_ref (fa_db f)) l = resolve_attrs so (fun n => refs !! n) l)
        by (induction l as [|[k t] l IH]; [done|]; cbn [resolve_attrs]; by rewrite T, IH).
      assert (C : forall c, resolve_cmd so (find_ref (fa_db f)) c = resolve_cmd so (fun n => refs !! n) c).
      { intros [[] [[[l|] p fl]|b|[kd v] [x [p|]]]]; try done; try (by destruct kd). - cbn [resolve_cmd]. by rewrite L.
        - destruct kd; try done. cbn [resolve_cmd]. destruct (imap_get "target" p) as [[[s|n]| | |]|]; try done. by rewrite N. }
      induction cs as [|c cs IH]; [done|]. cbn [resolve]. by rewrite C, IH. }
    by rewrite R. }
  rewrite F. destruct (validate_report dig f1 so dg lo sr ot (fun n => refs !! n) os a f) as [[a' r]| |] eqn:E; cbn [obind fst snd]; [|done|done].
  assert (M : ast_meta a' = ast_meta a).
  { unfold validate_report in E. destruct (check_base so dg lo sr ot (fa_cache f) a) as [[from a1]| |] eqn:Ec; cbn [obind fst snd] in E; [|done|done].
    destruct (resolve so (fun n => refs !! n) (ast_commands a1)); cbn [obind] in E; [|done|done]. apply (f_equal (fun o => match o with Ok x => ast_meta x.1 | _ => ast_meta a' end)) in E.
    cbn [fst ast_meta] in E. rewrite <- E. unfold check_base in Ec.
    destruct (ast_commands a) as [|[[] [?|[[s|n]]|?]] cs]; try (by injection Ec as <- <-); try done. destruct (get_bundle _ _ _ _ _ _ _); try done; by injection Ec as <- <-. }
  rewrite M. destruct r as [B steps|es|]; [|done|done]. destruct (ast_meta a !! "name") as [n|]; [|done].
  destruct (b_said B) as [s|]; cbn [unwrap_some obind]; [|done]. rewrite mem_ins2. cbn [obind]. split; [done|]. intros m. unfold find_ref. rewrite mem_get2. cbn [with_db fa_db].
  specialize (H m). unfold find_ref in H. rewrite mem_get2 in H. rewrite get2_ins2. destruct (decide (n = m)) as [<-|Hnm].
  - rewrite lookup_insert. by rewrite bool_decide_true.
  - rewrite lookup_insert_ne by done. rewrite bool_decide_false; [done|]. by intros [].
Qed.
Print Assumptions C52_external_references.

(** The references listed by a facade after any history of validations and builds: the names of the validated files, with the SAID of
    the last bundle of that name. *)
Theorem C52_known_names : forall digest from1 to1 listing said_ok digits lang_ok standard_read to_text of_text hash h f,
  runs (validate_ast digest from1 said_ok digits lang_ok standard_read of_text)
       (build_ast digest from1 to1 listing said_ok digits lang_ok standard_read to_text of_text hash) facade_new h f ->
  exists m, all_refs f = Ok m /\ forall n s, m !! n = Some s <-> registered h n s.
Proof.
  intros dig f1 t1 ls so dg lo sr tt ot hs h f R. pose proof (C25_names_registered _ _ _ _ _ _ _ _ _ _ _ _ _ R) as N. unfold all_refs, mem_get_all.
  unfold find_ref, mem_get in N. destruct (fa_db f !! ns_name NsReferences) as [m|] eqn:E.
  - exists m. split; [done|]. intros n s. rewrite <- N. by destruct (m !! n).
  - exists ∅. split; [done|]. intros n s. rewrite <- N. by rewrite lookup_empty.
Qed.
Print Assumptions C52_known_names.

(** ** Concrete cases *)
Definition ex_report := validate_report ex_digest ex_from1 any_said ascii_digits ex_lang_ok (fun _ => None) ex_of_text (fun _ => None) (fun _ => ord1).
Definition ex_free := build_from_ocafile no_wide any_said ex_digest ex_from1 (fun _ => ord1).
Definition ex_method := facade_build_file no_wide ex_digest ex_from1 ex_to1 ex_listing any_said ascii_digits ex_lang_ok (fun _ => None) ex_to_text ex_of_text ex_hash (fun _ => ord1).
Definition reports (s : string) (es : list berr) : Prop :=
  reads s (fun a => match ex_report a facade_new with Ok (_, BuildErr es') => es' = es | _ => False end).
(** Two errors, after a comment and a blank line. *)
Definition unit_line (n : string) : string := ("ADD UNIT ATTRS " +:+ n +:+ "=" +:+ dq "g")%string.
Example C51_example : reports (file_of ["# a form"; "ADD ATTRIBUTE a=Text"; ""; unit_line "b"; unit_line "a"; unit_line "c"])
  [BErr 4 (unit_line "b") "Undefined attribute: b"; BErr 6 (unit_line "c") "Undefined attribute: c"].
Proof. vm_compute. reflexivity. Qed.
Definition unit_cmd (n : string) : command := Command CAdd (OOverlay (OType KUnit "1.1") (Content (Some [(n, VVal "g")]) None)).
Example C51_hypotheses_met : let fs := [FComment "" " a form"; FCmd (Command CAdd (OCaptureBase (CapContent (Some [("a", NVal TText)]) None None))); FBlank ""; FCmd (unit_cmd "b"); FFlagged "a"] in
  let lines := ["# a form"; "ADD ATTRIBUTE a=Text"; ""; unit_line "b"; "ADD FLAGGED_ATTRIBUTES a"] in
  Forall (fline_ok no_wide any_said) fs /\ Forall2 is_line fs lines /\ no_base fs /\ is_ok (parse_ocafile no_wide any_said (file_of lines)) = true /\
  line_errors ex_from1 any_said (fun _ => None) None 0 (zip fs lines) = [BErr 4 (unit_line "b") "Undefined attribute: b"].
Proof.
  intros fs lines. split; [|split; [|split; [|split]]].
  - repeat (apply Forall_cons; split); [by split| |done| |by split|by apply Forall_nil].
    + apply pr_attrs. split; [done|]. split; [by apply (bool_decide_unpack _)|]. apply Forall_cons; split; [|by apply Forall_nil]. split; [by split|]. constructor.
    + apply pr_plain; [tauto| |by left]. split; [done|]. split; [by apply (bool_decide_unpack _)|]. apply Forall_cons; split; [|by apply Forall_nil]. split; [by split|]. by exists "g".
  - repeat constructor.
  - intros pre s post E Hs. subst fs. repeat (destruct pre as [|? pre]; [discriminate E|injection E as <- E]). by destruct pre.
  - vm_compute. reflexivity.
  - vm_compute. reflexivity.
Qed.
(** Findings.  After a FROM whose bundle is not stored, errors name the line before the right one. *)
Theorem C51_unknown_base_lines_refuted : reports (file_of ["FROM EPMaG1h2hVxKCZ5_3KoNNwgAyd4Eq8zrxK3xgaaRsz2M"; "ADD ATTRIBUTE a=Text"; unit_line "b"])
  [BErr 2 "ADD ATTRIBUTE a=Text" "Undefined attribute: b"].
Proof. vm_compute. reflexivity. Qed.
Print Assumptions C51_unknown_base_lines_refuted.
(** A continued line: the commands after it are reported under smaller numbers. *)
Theorem C51_continuation_refuted : reports (cont "ADD ATTRIBUTE a=Text " (" b=Text" +:+ NL +:+ unit_line "c" +:+ NL)) [BErr 2 (unit_line "c") "Undefined attribute: c"].
Proof. vm_compute. reflexivity. Qed.
Print Assumptions C51_continuation_refuted.
(** The free function and the method on a file with both kinds of lines. *)
Example C52_example : match ex_free (file_of ["# a form"; "ADD ATTRIBUTE a=Text"; unit_line "a"]), ex_method (file_of ["# a form"; "ADD ATTRIBUTE a=Text"; unit_line "a"]) facade_new with
  | Ok B, Ok (_, B') => bool_decide (b_said B = b_said B') | _, _ => false end = true.
Proof. vm_compute. reflexivity. Qed.
(** The free function rejects every FROM; the method builds on the stored base, or from nothing. *)
Theorem C52_from_refuted : is_err (ex_free (file_of ["FROM EPMaG1h2hVxKCZ5_3KoNNwgAyd4Eq8zrxK3xgaaRsz2M"; "ADD ATTRIBUTE a=Text"])) = true /\
  is_ok (ex_method (file_of ["FROM EPMaG1h2hVxKCZ5_3KoNNwgAyd4Eq8zrxK3xgaaRsz2M"; "ADD ATTRIBUTE a=Text"]) facade_new) = true.
Proof. vm_compute. split; reflexivity. Qed.
Print Assumptions C52_from_refuted.
(** The free function builds a reference by name as it is; the method refuses an unknown name. *)
Theorem C52_names_refuted : is_ok (ex_free (file_of ["ADD ATTRIBUTE owner=refn:person"])) = true /\ is_err (ex_method (file_of ["ADD ATTRIBUTE owner=refn:person"]) facade_new) = true.
Proof. vm_compute. split; reflexivity. Qed.
Print Assumptions C52_names_refuted.
