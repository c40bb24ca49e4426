(** Sequences of commands and [from_ast]. *)
From Verif Require Import Spec_Build Upd_proofs Effect_proofs Command_proofs Load_proofs Bundle_proofs Box_proofs Determinism_proofs.

Section Run.
Variable from1 : string -> option string.

Lemma apply_types st b' c (m : gmap string nattr) : command_ok c -> box_ok (unwrap_or box_new st) ->
  (forall n, box_types (unwrap_or box_new st) n = m !! n) -> apply_command from1 st c = Ok b' ->
  forall n, box_types b' n = replay_types m c !! n.
Proof.
  unfold apply_command. generalize (unwrap_or box_new st) as b. intros b Hc Hb Hm.
  destruct c as [[] [cc|bc|t ct]]; unfold replay_types; cbn [cmd_kind cmd_obj]; try done.
  - intros [= <-] n. destruct Hc as [Ha Hp]. cbn in Ha, Hp. unfold add_capture, box_types.
    set (b1 := fold_left _ (unwrap_or [] (cc_attrs cc)) b).
    destruct (add_capture_attrs (unwrap_or [] (cc_attrs cc)) b) as (H1 & H2 & H3 & H4);
      [by apply box_ok_names|destruct (cc_attrs cc); cbn; [by apply Ha|constructor]|]. fold b1 in H1, H2, H3, H4.
    destruct (add_capture_class (unwrap_or [] (cc_props cc)) b1) as (-> & _); [destruct (cc_props cc) as [p|]; cbn; [by apply (Hp p)|constructor]|].
    rewrite H4, lookup_union, <- imap_get_map, <- Hm. unfold box_types. destruct (imap_get n (unwrap_or [] (cc_attrs cc))) as [ty|]; cbn.
    + destruct (bx_attrs b !! n) as [a|]; cbn; [by destruct (at_type a)|done].
    + by destruct (bx_attrs b !! n ≫= at_type).
  - intros H n. destruct Hc as [Ha Hp]. cbn in Ha, Hp. rewrite <- Hm.
    destruct (decide (ot_kind t = KMeta)) as [Hk|Hk].
    + rewrite Hk in H. apply meta_effect in H as (H1 & _); [|done]. unfold box_types. by rewrite H1.
    + apply overlay_rest in H as (_ & _ & _ & H & _); [|done..]. by rewrite H.
  - intros [= <-] n. unfold remove_capture, box_types.
    set (b1 := fold_left _ (unwrap_or [] (cc_attrs cc)) b).
    destruct (remove_capture_attrs (unwrap_or [] (cc_attrs cc)) b) as (H1 & H2 & H3 & H4). fold b1 in H1, H2, H3, H4.
    destruct (remove_capture_class (unwrap_or [] (cc_props cc)) b1) as (-> & _).
    rewrite H4. unfold imap_keys. case_decide as Hin.
    + cbn. symmetry. apply map_filter_lookup_None. right. intros x _ Hx. by apply Hx.
    + unfold box_types in Hm. rewrite Hm. destruct (m !! n) as [ty|] eqn:E.
      * symmetry. by apply map_filter_lookup_Some.
      * symmetry. apply map_filter_lookup_None. by left.
Qed.
Lemma apply_class st b' c : command_ok c -> box_ok (unwrap_or box_new st) -> apply_command from1 st c = Ok b' ->
  unwrap_or "" (bx_class b') = replay_class (unwrap_or "" (bx_class (unwrap_or box_new st))) c.
Proof.
  unfold apply_command. generalize (unwrap_or box_new st) as b. intros b Hc Hb.
  destruct c as [[] [cc|bc|t ct]]; unfold replay_class; cbn [cmd_kind cmd_obj]; try done.
  - intros [= <-]. destruct Hc as [Ha Hp]. cbn in Ha, Hp. unfold add_capture.
    set (b1 := fold_left _ (unwrap_or [] (cc_attrs cc)) b).
    destruct (add_capture_attrs (unwrap_or [] (cc_attrs cc)) b) as (H1 & H2 & H3 & H4);
      [by apply box_ok_names|destruct (cc_attrs cc); cbn; [by apply Ha|constructor]|]. fold b1 in H1, H2, H3, H4.
    destruct (add_capture_class (unwrap_or [] (cc_props cc)) b1) as (_ & _ & _ & ->); [destruct (cc_props cc) as [p|]; cbn; [by apply (Hp p)|constructor]|].
    rewrite H3. by destruct (imap_get "classification" _) as [[]|].
  - intros H. destruct Hc as [Ha Hp]. cbn in Ha, Hp.
    destruct (decide (ot_kind t = KMeta)) as [Hk|Hk].
    + rewrite Hk in H. apply meta_effect in H as (_ & _ & -> & _); done.
    + apply overlay_rest in H as (_ & _ & -> & _); done.
  - intros [= <-]. unfold remove_capture.
    set (b1 := fold_left _ (unwrap_or [] (cc_attrs cc)) b).
    destruct (remove_capture_attrs (unwrap_or [] (cc_attrs cc)) b) as (H1 & H2 & H3 & H4). fold b1 in H1, H2, H3, H4.
    destruct (remove_capture_class (unwrap_or [] (cc_props cc)) b1) as (_ & _ & _ & ->). rewrite H3. by destruct (imap_mem _ _).
Qed.

Definition st_ok (st : option obox) : Prop := forall b, st = Some b -> api_box b.
Lemma st_box_ok st : st_ok st -> box_ok (unwrap_or box_new st).
Proof. intros H. destruct st; cbn; [by apply api_box_ok, H|apply box_ok_new]. Qed.
Lemma after_ok st c : command_ok c -> st_ok st -> st_ok (after st (apply_command from1 st c)).
Proof.
  intros Hc Hs b. destruct (apply_command from1 st c) as [b'|es|] eqn:E; cbn; [|by apply Hs..]. intros [= <-]. by eapply apply_api.
Qed.
Lemma state_after_ok cs : forall st, Forall command_ok cs -> st_ok st -> st_ok (state_after from1 st cs).
Proof.
  induction cs as [|c cs IH]; intros st Hc Hs; [done|]. apply Forall_cons in Hc as [H1 H2]. cbn. apply IH; [done|]. by apply after_ok.
Qed.
Lemma run_types cs : forall st (m : gmap string nattr), Forall command_ok cs -> st_ok st ->
  (forall n, box_types (unwrap_or box_new st) n = m !! n) -> Forall (fun r => is_ok r = true) (outcomes from1 st cs) ->
  forall n, box_types (unwrap_or box_new (state_after from1 st cs)) n = fold_left replay_types cs m !! n.
Proof.
  induction cs as [|c cs IH]; intros st m Hc Hs Hm Ho; [done|]. apply Forall_cons in Hc as [H1 H2]. cbn in Ho. apply Forall_cons in Ho as [Ho1 Ho2].
  cbn. apply IH; [done|by apply after_ok| |done].
  destruct (apply_command from1 st c) as [b'|es|] eqn:E; [|done|done]. cbn. eapply apply_types; eauto. by apply st_box_ok.
Qed.
Lemma run_class cs : forall st, Forall command_ok cs -> st_ok st -> Forall (fun r => is_ok r = true) (outcomes from1 st cs) ->
  unwrap_or "" (bx_class (unwrap_or box_new (state_after from1 st cs))) =
  fold_left replay_class cs (unwrap_or "" (bx_class (unwrap_or box_new st))).
Proof.
  induction cs as [|c cs IH]; intros st Hc Hs Ho; [done|]. apply Forall_cons in Hc as [H1 H2]. cbn in Ho. apply Forall_cons in Ho as [Ho1 Ho2].
  change (state_after from1 st (c :: cs)) with (state_after from1 (after st (apply_command from1 st c)) cs). cbn [fold_left]. rewrite IH; [|done|by apply after_ok|done]. f_equal.
  destruct (apply_command from1 st c) as [b'|es|] eqn:E; [|done|done]. cbn. eapply apply_class; eauto. by apply st_box_ok.
Qed.

Variable digest : json -> string.
Variable os : nat -> order.
(** The loop, step by step. *)
Fixpoint chain (i : nat) (parent : option string) (st : option obox) (cs : list command) (steps : list bstep) : Prop :=
  match cs, steps with
  | [], [] => True
  | c :: cs', s :: steps' =>
      bs_cmd s = c /\ bs_parent s = parent /\
      (exists b, apply_command from1 st c = Ok b /\ generate_bundle digest (os i) b = Some (bs_result s) /\
        chain (S i) (b_said (bs_result s)) (Some b) cs' steps')
  | _, _ => False
  end.
Lemma loop_spec cm cs : forall i base parent steps errs x,
  build_loop digest from1 os cm i cs base parent steps errs = Some x ->
  Forall (fun r => is_panic r = false) (outcomes from1 base cs) /\
  x.1.1 = state_after from1 base cs /\
  x.2 = errs ++ report cm i (outcomes from1 base cs) /\
  (Forall (fun r => is_ok r = true) (outcomes from1 base cs) -> exists ss, x.1.2 = steps ++ ss /\ chain i parent base cs ss).
Proof.
  induction cs as [|c cs IH]; intros i base parent steps errs x.
  - intros [= <-]. cbn. rewrite !app_nil_r. split; [constructor|]. repeat (split; [done|]). intros _. exists []. by rewrite app_nil_r.
  - cbn [build_loop outcomes state_after fold_left report]. destruct (apply_command from1 base c) as [b|es|] eqn:E; [| |done].
    + destruct (generate_bundle digest (os i) b) as [B|] eqn:G; [|done]. intros H. apply IH in H as (H1 & H2 & H3 & H4).
      cbn [after]. split; [constructor; done|]. split; [done|]. split; [done|]. intros Hok. apply Forall_cons in Hok as [_ Hok].
      destruct (H4 Hok) as (ss & -> & Hch). exists (BStep parent c B :: ss). rewrite <- app_assoc. split; [done|].
      cbn. split; [done|]. split; [done|]. exists b. done.
    + intros H. apply IH in H as (H1 & H2 & H3 & H4). cbn [after]. split; [constructor; done|]. split; [done|].
      split; [rewrite H3; by rewrite <- app_assoc|]. intros Hok. apply Forall_cons in Hok as [Hok _]. done.
Qed.
Lemma loop_total cm cs : forall i base parent steps errs, (forall i, order_ok (os i)) -> Forall command_ok cs -> st_ok base ->
  Forall (fun r => is_panic r = false) (outcomes from1 base cs) ->
  is_Some (build_loop digest from1 os cm i cs base parent steps errs).
Proof.
  induction cs as [|c cs IH]; intros i base parent steps errs Ho Hc Hs Hp; [by eexists|].
  apply Forall_cons in Hc as [H1 H2]. cbn in Hp. apply Forall_cons in Hp as [Hp1 Hp2]. cbn [build_loop].
  assert (Hs' := after_ok base c H1 Hs).
  destruct (apply_command from1 base c) as [b|es|] eqn:E; [| |done].
  - destruct (C02_proof (os i) (Ho i) digest b) as (B & -> & _); [apply api_box_ok; by apply Hs'|]. by apply IH.
  - by apply IH.
Qed.
Lemma report_nil cm l : forall i, Forall (fun r => is_panic r = false) l -> (forall es, Err es ∈ l -> es <> []) -> report cm i l = [] ->
  Forall (fun r => is_ok r = true) l.
Proof.
  induction l as [|r l IH]; intros i Hp He Hr; [constructor|]. apply Forall_cons in Hp as [Hp1 Hp2]. cbn in Hr. apply app_eq_nil in Hr as [Hr1 Hr2].
  constructor; [|eapply IH; [done| |done]; intros es Hes; apply He; by right].
  destruct r as [b|es|]; [done| |done]. exfalso. apply (He es); [left|]. by destruct es.
Qed.
Lemma report_ok cm l : forall i, Forall (fun r => is_ok r = true) l -> report cm i l = [].
Proof. induction l as [|r l IH]; intros i H; [done|]. apply Forall_cons in H as [H1 H2]. cbn. rewrite IH by done. by destruct r. Qed.
Lemma outcomes_err cs : forall st es, Err es ∈ outcomes from1 st cs -> es <> [].
Proof.
  induction cs as [|c cs IH]; intros st es; cbn; [by intros ?%elem_of_nil|].
  intros [H|H]%elem_of_cons; [|by eapply IH]. symmetry in H. by eapply apply_error_nonempty.
Qed.
(** Final results. *)
Definition line_meta (from : bool) (a : ast) (i : nat) : cmd_meta :=
  unwrap_or default_meta (cmeta_get (if from then S i else i) (ast_cmeta a)).
Lemma base_ok st from parent a B steps : from_ast_base digest from1 os st from parent a = BuildOk B steps ->
  Forall (fun r => is_ok r = true) (outcomes from1 st (ast_commands a)) /\ chain 0 parent st (ast_commands a) steps /\
  exists b, state_after from1 st (ast_commands a) = Some b /\ generate_bundle digest (os (length (ast_commands a))) b = Some B.
Proof.
  unfold from_ast_base. destruct (build_loop _ _ _ _ _ _ _ _ _ _) as [[[b ss] es]|] eqn:E; [|done].
  apply loop_spec in E as (H1 & H2 & H3 & H4). cbn in H2, H3, H4. destruct es; [|done].
  destruct b as [b|]; [|done]. destruct (generate_bundle _ _ b) as [B'|] eqn:G; [|done]. intros [= <- <-].
  assert (Hok : Forall (fun r => is_ok r = true) (outcomes from1 st (ast_commands a))).
  { eapply report_nil; [done| |by symmetry]. intros es. apply outcomes_err. }
  split; [done|]. destruct (H4 Hok) as (ss' & -> & Hch). split; [done|]. exists b. done.
Qed.
Lemma base_err st from parent a es : from_ast_base digest from1 os st from parent a = BuildErr es ->
  Forall (fun r => is_panic r = false) (outcomes from1 st (ast_commands a)) /\ es <> [] /\
  es = report (line_meta from a) 0 (outcomes from1 st (ast_commands a)).
Proof.
  unfold from_ast_base. destruct (build_loop _ _ _ _ _ _ _ _ _ _) as [[[b ss] es']|] eqn:E; [|done].
  apply loop_spec in E as (H1 & H2 & H3 & H4). cbn in H3. destruct es' as [|e es'].
  - destruct b; [|done]. by destruct (generate_bundle _ _ _).
  - intros [= <-]. done.
Qed.
Lemma base_total st from parent a : (forall i, order_ok (os i)) -> Forall command_ok (ast_commands a) -> st_ok st ->
  Forall (fun r => is_panic r = false) (outcomes from1 st (ast_commands a)) -> (is_Some st \/ ast_commands a <> []) ->
  from_ast_base digest from1 os st from parent a <> BuildPanic.
Proof.
  intros Ho Hc Hs Hp Hne. unfold from_ast_base.
  destruct (loop_total (fun i => line_meta from a i) (ast_commands a) 0 st parent [] [] Ho Hc Hs Hp) as [[[b ss] es] E].
  unfold line_meta in E. rewrite E. apply loop_spec in E as (H1 & H2 & H3 & H4). cbn in H2, H3.
  destruct es; [|done].
  assert (Hok : Forall (fun r => is_ok r = true) (outcomes from1 st (ast_commands a))).
  { eapply report_nil; [done| |by symmetry]. intros es. apply outcomes_err. }
  assert (Hst : st_ok b). { subst b. by apply state_after_ok. }
  assert (Hb : is_Some b).
  { subst b. destruct (ast_commands a) as [|c cs]; [by destruct Hne|]. clear -Hok. cbn in *. apply Forall_cons in Hok as [H1 H2].
    destruct (apply_command from1 st c) as [b|es|]; [|done|done]. cbn in *. clear -H2. revert b H2. induction cs as [|c cs IH]; intros b H2; [by eexists|].
    cbn in *. apply Forall_cons in H2 as [H1 H2]. destruct (apply_command from1 (Some b) c); [|done|done]. by apply IH. }
  destruct Hb as [bx ->]. destruct (C02_proof (os (length (ast_commands a))) (Ho _) digest bx) as (B & -> & _); [by apply api_box_ok, Hst|]. done.
Qed.
End Run.
