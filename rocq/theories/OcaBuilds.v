(** Building what was read: when it can panic. *)
From Verif Require Export Spec_Read Spec_Build.
From Verif Require Import Facade Upd_proofs Effect_proofs Command_proofs Load_proofs Run_proofs Spec_Refs Props_Refs.
From Verif Require AstValidator_proofs.

(** ** Read commands have maps without repeated keys *)
Lemma plain_ok v : plain_form v -> nvalue_ok v.
Proof. by intros [s ->]. Qed.
Lemma all_plain l : Forall plain_form l -> nvalue_ok (VArr l).
Proof. intros H. cbn. induction H as [|x l Hx Hl IH]; [done|]. split; [by apply plain_ok|exact IH]. Qed.
Lemma obj_ok m : NoDup (map fst m) -> Forall (fun kv => nvalue_ok kv.2) m -> nvalue_ok (VObj m).
Proof. intros Hn H. cbn. split; [done|]. clear Hn. induction H as [|x l Hx Hl IH]; [done|]. split; [done|exact IH]. Qed.
Lemma codes_value_ok v : codes_form v -> nvalue_ok v.
Proof.
  intros [H|[(l & -> & H)|(m & -> & Hn & H)]]; [by apply plain_ok|by apply all_plain|]. apply obj_ok; [done|]. eapply Forall_impl; [exact H|].
  intros kv [_ (l & -> & Hl)]. by apply all_plain.
Qed.
Lemma entries_value_ok v : entries_form v -> nvalue_ok v.
Proof.
  intros [H|(m & -> & Hn & H)]; [by apply plain_ok|]. apply obj_ok; [done|]. eapply Forall_impl; [exact H|]. intros kv [_ Hl]. by apply plain_ok.
Qed.
Lemma json_value_ok : forall v, json_form v -> nvalue_ok v.
Proof.
  fix IH 2. intros v H. destruct H as [s|m Hn H]; [exact I|]. apply obj_ok; [exact Hn|].
  clear Hn. revert m H. fix IHm 2. intros m H. destruct H as [|x l Hx Hl]; [constructor|]. constructor; [apply IH; destruct Hx as [_ Hx]; exact Hx|apply IHm; exact Hl].
Qed.
Lemma map_values (K : string -> Prop) (P : nvalue -> Prop) m : (forall v, P v -> nvalue_ok v) -> map_form K P m -> values_ok (Some m).
Proof.
  intros HP [Hn H] l [= <-]. split; [done|]. clear Hn. intros n v. induction H as [|[k w] m [_ Hw] Hm IH]; cbn [imap_get]; [done|].
  destruct (String.eqb n k); [|exact IH]. intros [= <-]. by apply HP.
Qed.
Lemma one_value k v : nvalue_ok v -> values_ok (Some [(k, v)]).
Proof. intros H l [= <-]. split; [apply NoDup_singleton|]. intros n w. cbn. destruct (String.eqb n k); [|done]. by intros [= <-]. Qed.
Lemma no_values : values_ok (Some []).
Proof. intros l [= <-]. split; [constructor|done]. Qed.
Lemma no_map : values_ok None.
Proof. by intros l. Qed.
Lemma readable_ok cont said_ok c : readable cont said_ok c -> command_ok c.
Proof.
  destruct 1; unfold command_ok; cbn [cmd_obj add_capture_command add_overlay_command cc_attrs cc_props ct_attrs ct_props]; try exact I; (split; [|]);
    try (by intros l0); try apply no_map; try apply no_values; try (by apply one_value); try (eapply map_values; [|eassumption]; intros v Hv).
  all: try (by apply plain_ok); try (by apply codes_value_ok); try (by apply entries_value_ok); try (by apply json_value_ok).
  - intros x [= <-]. apply H.
  - intros x [= <-]. apply H.
Qed.

(** ** Applying a read command *)
Section Apply.
Variable from1 : string -> option string.
Lemma lang_here ps l x : imap_get "lang" ps = Some (VVal l) -> from1 l = Some x -> lang_is from1 (Some ps) x.
Proof. intros H Hl. exists l. split; [by exists ps|done]. Qed.
Lemma needs_lang k ats ps l named : k ∈ [KMeta; KLabel; KInformation; KEntry] -> imap_get "lang" ps = Some (VVal l) -> (forall x, ~ lang_is from1 (Some ps) x) ->
  aborting from1 named (add_overlay_command k ats ps).
Proof.
  intros Hk Hl H. eapply abt_language; [exact Hk|exact Hl|]. destruct (from1 l) as [x|] eqn:E; [|done]. destruct (H x). by eapply lang_here.
Qed.
Lemma readable_aborts cont said_ok b c : names_ok b -> readable cont said_ok c -> apply_command from1 (Some b) c = Panic -> aborting from1 true c.
Proof.
  intros Hb Hr E. pose proof (readable_ok _ _ _ Hr) as Hc. apply apply_panics in E; [|done|done]. destruct E as [E|(t & ct & Ec & E)].
  - destruct Hr; try done; apply abt_remove.
  - assert (L1 : forall l : string, imap_get "lang" [("lang", VVal l)] = Some (VVal l)) by done.
    destruct Hr; try done; injection Ec as <- <-; cbn [ot_kind ct_props ct_attrs] in E;
      (destruct E as [(Ek & El & _)|(Ek & m & n & v & Em & _ & _ & Hl)]; [try discriminate Ek|]).
    + eapply needs_lang; [set_solver|exact H0|exact El].
    + by apply elem_of_list_In in Ek; cbn in Ek; repeat (destruct Ek as [Ek|Ek]; [discriminate Ek|]).
    + destruct H; congruence.
    + eapply needs_lang; [destruct H as [-> | ->]; set_solver|apply L1|]. inversion Hl; subst; try done; by destruct H.
    + eapply needs_lang; [set_solver|apply L1|]. by inversion Hl; subst.
    + subst k. apply elem_of_list_In in H. cbn in H. repeat (destruct H as [H|H]; [discriminate H|]). destruct H.
    + exfalso. apply elem_of_list_In in H. cbn in H. inversion Hl; subst.
      * apply elem_of_list_In in H1. cbn in H1. repeat (destruct H as [H|H]; [subst; repeat (destruct H1 as [H1|H1]; [discriminate H1|]); destruct H1|]). destruct H.
      * repeat (destruct H as [H|H]; [discriminate H|]). destruct H.
      * repeat (destruct H as [H|H]; [discriminate H|]). destruct H.
      * repeat (destruct H as [H|H]; [discriminate H|]). destruct H.
    + exfalso. inversion Hl; subst. apply elem_of_list_In in H0. cbn in H0. repeat (destruct H0 as [H0|H0]; [discriminate H0|]). destruct H0.
    + exfalso. inversion Hl; subst. apply elem_of_list_In in H0. cbn in H0. repeat (destruct H0 as [H0|H0]; [discriminate H0|]). destruct H0.
    + inversion Hl; subst. { apply elem_of_list_In in H1. cbn in H1. repeat (destruct H1 as [H1|H1]; [discriminate H1|]). destruct H1. }
      destruct r as [s'|nm]; [|by eapply abt_named_target]. destruct (H1 s'). by exists [("target", VRef (RSaid s'))].
    + by apply abt_no_target.
    + apply abt_no_frame_id. inversion Hl; subst. { apply elem_of_list_In in H1. cbn in H1. repeat (destruct H1 as [H1|H1]; [discriminate H1|]). destruct H1. }
      destruct (imap_get "id" ps) as [w|] eqn:Ew; [|done]. destruct H0 as [_ H0].
      assert (P : plain_form w). { clear -H0 Ew. induction H0 as [|[k' x] m [_ Hx] Hm IH]; cbn [imap_get] in Ew; [done|]. destruct (String.eqb "id" k'); [|by apply IH]. by injection Ew as <-. }
      destruct P as [s ->]. destruct (H1 s). by exists ps.
Qed.
End Apply.

(** ** Runs *)
Section Run.
Variable digest : json -> string.
Variable from1 : string -> option string.
Variable os : nat -> order.
Lemma run_aborts cs : forall st, Forall command_ok cs -> st_ok st -> ~ Forall (fun r => is_panic r = false) (outcomes from1 st cs) ->
  exists c b, c ∈ cs /\ names_ok b /\ apply_command from1 (Some b) c = Panic.
Proof.
  induction cs as [|c cs IH]; intros st Hc Hs H; cbn [outcomes] in H; [destruct H; constructor|]. inversion Hc as [|? ? Hc1 Hc2]; subst.
  destruct (apply_command from1 st c) as [b|e|] eqn:E.
  - destruct (IH (after st (Ok b))) as (c' & b' & Hin & X); [done|rewrite <- E; by apply after_ok|intros F; apply H; by constructor|]. exists c', b'. split; [by apply elem_of_list_further|done].
  - destruct (IH (after st (Err e))) as (c' & b' & Hin & X); [done|rewrite <- E; by apply after_ok|intros F; apply H; by constructor|]. exists c', b'. split; [by apply elem_of_list_further|done].
  - exists c, (unwrap_or box_new st). split; [apply elem_of_list_here|]. split; [by apply box_ok_names, st_box_ok|]. rewrite <- E. by destruct st.
Qed.
Lemma from_ast_aborts from a : (forall i, order_ok (os i)) -> Forall command_ok (ast_commands a) ->
  (forall B, from = Some B -> is_Some (load (os (S (length (ast_commands a)))) B)) -> from_ast digest from1 os from a = BuildPanic ->
  (from = None /\ ast_commands a = []) \/ exists c b, c ∈ ast_commands a /\ names_ok b /\ apply_command from1 (Some b) c = Panic.
Proof.
  intros Ho Hc Hf E.
  assert (G : forall st fr p, st_ok st -> is_Some st \/ ast_commands a <> [] -> from_ast_base digest from1 os st fr p a = BuildPanic ->
    exists c b, c ∈ ast_commands a /\ names_ok b /\ apply_command from1 (Some b) c = Panic).
  { intros st fr p Hs Hne E'. apply (run_aborts _ st Hc Hs). intros F. revert E'. by apply base_total. }
  destruct from as [B|]; cbn [from_ast] in E.
  - right. destruct (Hf B eq_refl) as [bx Hl]. rewrite Hl in E. eapply G; [|left|exact E]; [|by eexists]. intros b' [= <-]. by eapply load_api.
  - destruct (ast_commands a) as [|c cs] eqn:Ec; [by left|]. right. eapply G; [|right|exact E]; [|done]. by intros b'.
Qed.
End Run.

(** ** References by name *)
Section Resolved.
Variable from1 : string -> option string.
Variable said_ok : string -> bool.
Variable find : string -> option string.
Lemma resolve_keys l : forall l', resolve_attrs said_ok find l = Ok l' -> map fst l' = map fst l.
Proof.
  induction l as [|[k t] l IH]; intros l' E; cbn [resolve_attrs] in E; [by injection E as <-|].
  destruct (resolve_attr said_ok find t); cbn [obind] in E; [|done|done]. destruct (resolve_attrs said_ok find l) as [r| |]; cbn [obind] in E; [|done|done].
  injection E as <-. cbn. f_equal. by apply IH.
Qed.
Lemma resolved_name n r : resolve_name said_ok find n = Ok r -> exists s, r = RSaid s.
Proof. unfold resolve_name. destruct (find n); [|done]. destruct (said_ok s); [|done]. intros [= <-]. by eexists. Qed.
Lemma resolved_aborts cont c c' : readable cont said_ok c -> resolve_cmd said_ok find c = Ok c' ->
  command_ok c' /\ forall b, names_ok b -> apply_command from1 (Some b) c' = Panic -> aborting from1 false c.
Proof.
  intros Hr E. pose proof (readable_ok _ _ _ Hr) as Hc.
  assert (Same : c' = c -> (forall ats n, c <> add_overlay_command KLink ats [("target", VRef (RName n))]) ->
    command_ok c' /\ forall b, names_ok b -> apply_command from1 (Some b) c' = Panic -> aborting from1 false c).
  { intros -> Hn. split; [done|]. intros b Hb Hp. pose proof (readable_aborts from1 cont said_ok b c Hb Hr Hp) as Ha.
    destruct Ha as [t ct|k ats ps l Hk Hl Hf|ats ps Ht|ats ps n _ Ht|ats ps Hi]; try (by econstructor; eauto).
    exfalso. inversion Hr; subst; try done.
    cbn in Ht. injection Ht as ->. by eapply Hn. }
  destruct Hr; try (apply Same; [cbn in E; by injection E as <-|intros; discriminate]).
  - cbn [resolve_cmd add_capture_command] in E. destruct (resolve_attrs said_ok find l) as [l'| |] eqn:El; cbn [obind] in E; [|done|done]. injection E as <-.
    split; [|done]. split; [|by apply no_map]. intros x [= <-]. rewrite (resolve_keys _ _ El). apply H.
  - apply Same; [|intros; intros [=]; subst; by destruct H]. destruct H as [-> | ->]; cbn in E; by injection E as <-.
  - apply Same; [apply elem_of_list_In in H; cbn in H; repeat (destruct H as [<-|H]; [cbn in E; by injection E as <-|]); destruct H|].
    intros a n [= -> -> ?].
  - destruct r as [s|n].
    + apply Same; [cbn in E; by injection E as <-|]. intros a n [=].
    + change ((let! r := resolve_name said_ok find n in Ok (add_overlay_command KLink ats [("target", VRef r)])) = Ok c') in E.
      destruct (resolve_name said_ok find n) as [r| |] eqn:En; cbn [obind] in E; [|done|done]. injection E as <-. apply resolved_name in En as [s ->].
      split. { destruct Hc as [Ha _]. split; [exact Ha|]. by apply one_value. }
      intros b Hb Hp. exfalso.
      assert (Hr : readable cont (fun _ => true) (add_overlay_command KLink ats [("target", VRef (RSaid s))])) by (by apply rd_link).
      apply (readable_aborts from1 cont (fun _ => true) b) in Hp; [|done|exact Hr]. inversion Hp; subst; try done.
Qed.
Lemma resolve_list cont cs : Forall (readable cont said_ok) cs -> forall cs', resolve said_ok find cs = Ok cs' ->
  (cs' = [] -> cs = []) /\ Forall command_ok cs' /\ forall c' b, c' ∈ cs' -> names_ok b -> apply_command from1 (Some b) c' = Panic -> exists c, c ∈ cs /\ aborting from1 false c.
Proof.
  induction 1 as [|c cs Hr Hl IH]; intros cs' E; cbn [resolve] in E.
  { injection E as <-. split; [done|]. split; [constructor|]. intros c' b Hin. by apply elem_of_nil in Hin. }
  destruct (resolve_cmd said_ok find c) as [c1| |] eqn:E1; cbn [obind] in E; [|done|done]. destruct (resolve said_ok find cs) as [r| |] eqn:E2; cbn [obind] in E; [|done|done].
  injection E as <-. destruct (IH r eq_refl) as (_ & H2 & H3). destruct (resolved_aborts _ _ _ Hr E1) as [A B]. split; [done|]. split; [by constructor|].
  intros c' b Hin Hb Hp. apply elem_of_cons in Hin as [->|Hin].
  - exists c. split; [apply elem_of_list_here|by eapply B].
  - destruct (H3 c' b Hin Hb Hp) as (c2 & Hc2 & X). exists c2. split; [by apply elem_of_list_further|done].
Qed.
End Resolved.
