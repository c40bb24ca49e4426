(** C39: flags through loads and commands. *)
From Verif Require Import Spec_Build Upd_proofs Effect_proofs Command_proofs Load_proofs Run_proofs Build_proofs Bundle_proofs Box_proofs.

Definition flagged (b : obox) (n : string) : Prop := box_flag b n = Some true.
Lemma flagged_alt b n : flagged b n <-> exists a, bx_attrs b !! n = Some a /\ at_flag a = true.
Proof.
  unfold flagged, box_flag. destruct (bx_attrs b !! n) as [a|]; cbn.
  - split; [intros [= H]; by exists a|]. intros (x & [= <-] & ->). done.
  - split; [done|]. by intros (x & ? & _).
Qed.

Section Load.
Variable o : order.
Hypothesis Ho : order_ok o.
Lemma load_flags_exact fl : forall m m', fold_left load_flag fl (Some m) = Some m' ->
  forall n, at_flag <$> m' !! n = (fun a => bool_decide (n ∈ fl) || at_flag a) <$> m !! n.
Proof.
  induction fl as [|x fl IH]; intros m m'; [intros [= <-] n; by destruct (m !! n)|]. cbn [fold_left load_flag].
  destruct (m !! x) as [a|] eqn:Ha; [|rewrite fold_none by done; done]. intros H n. rewrite (IH _ _ H).
  destruct (decide (x = n)) as [<-|Hne].
  - rewrite lookup_insert, Ha. cbn. f_equal. rewrite (bool_decide_eq_true_2 (x ∈ x :: fl)) by left. cbn. apply orb_true_r.
  - rewrite lookup_insert_ne by done. destruct (m !! n); [|done]. cbn. f_equal. f_equal. apply bool_decide_ext.
    split; [by right|]. intros [->|?]%elem_of_cons; done.
Qed.
Lemma load_flag_names fl : forall m m', fold_left load_flag fl (Some m) = Some m' -> forall n, n ∈ fl -> is_Some (m !! n).
Proof.
  induction fl as [|x fl IH]; intros m m'; [intros _ n H; by apply elem_of_nil in H|]. cbn [fold_left load_flag].
  destruct (m !! x) as [a|] eqn:Ha; [|rewrite fold_none by done; done]. intros H n [->|Hn]%elem_of_cons; [by eexists|].
  pose proof (IH _ _ H n Hn) as G. destruct (decide (x = n)) as [<-|Hne]; [by eexists|]. by rewrite lookup_insert_ne in G.
Qed.
Lemma load_flagged B bx : load o B = Some bx -> forall n, flagged bx n <-> n ∈ cb_flagged (b_cb B).
Proof.
  intros H n. apply (load_parts o Ho) in H as (m & E & H & _). rewrite flagged_alt, H. clear H. revert E. unfold load_attrs.
  fold (typed_attrs (cb_attrs (b_cb B))).
  destruct (fold_left load_flag (cb_flagged (b_cb B)) (Some (typed_attrs (cb_attrs (b_cb B))))) as [m1|] eqn:E;
    [|rewrite fold_none by apply load_kind_none; done].
  pose proof (load_flags_exact _ _ _ E) as F. pose proof (load_flag_names _ _ _ E) as N. clear E.
  assert (T : forall n a, typed_attrs (cb_attrs (b_cb B)) !! n = Some a -> at_flag a = false).
  { unfold typed_attrs. enough (G : forall l (acc : gmap string attribute), (forall n a, acc !! n = Some a -> at_flag a = false) ->
      forall n a, fold_left (fun m (kv : string * nattr) => <[kv.1 := set_type kv.2 (attr_new kv.1)]> m) l acc !! n = Some a -> at_flag a = false).
    { apply G. intros ? ?. by rewrite lookup_empty. }
    induction l as [|[k t] l IH]; intros acc Hacc; [done|]. cbn. apply IH. intros x b Hx. apply lookup_insert_Some in Hx as [[<- <-]|[_ Hx]]; [done|by apply (Hacc x)]. }
  intros H. apply (load_kinds_inv o (fun n a => at_flag a = bool_decide (n ∈ cb_flagged (b_cb B)))) in H as [G1 G2].
  - split.
    + intros (a & Ha & Hf). apply G1 in Ha. rewrite Hf in Ha. by apply eq_sym, bool_decide_eq_true in Ha.
    + intros Hn. destruct (proj2 (G2 n)) as [a Ha].
      * pose proof (F n) as Fn. destruct (N n Hn) as [x Hx]. rewrite Hx in Fn. cbn in Fn. destruct (m1 !! n); [by eexists|done].
      * exists a. split; [done|]. rewrite (G1 n a Ha). by apply bool_decide_eq_true.
  - intros x a u _ <-. by destruct u.
  - intros x a Ha. pose proof (F x) as Fx. rewrite Ha in Fx. cbn in Fx. destruct (typed_attrs (cb_attrs (b_cb B)) !! x) as [y|] eqn:Ey; [|done].
    cbn in Fx. injection Fx as Fx. rewrite Fx, (T x y Ey). apply orb_false_r.
Qed.
End Load.

Section Run.
Variable from1 : string -> option string.
Lemma apply_flags st b' c : command_ok c -> box_ok (unwrap_or box_new st) -> apply_command from1 st c = Ok b' ->
  forall n, flagged b' n <-> flagged (unwrap_or box_new st) n /\ ~ removes n c.
Proof.
  unfold apply_command. generalize (unwrap_or box_new st) as b. intros b Hc Hb.
  destruct c as [[] [cc|bc|t ct]]; unfold flagged; cbn [cmd_kind cmd_obj]; try done.
  - intros [= <-] n. destruct Hc as [Ha Hp]. cbn in Ha, Hp. unfold add_capture, box_flag.
    set (b1 := fold_left _ (unwrap_or [] (cc_attrs cc)) b).
    destruct (add_capture_attrs (unwrap_or [] (cc_attrs cc)) b) as (H1 & H2 & H3 & H4);
      [by apply box_ok_names|destruct (cc_attrs cc); cbn; [by apply Ha|constructor]|]. fold b1 in H1, H2, H3, H4.
    destruct (add_capture_class (unwrap_or [] (cc_props cc)) b1) as (-> & _); [destruct (cc_props cc) as [p|]; cbn; [by apply (Hp p)|constructor]|].
    rewrite H4. assert (~ removes n (Command CAdd (OCaptureBase cc))) by (by intros (? & ? & ? & _)).
    destruct (imap_get n (unwrap_or [] (cc_attrs cc))) as [ty|]; [|tauto].
    destruct (bx_attrs b !! n) as [a|]; cbn; [tauto|]. split; [intros [=]|intros [[=] _]].
  - intros H n. destruct Hc as [Ha Hp]. cbn in Ha, Hp.
    assert (~ removes n (Command CAdd (OOverlay t ct))) by (by intros (? & ? & ? & _)).
    enough (E : box_flag b' n = box_flag b n) by (rewrite E; tauto).
    destruct (decide (ot_kind t = KMeta)) as [Hk|Hk].
    + rewrite Hk in H. apply meta_effect in H as (H1 & _); [|done]. unfold box_flag. by rewrite H1.
    + apply overlay_rest in H as (_ & _ & _ & _ & H & _); [|done..]. by rewrite H.
  - intros [= <-] n. unfold remove_capture, box_flag.
    set (b1 := fold_left _ (unwrap_or [] (cc_attrs cc)) b).
    destruct (remove_capture_attrs (unwrap_or [] (cc_attrs cc)) b) as (H1 & H2 & H3 & H4). fold b1 in H1, H2, H3, H4.
    destruct (remove_capture_class (unwrap_or [] (cc_props cc)) b1) as (-> & _).
    rewrite H4. case_decide as Hin.
    + cbn. split; [done|]. intros [_ Hr]. exfalso. apply Hr. destruct (cc_attrs cc) as [l|] eqn:El; [|by apply elem_of_nil in Hin].
      exists cc, l. done.
    + assert (~ removes n (Command CRemove (OCaptureBase cc))); [|tauto].
      intros (cc' & l & [= <-] & El & Hl). apply Hin. by rewrite El.
Qed.
Lemma run_flags cs : forall st, Forall command_ok cs -> st_ok st -> Forall (fun r => is_ok r = true) (outcomes from1 st cs) ->
  forall n, flagged (unwrap_or box_new (state_after from1 st cs)) n <-> flagged (unwrap_or box_new st) n /\ forall c, c ∈ cs -> ~ removes n c.
Proof.
  induction cs as [|c cs IH]; intros st Hc Hs Ho n.
  { cbn. split; [|tauto]. intros H. split; [done|]. intros c Hc'. by apply elem_of_nil in Hc'. }
  apply Forall_cons in Hc as [H1 H2]. cbn in Ho. apply Forall_cons in Ho as [Ho1 Ho2].
  change (state_after from1 st (c :: cs)) with (state_after from1 (after st (apply_command from1 st c)) cs). rewrite IH; [|done|by apply after_ok|done].
  destruct (apply_command from1 st c) as [b'|es|] eqn:E; [|done|done]. cbn [after unwrap_or].
  rewrite (apply_flags st b' c H1 (st_box_ok st Hs) E n). split.
  - intros [[G1 G2] G3]. split; [done|]. intros x [->|Hx]%elem_of_cons; auto.
  - intros [G1 G2]. split; [split; [done|]|]; [apply G2; left|]. intros x Hx. apply G2. by right.
Qed.
Variable digest : json -> string.
Variable os : nat -> order.
Hypothesis Hos : forall i, order_ok (os i).
Lemma C39_flags from a B steps : Forall command_ok (ast_commands a) -> from_ast digest from1 os from a = BuildOk B steps ->
  forall n, n ∈ cb_flagged (b_cb B) <-> n ∈ base_flags from /\ forall c, c ∈ ast_commands a -> ~ removes n c.
Proof.
  intros Hc H n. destruct (base_of_some digest from1 os from a _ H) as [st Hb]; [done|].
  assert (Hok := base_of_ok os Hos from a st Hb).
  rewrite (from_ast_base_of digest from1 os from a st Hb) in H. apply base_ok in H as (H1 & _ & b & H2 & H3).
  assert (Hb' : api_box b). { apply (state_after_ok from1 (ast_commands a) st Hc Hok). done. }
  destruct (C02_proof _ (Hos (length (ast_commands a))) digest b (api_box_ok b Hb')) as (B2 & G2 & R). rewrite H3 in G2. injection G2 as <-.
  rewrite (br_flags b B R), <- flagged_alt. pose proof (run_flags (ast_commands a) st Hc Hok H1 n) as T. rewrite H2 in T. cbn in T. rewrite T.
  enough (E : flagged (unwrap_or box_new st) n <-> n ∈ base_flags from) by by rewrite E.
  destruct Hb as [|B0 b0 Hl]; cbn [unwrap_or base_flags]; [split; [done|by intros ?%elem_of_nil]|].
  by eapply load_flagged.
Qed.
End Run.
