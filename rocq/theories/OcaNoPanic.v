(** Where the reader of OCAfiles can panic. *)
From Coq Require Import Lia.
From Verif Require Export OcaShape.
From Verif Require AstValidator_proofs.

(** A part of the text in braces that contains a backslash. *)
Definition braced_backslash (t : string) : Prop :=
  exists pre body post, t = (pre +:+ "{" +:+ body +:+ "}" +:+ post)%string /\ ~ clean bsl body.
Lemma braced_within t s : within t s -> braced_backslash t -> braced_backslash s.
Proof.
  intros (a & b & ->) (pre & body & post & -> & H). exists (a +:+ pre)%string, body, (post +:+ b)%string. split; [|done].
  by rewrite !Condition_proofs.append_assoc.
Qed.

Section NoPanic.
Variable wide : ascii -> bool.
Notation W := (wft (g1 wide)).

Ltac kids H := let Hs := fresh "Hs" in let Hk := fresh "Hk" in let Hm := fresh "Hm" in
  match type of H with wft _ (Pair ?r ?c ?ts) =>
    destruct (wft_fits (g1 wide) no_forb r c ts _ H (clean_none c) ltac:(vm_compute; reflexivity)) as (Hs & Hk & Hm) end.
Ltac kids_clean H Hc := let Hs := fresh "Hs" in let Hk := fresh "Hk" in let Hm := fresh "Hm" in
  match type of H with wft _ (Pair ?r ?c ?ts) =>
    destruct (wft_fits (g1 wide) bsl r c ts _ H Hc ltac:(vm_compute; reflexivity)) as (Hs & Hk & Hm) end.
(** Splits [In r [r1; r2; ...]] into the cases. *)
Ltac cases H := cbn [In p_rule] in H; repeat (destruct H as [H|H]; [try (subst; clear H)|]); [..|destruct H].

Lemma string_quoted c ts : W (Pair Rstring c ts) -> exists t, quoted (Pair Rstring c ts) = Ok t.
Proof.
  intros H. kids H. unfold quoted. cbn [p_inner]. destruct (last ts) as [i|] eqn:E; [by eexists|]. apply last_None in E. by destruct (Hs eq_refl).
Qed.
Lemma inner_w p q : W p -> q ∈ p_inner p -> W q.
Proof. intros H Hq. pose proof (wft_inner _ _ H) as F. by eapply Forall_forall in F. Qed.
Lemma inner_within p q : W p -> q ∈ p_inner p -> within (p_text q) (p_text p).
Proof. intros H Hq. pose proof (wft_within _ _ H) as F. rewrite Forall_forall in F. by apply F. Qed.
Lemma kin (ts : list spair) q l : Forall (fun p : spair => In (p_rule p) l) ts -> q ∈ ts -> In (p_rule q) l.
Proof. intros H Hq. rewrite Forall_forall in H. by apply H. Qed.

Definition json_fine (p : spair) : Prop :=
  W p -> clean bsl (p_text p) ->
  match p_rule p with
  | Rjson_object => exists v, extract_json_object p = Ok v
  | Rjson_pair => forall kv, exists kv', ofold json_elem (p_inner p) kv = Ok kv'
  | Rjson_value => forall kv, exists kv', json_elem p kv = Ok kv'
  | _ => True
  end.
Lemma ofold_ok {A B} (f : A -> B -> outcome B) l b : (forall x b, x ∈ l -> exists b', f x b = Ok b') -> exists b', ofold f l b = Ok b'.
Proof.
  revert b. induction l as [|x l IH]; intros b H; [by eexists|]. cbn [ofold]. destruct (H x b ltac:(apply elem_of_list_here)) as [b' E].
  rewrite E. cbn [obind]. apply IH. intros y c Hy. apply H. by apply elem_of_list_further.
Qed.
Lemma json_all p : json_fine p.
Proof.
  induction p as [r t l IH] using pair_ind2. intros Hw Hc. cbn [p_rule p_inner p_text] in *.
  assert (IH' : forall q, q ∈ l -> json_fine q) by (intros q Hq; by eapply Forall_forall in IH).
  assert (Hin : forall q, q ∈ l -> W q /\ clean bsl (p_text q)).
  { intros q Hq. split; [by eapply inner_w|]. eapply clean_within; [|exact Hc]. by apply (inner_within (Pair r t l)). }
  destruct r; try done.
  - (* value *) intros kv. kids Hw. cbn [json_elem]. destruct l as [|[rv tv iv] l]; [by eexists|].
    pose proof (kin _ _ _ Hk ltac:(apply elem_of_list_here)) as Hr.
    destruct (Hin (Pair rv tv iv) ltac:(apply elem_of_list_here)) as [Wv Cv]. cases Hr.
    + destruct (string_quoted _ _ Wv) as [x ->]. by eexists.
    + destruct (IH' (Pair Rjson_object tv iv) ltac:(apply elem_of_list_here) Wv Cv) as [v E]. rewrite E. by eexists.
  - (* pair *) intros kv. kids_clean Hw Hc. apply ofold_ok. intros [re te ie] kv' He. pose proof (kin _ _ _ Hk He) as Hr.
    destruct (Hin _ He) as [We Ce]. cases Hr.
    + cbn [json_elem]. kids We. destruct (last ie) as [k|] eqn:El; [|apply last_None in El; by destruct (Hs0 eq_refl)].
      assert (Hi : k ∈ ie) by (apply last_Some_elem_of; exact El). pose proof (kin _ _ _ Hk0 Hi) as Hr. destruct k as [rk tk ik]. cases Hr.
      destruct (string_quoted tk ik) as [x ->]; [by apply (inner_w (Pair Rjson_key te ie))|]. by eexists.
    + apply (IH' _ He We Ce).
  - (* object *) rewrite extract_json_fold. kids_clean Hw Hc.
    destruct (ofold_ok json_pair_item l []) as [m E]; [|rewrite E; by eexists].
    intros [re te ie] acc He. pose proof (kin _ _ _ Hk He) as Hr. destruct (Hin _ He) as [We Ce].
    cbn [In p_rule] in Hr. assert (re = Rjson_pair) as -> by (destruct Hr as [Hr|[Hr|Hr]]; [done|done|destruct Hr]). cbn [json_pair_item].
    destruct (IH' _ He We Ce ("", VVal "")) as [kv' E]. cbn [p_inner] in E. rewrite E. by eexists.
Qed.

(** The text of an object starts and ends with a brace. *)
Lemma object_braces c ts : W (Pair Rjson_object c ts) -> exists body, c = ("{" +:+ body +:+ "}")%string.
Proof.
  intros H. inversion H as [r m b s c' ts' rest Hg He Hw Hi]; subst. cbn in Hg. injection Hg as <- <-. cbn [rinside] in He.
  inversion He as [| | | | | | | | |a1 e1 e2 s1 c1 t1 r1 c2 t2 r2 E1 E2| | | | | | | | | | | |]; subst.
  inversion E1; subst. pose proof (strip_eq _ _ _ _ H4) as ->.
  inversion E2 as [| | | | | | | | |a2 e3 e4 s2 c3 t3 r3 c4 t4 r4 E3 E4| | | | | | | | | | | |]; subst.
  inversion E4 as [| | | | | | | | |a3 e5 e6 s3 c5 t5 r5 c6 t6 r6 E5 E6| | | | | | | | | | | |]; subst.
  inversion E6; subst. pose proof (strip_eq _ _ _ _ H5) as ->. exists (c3 +:+ c5)%string. by rewrite !Condition_proofs.append_assoc.
Qed.
Lemma json_panic c ts : W (Pair Rjson_object c ts) -> extract_json_object (Pair Rjson_object c ts) = Panic -> braced_backslash c.
Proof.
  intros H E. destruct (object_braces _ _ H) as [body ->]. exists "", body, "". split; [by rewrite Condition_proofs.append_nil_r|].
  intros Hc. destruct (json_all _ H) as [v E']; cbn [p_text].
  - rewrite !clean_app. split_and!; done.
  - rewrite E in E'. done.
Qed.

Lemma text_value_ok item n : W n -> exists v, text_value item n = Ok v.
Proof.
  intros H. unfold text_value. destruct n as [rn tn nn]; destruct rn; cbn [p_rule]; try (by eexists). destruct (string_quoted _ _ H) as [t ->]. by eexists.
Qed.
Lemma code_list_ok l : Forall W l -> Forall (fun p : spair => In (p_rule p) [Rstring; Rstring]) l -> exists v, code_list l = Ok v.
Proof.
  induction l as [|[r t i] l IH]; intros Hw Hr; [by eexists|]. inversion Hw; subst. inversion Hr as [|? ? Hp Hr']; subst. cbn [p_rule In] in Hp.
  assert (r = Rstring) as -> by (destruct Hp as [Hp|[Hp|Hp]]; [done|done|destruct Hp]). cbn [code_list p_rule].
  destruct (string_quoted _ _ H1) as [x ->]. cbn [obind]. destruct (IH H2 Hr') as [v ->]. by eexists.
Qed.
Lemma insert_panic l : forall acc, insert_kvs l acc = Panic -> exists p, p ∈ l /\ extract_kv p = Panic.
Proof.
  induction l as [|p l IH]; intros acc H; [done|]. cbn [insert_kvs] in H. apply obind_panic in H as [H|(kv & _ & H)].
  - exists p. split; [apply elem_of_list_here|done].
  - apply IH in H as (q & Hq & E). exists q. split; [by apply elem_of_list_further|done].
Qed.
(** The inner pair of an ENTRY_CODE or ENTRY object. *)
Lemma group_pair_ok r c ts : W (Pair r c ts) -> r = Rentry_code_key_value_pair \/ r = Rentry_key_value_pair -> extract_kv (Pair r c ts) <> Panic.
Proof.
  intros H Hr E. rewrite extract_kv_fold in E. apply ofold_panic in E as ([ri ti ii] & kv & Hi & E).
  pose proof (inner_w _ _ H Hi) as Wi. destruct Hr as [-> | ->]; kids H; pose proof (kin _ _ _ Hk Hi) as Hr; cases Hr; cbn [kv_item] in E.
  - destruct ii as [|[rn tn nn] ii]; [done|]. pose proof (inner_w _ _ Wi (elem_of_list_here _ _)) as Wn. cbn [p_rule] in E. destruct rn; try done.
    destruct (string_quoted _ _ Wn) as [x Ex]. by rewrite Ex in E.
  - kids Wi. destruct (code_list_ok ii (wft_inner _ _ Wi) Hk0) as [v Ev]. by rewrite Ev in E.
  - destruct ii as [|[rn tn nn] ii]; [done|]. pose proof (inner_w _ _ Wi (elem_of_list_here _ _)) as Wn. cbn [p_rule] in E. destruct rn; try done.
    destruct (string_quoted _ _ Wn) as [x Ex]. by rewrite Ex in E.
  - destruct ii as [|[rn tn nn] ii]; [done|]. pose proof (inner_w _ _ Wi (elem_of_list_here _ _)) as Wn. cbn [p_rule] in E. destruct rn; try done.
    destruct (string_quoted _ _ Wn) as [x Ex]. by rewrite Ex in E.
Qed.
Lemma groups_ok r c ts acc : W (Pair r c ts) -> r = Rentry_code_object \/ r = Rentry_object -> insert_kvs ts acc <> Panic.
Proof.
  intros H Hr E. apply insert_panic in E as ([ri ti ii] & Hi & E). pose proof (inner_w _ _ H Hi) as Wi. revert E.
  destruct Hr as [-> | ->]; kids H; pose proof (kin _ _ _ Hk Hi) as Hr; cases Hr; apply group_pair_ok; auto.
Qed.
(** The pairs listed under ATTRS and PROPS, and what may stand between them. *)
Definition kv_rules : list srule :=
  [Rkey_pair; Runit_key_pair; Rentry_code_key_pair; Rentry_key_pair; Rattr_framing_key_pair; Rframing_metadata_pair; Rcomment; Rempty_line].
Lemma kv_panic r c ts : W (Pair r c ts) -> In r kv_rules -> extract_kv (Pair r c ts) = Panic -> braced_backslash c.
Proof.
  intros H Hr E. rewrite extract_kv_fold in E. apply ofold_panic in E as ([ri ti ii] & kv & Hi & E).
  pose proof (inner_w _ _ H Hi) as Wi. pose proof (inner_within _ _ H Hi) as Hin. cbn [p_text] in Hin.
  assert (T : forall n l item, ii = n :: l -> exists v, text_value item n = Ok v).
  { intros n l item ->. apply text_value_ok. apply (inner_w _ _ Wi). apply elem_of_list_here. }
  unfold kv_rules in Hr. cases Hr; kids H; try (pose proof (kin _ _ _ Hk Hi) as Hr; cases Hr); cbn [kv_item] in E; try done.
  - destruct ii as [|n ii]; [done|]. destruct (T n ii (Pair Rkey_value ti (n :: ii)) eq_refl) as [v Ev]. by rewrite Ev in E.
  - destruct ii as [|n ii]; [done|]. destruct (T n ii (Pair Runit_value ti (n :: ii)) eq_refl) as [v Ev]. by rewrite Ev in E.
  - destruct ii as [|[rn tn nn] ii]; [done|]. kids Wi. pose proof (inner_w _ _ Wi (elem_of_list_here _ _)) as Wn.
    pose proof (kin _ _ _ Hk0 (elem_of_list_here _ _)) as Hr. cases Hr.
    + destruct nn as [|n nn]; [done|]. destruct (text_value_ok (Pair Rentry_code_key_value ti (Pair Rkey_value tn (n :: nn) :: ii)) n) as [v Ev]; [|by rewrite Ev in E].
      apply (inner_w _ _ Wn). apply elem_of_list_here.
    + kids Wn. destruct (code_list_ok nn (wft_inner _ _ Wn) Hk1) as [v Ev]. by rewrite Ev in E.
    + apply obind_panic in E as [E|(m & _ & E)]; [|done]. exfalso. revert E. apply (groups_ok _ _ _ _ Wn). by left.
  - destruct ii as [|[rn tn nn] ii]; [done|]. kids Wi. pose proof (inner_w _ _ Wi (elem_of_list_here _ _)) as Wn.
    pose proof (kin _ _ _ Hk0 (elem_of_list_here _ _)) as Hr. cases Hr.
    + destruct nn as [|n nn]; [done|]. destruct (text_value_ok (Pair Rentry_key_value ti (Pair Rkey_value tn (n :: nn) :: ii)) n) as [v Ev]; [|by rewrite Ev in E].
      apply (inner_w _ _ Wn). apply elem_of_list_here.
    + apply obind_panic in E as [E|(m & _ & E)]; [|done]. exfalso. revert E. apply (groups_ok _ _ _ _ Wn). by right.
  - apply obind_panic in E as [E|(m & _ & E)]; [|done]. eapply braced_within; [exact Hin|]. by eapply json_panic.
  - destruct ii as [|n ii]; [done|]. destruct (T n ii (Pair Rframing_metadata_value ti (n :: ii)) eq_refl) as [v Ev]. by rewrite Ev in E.
Qed.
Definition table_rules : list srule :=
  [Rattr_key_pairs; Rprop_key_pairs; Runit_attr_key_pairs; Rattr_entry_code_key_pairs; Rattr_entry_key_pairs; Rattr_framing_key_pairs; Rframing_metadata].
Lemma table_panic r c ts acc : W (Pair r c ts) -> In r table_rules -> insert_kvs ts acc = Panic -> braced_backslash c.
Proof.
  intros H Hr E. apply insert_panic in E as ([ri ti ii] & Hi & E). pose proof (inner_w _ _ H Hi) as Wi. pose proof (inner_within _ _ H Hi) as Hin. cbn [p_text] in Hin.
  eapply braced_within; [exact Hin|]. apply (kv_panic ri ti ii Wi); [|exact E].
  unfold table_rules in Hr. cases Hr; kids H; pose proof (kin _ _ _ Hk Hi) as Hr; cases Hr; unfold kv_rules; cbn [In]; tauto.
Qed.
Lemma attrs_panic l : Forall W l -> forall acc, content_attrs l acc = Panic -> exists p, p ∈ l /\ braced_backslash (p_text p).
Proof.
  induction 1 as [|[r t i] l Hw _ IH]; intros acc E; [done|].
  assert (Later : forall acc', content_attrs l acc' = Panic -> exists p, p ∈ Pair r t i :: l /\ braced_backslash (p_text p)).
  { intros acc' E'. destruct (IH _ E') as (q & Hq & B). exists q. split; [by apply elem_of_list_further|done]. }
  assert (Here : forall acc', In r table_rules -> (let! a := insert_kvs i acc' in content_attrs l a) = Panic -> exists p, p ∈ Pair r t i :: l /\ braced_backslash (p_text p)).
  { intros acc' Hr E'. apply obind_panic in E' as [E'|(a & _ & E')]; [|by eapply Later]. eexists. split; [apply elem_of_list_here|]. by eapply table_panic. }
  destruct r; cbn [content_attrs] in E; try (by eapply Later); (eapply Here; [|exact E]); unfold table_rules; cbn [In]; tauto.
Qed.
Lemma props_panic said_ok l : Forall W l -> forall acc, content_props said_ok l acc = Panic -> exists p, p ∈ l /\ braced_backslash (p_text p).
Proof.
  induction 1 as [|[r t i] l Hw _ IH]; intros acc E; [done|].
  assert (Later : forall acc', content_props said_ok l acc' = Panic -> exists p, p ∈ Pair r t i :: l /\ braced_backslash (p_text p)).
  { intros acc' E'. destruct (IH _ E') as (q & Hq & B). exists q. split; [by apply elem_of_list_further|done]. }
  assert (Here : forall acc', In r table_rules -> (let! a := insert_kvs i acc' in content_props said_ok l a) = Panic -> exists p, p ∈ Pair r t i :: l /\ braced_backslash (p_text p)).
  { intros acc' Hr E'. apply obind_panic in E' as [E'|(a & _ & E')]; [|by eapply Later]. eexists. split; [apply elem_of_list_here|]. by eapply table_panic. }
  destruct r; cbn [content_props] in E; try (by eapply Later); (eapply Here; [|exact E]); unfold table_rules; cbn [In]; tauto.
Qed.
Lemma content_panic said_ok p : W p -> extract_content said_ok p = Panic -> braced_backslash (p_text p).
Proof.
  intros H E. unfold extract_content in E. pose proof (wft_inner _ _ H) as Hw.
  assert (X : exists q, q ∈ p_inner p /\ braced_backslash (p_text q)).
  { apply obind_panic in E as [E|(ps & _ & E)]; [by eapply props_panic|]. apply obind_panic in E as [E|(ats & _ & E)]; [by eapply attrs_panic|done]. }
  destruct X as (q & Hq & B). eapply braced_within; [|exact B]. by apply (inner_within p).
Qed.

Lemma attr_type_ok said_ok p : extract_attr_type said_ok p <> Panic.
Proof.
  induction p as [r t l IH] using pair_ind2. intros E. destruct r; cbn [extract_attr_type] in E; try done.
  - by destruct (attr_type_parse t).
  - destruct l as [|q l]; [done|]. inversion IH; subst. apply obind_panic in E as [E|(a & _ & E)]; [done|done].
  - by destruct (said_ok t).
Qed.
Lemma attribute_ok said_ok p : extract_attribute said_ok p <> Panic.
Proof.
  unfold extract_attribute. generalize ""%string, (NVal TText). induction (p_inner p) as [|[r t i] l IH]; intros k a E; [done|].
  destruct r; cbn [attribute_items] in E; try done; try (by eapply IH). destruct i as [|q i]; [done|]. apply obind_panic in E as [E|(x & _ & E)]; [|by eapply IH].
  by apply attr_type_ok in E.
Qed.
Lemma insert_attrs_ok said_ok l : forall acc, insert_attrs said_ok l acc <> Panic.
Proof.
  induction l as [|p l IH]; intros acc E; [done|]. cbn [insert_attrs] in E. apply obind_panic in E as [E|(x & _ & E)]; [by apply attribute_ok in E|by eapply IH].
Qed.
Lemma attribute_pairs_ok said_ok l : forall acc, attribute_pairs said_ok l acc <> Panic.
Proof.
  induction l as [|[r t i] l IH]; intros acc E; [done|]. destruct r; cbn [attribute_pairs] in E; try done. apply obind_panic in E as [E|(x & _ & E)]; [by apply insert_attrs_ok in E|by eapply IH].
Qed.

(** The last token below ADD, REMOVE and FROM is the object. *)
Lemma last_object at_ a b x s c ts rest n mu l : ev (g1 wide) at_ (PSeq a (PSeq b x)) s (Some (c, ts, rest)) -> emit (g1 wide) no_forb n at_ x = Some (May true mu l) ->
  exists p, p ∈ ts /\ In (p_rule p) l.
Proof.
  intros H Hx. inversion H as [| | | | | | | | |a1 e1 e2 s1 c1 t1 r1 c2 t2 r2 E1 E2| | | | | | | | | | | |]; subst.
  inversion E2 as [| | | | | | | | |a2 e3 e4 s2 c3 t3 r3 c4 t4 r4 E3 E4| | | | | | | | | | | |]; subst.
  destruct (emit_sound _ no_forb _ _ _ _ E4 _ _ _ _ _ eq_refl Hx (clean_none _)) as (Hs & Hk & _).
  destruct t4 as [|p t4]; [by destruct (Hs eq_refl)|]. exists p. split; [|by inversion Hk].
  rewrite !elem_of_app. right. right. apply elem_of_list_here.
Qed.
Lemma rule_object r c ts a b x m n mu l : g1 wide r = (m, PSeq a (PSeq b x)) -> rinside m false = false -> emit (g1 wide) no_forb n false x = Some (May true mu l) ->
  W (Pair r c ts) -> exists p, p ∈ ts /\ In (p_rule p) l.
Proof.
  intros Hg Hm Hx H. inversion H as [r' m' b' s c' ts' rest Hg' He Hw Hi]; subst. rewrite Hg in Hg'. injection Hg' as <- <-. rewrite Hm in He. by eapply last_object.
Qed.

Lemma add_none said_ok l : forall o, add_objects said_ok l o = Ok None -> o = None /\ Forall (fun p : spair => p_rule p = Rcomment) l.
Proof.
  induction l as [|[r t i] l IH]; intros o E; [cbn in E; by injection E as ->|].
  assert (Some' : forall x, add_objects said_ok l (Some x) <> Ok None) by (intros x E'; by destruct (IH _ E')).
  destruct r; cbn [add_objects overlay_rule] in E; try done;
    try (match type of E with obind ?x _ = _ => destruct x; cbn [obind] in E; try done end; by apply Some' in E);
    try (by apply Some' in E).
  - apply IH in E as [-> H]. split; [done|]. by constructor.
  - destruct i; [done|]. by apply Some' in E.
Qed.
Lemma add_objects_panic said_ok l : Forall W l -> forall o, add_objects said_ok l o = Panic -> exists p, p ∈ l /\ braced_backslash (p_text p).
Proof.
  induction 1 as [|p l Hw Hl IH]; intros o E; [done|].
  assert (Later : forall o, add_objects said_ok l o = Panic -> exists q, q ∈ p :: l /\ braced_backslash (p_text q)).
  { intros o' E'. destruct (IH _ E') as (q & Hq & B). exists q. split; [by apply elem_of_list_further|done]. }
  assert (Over : forall t, (let! c := extract_content said_ok p in add_objects said_ok l (Some (OOverlay t c))) = Panic -> exists q, q ∈ p :: l /\ braced_backslash (p_text q)).
  { intros t' E'. apply obind_panic in E' as [E'|(a & _ & E')]; [|by eapply Later]. exists p. split; [apply elem_of_list_here|]. by eapply content_panic. }
  destruct p as [r t i]. destruct r; cbn [add_objects overlay_rule] in E; try done; try (by eapply Later); try (by eapply Over).
  - kids Hw. destruct i as [|q i]; [by destruct (Hs eq_refl)|by eapply Later].
  - apply obind_panic in E as [E|(a & _ & E)]; [|by eapply Later]. by apply attribute_pairs_ok in E.
Qed.
Lemma add_panic said_ok c ts : W (Pair Radd c ts) -> add_instruction said_ok (Pair Radd c ts) = Panic -> braced_backslash c.
Proof.
  intros H E. unfold add_instruction in E. cbn [p_inner] in E. apply obind_panic in E as [E|(o & E & E')].
  - apply add_objects_panic in E as (p & Hp & B); [|apply (wft_inner _ _ H)]. eapply braced_within; [|exact B]. by apply (inner_within (Pair Radd c ts)).
  - destruct o as [o|]; [done|]. exfalso. apply add_none in E as [_ E].
    destruct (rule_object Radd c ts _ _ _ _ 6 _ _ eq_refl eq_refl ltac:(vm_compute; reflexivity) H) as (p & Hp & Hr).
    rewrite Forall_forall in E. rewrite (E p Hp) in Hr. cbn [In] in Hr. repeat (destruct Hr as [Hr|Hr]; [discriminate Hr|]). destruct Hr.
Qed.
Lemma remove_ok c ts : W (Pair Rremove c ts) -> remove_instruction (Pair Rremove c ts) <> Panic.
Proof.
  intros H E. unfold remove_instruction in E. cbn [p_inner] in E.
  assert (Total : forall l o, remove_objects l o <> Panic).
  { clear. induction l as [|[r t i] l IH]; intros o E; [done|]. destruct r; cbn [remove_objects] in E; try done; by apply IH in E. }
  assert (NotNone : forall l o, remove_objects l o = Ok None -> l = []).
  { clear. intros l. assert (A : forall l x, remove_objects l (Some x) <> Ok None).
    { clear. induction l as [|[r t i] l IH]; intros x E; [done|]. destruct r; cbn [remove_objects] in E; try done; by apply IH in E. }
    intros o E. destruct l as [|[r t i] l]; [done|]. destruct r; cbn [remove_objects] in E; try done; by apply A in E. }
  kids H. apply obind_panic in E as [E|(o & E & E')]; [by apply Total in E|]. destruct o as [o|]; [done|]. apply NotNone in E. by apply Hs.
Qed.
Lemma from_ok said_ok c ts : W (Pair Rfrom c ts) -> from_instruction said_ok (Pair Rfrom c ts) <> Panic.
Proof.
  intros H E. unfold from_instruction in E. cbn [p_inner] in E. kids H.
  assert (A : forall l o, from_field l o <> Panic). { clear. induction l as [|[r t i] l IH]; intros o E; [done|]. destruct r; cbn [from_field] in E; try done; by apply IH in E. }
  apply obind_panic in E as [E|(o & E & E')]; [by apply A in E|]. destruct o as [t|]; [by destruct (said_ok t)|].
  destruct ts as [|[r t i] ts]; [by apply Hs|]. pose proof (kin _ _ _ Hk (elem_of_list_here _ _)) as Hr. cbn [In p_rule] in Hr. assert (r = Rfrom_said) as -> by (destruct Hr as [Hr|Hr]; [done|destruct Hr]).
  cbn [from_field] in E.
  assert (B : forall l x, from_field l (Some x) <> Ok None). { clear. induction l as [|[r t i] l IH]; intros o E; [done|]. destruct r; cbn [from_field] in E; try done; by apply IH in E. }
  by apply B in E.
Qed.
Lemma instruction_panic said_ok p : W p -> instruction said_ok p = Panic -> braced_backslash (p_text p).
Proof.
  intros H E. destruct p as [r c ts]. unfold instruction in E. cbn [p_rule p_text] in *. destruct r; try done.
  - by apply from_ok in E.
  - by eapply add_panic.
  - by apply remove_ok in E.
Qed.
Lemma meta_line_ok p : meta_line p <> Panic.
Proof.
  assert (A : forall l k v, meta_items l k v <> Panic). { clear. induction l as [|[r t i] l IH]; intros k v E; [done|]. destruct r; cbn [meta_items] in E; try done; by apply IH in E. }
  intros E. unfold meta_line in E. apply obind_panic in E as [E|(kv & _ & E)]; [by apply A in E|]. by destruct (String.eqb kv.1 ""), (String.eqb kv.2 "").
Qed.
Lemma validate_never a c : ast_validate a c <> Panic.
Proof. destruct (AstValidator_proofs.validate_total a c) as [H|[es H]]; rewrite H; discriminate. Qed.
Lemma lines_panic said_ok l : Forall W l -> forall n a, read_lines said_ok n l a = Panic -> exists p, p ∈ l /\ braced_backslash (p_text p).
Proof.
  induction 1 as [|p l Hw Hl IH]; intros n a E; [done|].
  assert (Later : forall n a, read_lines said_ok n l a = Panic -> exists q, q ∈ p :: l /\ braced_backslash (p_text q)).
  { intros n' a' E'. destruct (IH _ _ E') as (q & Hq & B). exists q. split; [by apply elem_of_list_further|done]. }
  assert (Cmd : (let! c := instruction said_ok p in let! _ := ast_validate a c in read_lines said_ok (S n) l (push_command a c (CmdMeta (S n) (p_text p)))) = Panic -> exists q, q ∈ p :: l /\ braced_backslash (p_text q)).
  { intros E'. apply obind_panic in E' as [E'|(c & _ & E')]; [exists p; split; [apply elem_of_list_here|by eapply instruction_panic]|].
    apply obind_panic in E' as [E'|(u & _ & E')]; [by apply validate_never in E'|by eapply Later]. }
  cbn [read_lines] in E. destruct (p_rule p); try (by apply Cmd); try (by eapply Later).
  apply obind_panic in E as [E|(kv & _ & E)]; [by apply meta_line_ok in E|by eapply Later].
Qed.
End NoPanic.

Lemma file_panic wide said_ok s : parse_ocafile wide said_ok s = Panic -> braced_backslash s.
Proof.
  unfold parse_ocafile. destruct (sparse wide Rfile s) as [| |c ts rest] eqn:E; try done.
  assert (V : ev (g1 wide) false (PRul Rfile) s (Some (c, ts, rest))).
  { destruct (sparse_unfold wide Rfile s) as (n & _ & En). rewrite En in E. apply ev_g1, (run_ev _ n). by rewrite E. }
  pose proof (ev_split _ _ _ _ _ _ _ V) as Hs. destruct (ev_wft _ _ _ _ _ V _ _ _ eq_refl) as [Hw Hin].
  destruct ts as [|f ts].
  - intros _. exfalso. destruct (emit_sound _ no_forb _ _ _ _ V 6 _ _ _ _ eq_refl ltac:(vm_compute; reflexivity) (clean_none _)) as [X _]. by apply X.
  - intros H. inversion Hw as [|? ? Hf _]; subst. inversion Hin as [|? ? Hif _]; subst. apply lines_panic with (wide := wide) in H as (p & Hp & B); [|by apply wft_inner].
    eapply braced_within; [|exact B]. eapply within_trans; [by eapply inner_within|]. by apply within_l.
Qed.
