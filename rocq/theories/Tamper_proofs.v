(** The JSON of bundles determines their content. *)
From Verif Require Import Validator Spec_Bundle Bundle_proofs Sort_proofs Determinism_proofs Validator_proofs Condition_proofs.
From Coq Require Import Lia.

Lemma map_inj {A B} (f : A -> B) l1 l2 : (forall x y, f x = f y -> x = y) -> map f l1 = map f l2 -> l1 = l2.
Proof.
  intros Hf. revert l2. induction l1 as [|x l1 IH]; destruct l2 as [|y l2]; simpl; try done.
  intros [= H1 H2]. f_equal; [by apply Hf|by apply IH].
Qed.
Lemma jmap_inj {V} (f : V -> json) (m1 m2 : gmap string V) : (forall x y, f x = f y -> x = y) -> jmap f m1 = jmap f m2 -> m1 = m2.
Proof.
  intros Hf H. apply sorted_pairs_inj. unfold jmap in H. injection H as H.
  eapply map_inj; [|exact H]. intros [k v] [k' v'] [= -> E]. f_equal. by apply Hf.
Qed.
Lemma jstr_inj x y : JStr x = JStr y -> x = y. Proof. by intros [= ->]. Qed.
Lemma jstrs_inj x y : jstrs x = jstrs y -> x = y.
Proof. intros [= H]. eapply map_inj; [|exact H]. apply jstr_inj. Qed.
Lemma jopt_inj x y : jopt x = jopt y -> x = y.
Proof. destruct x, y; simpl; congruence. Qed.
Lemma encoding_inj x y : JStr (encoding_str x) = JStr (encoding_str y) -> x = y.
Proof. destruct x, y; simpl; congruence. Qed.
Lemma str_app_inv_head a b c : (a +:+ b = a +:+ c -> b = c)%string.
Proof. induction a as [|x a IH]; simpl; [done|]. intros [= H]. by apply IH. Qed.
Lemma ref_text_inj x y : ref_text x = ref_text y -> x = y.
Proof. destruct x, y; cbn; intros H; try (injection H as H); congruence. Qed.
Lemma nattr_json_inj x : forall y, nattr_json x = nattr_json y -> x = y.
Proof.
  induction x as [r|t|a IH|]; intros [r'|t'|a'|]; simpl; try done.
  - intros [= H]. f_equal. by apply ref_text_inj.
  - intros [= H]. destruct r, t'; done.
  - intros [= H]. destruct r', t; done.
  - intros [= H]. f_equal. by destruct t, t'.
  - intros [= H]. f_equal. by apply IH.
Qed.
Lemma fmap_inj_gmap {V W} (f : V -> W) (m1 m2 : gmap string V) : (forall x y, f x = f y -> x = y) -> f <$> m1 = f <$> m2 -> m1 = m2.
Proof.
  intros Hf H. apply map_eq. intros i. apply (f_equal (fun m => m !! i)) in H. rewrite !lookup_fmap in H.
  destruct (m1 !! i), (m2 !! i); simpl in H; try congruence. injection H as H. f_equal. by apply Hf.
Qed.

Lemma ecodes_json_same x y : ecodes_json x = ecodes_json y -> ecodes_same x y.
Proof.
  destruct x, y; simpl; try done.
  - by intros [= ->].
  - intros H. apply jstrs_inj in H. rewrite <- (sort_by_perm id l), H. apply sort_by_perm.
  - intros [= H]. f_equal. eapply map_inj; [|exact H]. intros [a b] [a' b'] [= -> E].
    f_equal. eapply map_inj; [|exact E]. apply jstr_inj.
Qed.
Lemma jmap_same {V} (f : V -> json) (R : V -> V -> Prop) m1 m2 : (forall x y, f x = f y -> R x y) ->
  jmap f m1 = jmap f m2 -> map_same R m1 m2.
Proof.
  intros Hf H k. rewrite (jmap_id f m1), (jmap_id f m2) in H.
  apply jmap_inj in H; [|done]. apply (f_equal (fun m => m !! k)) in H. rewrite !lookup_fmap in H.
  destruct (m1 !! k), (m2 !! k); simpl in H; try done. injection H as H. by apply Hf.
Qed.
Lemma entries_json_inj x y : entries_json x = entries_json y -> x = y.
Proof.
  destruct x, y; simpl; try done; [by intros [= ->]|]. intros H. f_equal. by apply (jmap_inj JStr _ _ jstr_inj).
Qed.
Lemma fscope_json_same x y : fscope_json x = fscope_json y -> erase_scope x = erase_scope y.
Proof. unfold fscope_json, erase_scope. intros [= -> ->]. done. Qed.
Lemma frame_json_same (x y : framing) : jmap fscope_json x = jmap fscope_json y -> erase_frame x = erase_frame y.
Proof.
  intros H. apply (jmap_same fscope_json (fun a b => erase_scope a = erase_scope b)) in H; [|apply fscope_json_same].
  unfold erase_frame. unfold framing in x, y. apply map_eq. intros k. specialize (H k). rewrite !lookup_fmap.
  destruct (x !! k), (y !! k); simpl in *; try done. f_equal. exact H.
Qed.

(** The kind and version can be read off the type text. *)
Fixpoint before_slash (s : string) : string :=
  match s with EmptyString => EmptyString | String c r => if Ascii.eqb c "/" then EmptyString else String c (before_slash r) end.
Fixpoint after_slash (s : string) : string :=
  match s with EmptyString => EmptyString | String c r => if Ascii.eqb c "/" then r else after_slash r end.
Lemma otype_text_inj t u : otype_text t = otype_text u -> t = u.
Proof.
  destruct t as [k v], u as [k' v']. unfold otype_text. cbn [ot_kind ot_ver]. intros H.
  apply str_app_inv_head in H.
  assert (Hb : before_slash (okind_path k +:+ "/" +:+ v)%string = okind_path k) by (by destruct k).
  assert (Ha : after_slash (okind_path k +:+ "/" +:+ v)%string = v) by (by destruct k).
  assert (Hb' : before_slash (okind_path k' +:+ "/" +:+ v')%string = okind_path k') by (by destruct k').
  assert (Ha' : after_slash (okind_path k' +:+ "/" +:+ v')%string = v') by (by destruct k').
  rewrite H in Hb, Ha. assert (v = v') as <- by congruence.
  assert (E : okind_path k = okind_path k') by congruence. f_equal. by destruct k, k'.
Qed.

Lemma pair_inj {A B} (a a' : A) (b b' : B) : (a, b) = (a', b') -> a = a' /\ b = b'.
Proof. by intros [= -> ->]. Qed.
Lemma cons_inj {A} (a a' : A) l l' : a :: l = a' :: l' -> a = a' /\ l = l'.
Proof. by intros [= -> ->]. Qed.
Ltac split_fields H :=
  repeat match type of H with
  | _ :: _ = _ :: _ => let H1 := fresh "F" in apply cons_inj in H as [H1 H]; apply pair_inj in H1 as [_ H1]
  end.
Lemma body_fields_same b1 b2 : body_kind b1 = body_kind b2 -> body_fields b1 = body_fields b2 -> body_same b1 b2.
Proof.
  destruct b1, b2; try done; intros _ H; cbn [body_fields] in H;
    try (apply cons_inj in H as [F H]; apply pair_inj in F as [_ F]);
    try (apply cons_inj in H as [F1 H]; apply pair_inj in F1 as [_ F1]);
    try (apply cons_inj in H as [F2 H]; apply pair_inj in F2 as [_ F2]);
    try (apply cons_inj in H as [F3 H]; apply pair_inj in F3 as [_ F3]);
    cbn [body_same];
    try (apply (jmap_inj JStr _ _ jstr_inj) in F; by subst);
    try (apply jstr_inj in F; apply (jmap_inj JStr _ _ jstr_inj) in F1; by subst).
  - apply jmap_inj in F; [by subst|apply encoding_inj].
  - apply (jmap_inj JStr _ _ jstr_inj) in F. apply (jmap_inj jstrs _ _ jstrs_inj) in F1. by subst.
  - by eapply jmap_same; [apply ecodes_json_same|].
  - apply jstr_inj in F. apply jmap_inj in F1; [by subst|apply entries_json_inj].
  - apply jstr_inj in F. apply jstrs_inj in F1. apply (jmap_inj JStr _ _ jstr_inj) in F2, F3. split; [done|].
    split; [|done]. rewrite <- (sort_by_perm id cats), F1. apply sort_by_perm.
  - apply jstr_inj in F. subst. f_equal. apply sorted_pairs_inj. eapply map_inj; [|exact H].
    intros [a b] [a' b'] [= -> ->]. done.
  - apply (jmap_inj JStr _ _ jstr_inj) in F. split; [done|].
    apply (jmap_same _ (fun a b => erase_frame a = erase_frame b)) in F1; [|apply frame_json_same].
    apply map_eq. intros k. specialize (F1 k). rewrite !lookup_fmap. destruct (m !! k), (m0 !! k); simpl; try done. f_equal. exact F1.
  - apply jstrs_inj in F. by subst.
  - f_equal. injection F as F. eapply map_inj; [|exact F]. intros [a b] [a' b'] [= -> ->]. done.
  - apply (jmap_inj jstrs _ _ jstrs_inj) in F. by subst.
Qed.
Lemma overlay_json_same d e x y : overlay_json_d (jopt d) x = overlay_json_d (jopt e) y ->
  d = e /\ ov_cb x = ov_cb y /\ ov_ver x = ov_ver y /\ body_same (ov_body x) (ov_body y).
Proof.
  unfold overlay_json_d. intros H. injection H as H.
  assert (Hall : jopt d = jopt e /\ jopt (ov_cb x) = jopt (ov_cb y) /\ otype_text (ov_type x) = otype_text (ov_type y) /\
    body_fields (ov_body x) = body_fields (ov_body y)).
  { set (t := otype_text (ov_type x)) in *. set (u := otype_text (ov_type y)) in *.
    set (f := body_fields (ov_body x)) in *. set (g := body_fields (ov_body y)) in *. clearbody f g t u.
    destruct (ov_body x), (ov_body y); cbn [app] in H; injection H; intros; subst; try (split; [done|]; split; [done|]; split; [congruence|done]); done. }
  destruct Hall as (H1 & H2 & H3 & H4). apply jopt_inj in H1, H2. apply otype_text_inj in H3. unfold ov_type in H3.
  injection H3 as H3 H5. split; [done|]. split; [done|]. split; [done|]. by apply body_fields_same.
Qed.
Lemma overlay_json_same' x y : overlay_json x = overlay_json y -> overlay_same x y.
Proof. apply overlay_json_same. Qed.
Lemma cb_json_same d e x y : cb_json_d (jopt d) x = cb_json_d (jopt e) y ->
  d = e /\ cb_stype x = cb_stype y /\ cb_attrs x ≡ₚ cb_attrs y /\ cb_class x = cb_class y /\ cb_flagged x ≡ₚ cb_flagged y.
Proof.
  unfold cb_json_d. intros H. injection H as H1 H2 H3 H4 H5.
  apply jopt_inj in H1. split; [done|]. split; [done|]. split; [|split; [done|]].
  - rewrite <- (sort_by_perm fst (cb_attrs x)), <- (sort_by_perm fst (cb_attrs y)).
    assert (E : sort_by fst (cb_attrs x) = sort_by fst (cb_attrs y)); [|by rewrite E].
    eapply map_inj; [|exact H3]. intros [a b] [a' b'] [= -> E]. f_equal. by apply nattr_json_inj.
  - assert (E : sort_by id (cb_flagged x) = sort_by id (cb_flagged y)).
    { eapply map_inj; [|exact H5]. apply jstr_inj. }
    rewrite <- (sort_by_perm id (cb_flagged x)), E. apply sort_by_perm.
Qed.

Lemma overlays_json_same ovs1 ovs2 : overlays_json ovs1 = overlays_json ovs2 ->
  forall k, map overlay_json (visible k ovs1) ≡ₚ map overlay_json (visible k ovs2).
Proof.
  intros H k. unfold overlays_json in H. rewrite (jmap_id _ (group_overlays ovs1)), (jmap_id _ (group_overlays ovs2)) in H.
  apply jmap_inj in H; [|done]. apply (f_equal (fun m => m !! okind_snake k)) in H.
  rewrite !lookup_fmap, !group_overlays_lookup in H. unfold group_val in H. unfold visible.
  destruct (overlays_many k).
  - set (l1 := of_kind k ovs1) in *. set (l2 := of_kind k ovs2) in *. clearbody l1 l2.
    assert (E : map overlay_json (sort_by said_key l1) = map overlay_json (sort_by said_key l2)).
    { destruct l1 as [|x l1], l2 as [|y l2]; cbn [fmap option_fmap option_map] in H; try done.
      injection H as H. exact H. }
    rewrite <- (Permutation_map overlay_json (sort_by_perm said_key l1)), E.
    apply Permutation_map, sort_by_perm.
  - destruct (last (of_kind k ovs1)), (last (of_kind k ovs2)); cbn [fmap option_fmap option_map map] in *; try done.
    assert (E : oval_json (OVObj o) = oval_json (OVObj o0)) by congruence. cbn [oval_json] in E. by rewrite E.
Qed.

Lemma perm_map_forall2 {A B} (f : A -> B) (R : A -> A -> Prop) l1 l2 : (forall x y, f x = f y -> R x y) ->
  map f l1 ≡ₚ map f l2 -> exists l, l ≡ₚ l2 /\ Forall2 R l1 l.
Proof.
  intros Hf H. change (f <$> l1 ≡ₚ f <$> l2) in H.
  destruct (Permutation_map_inv _ _ H) as (l & Hl & Hp). exists l. split; [by symmetry|].
  clear H Hp l2. revert l Hl. induction l1 as [|x l1 IH]; intros [|y l] Hl; simpl in Hl; try done.
  injection Hl as H1 H2. constructor; [by apply Hf|by apply IH].
Qed.
Lemma bundle_json_same d e B1 B2 : bundle_json_d d B1 = bundle_json_d e B2 -> d = e /\ bundle_same B1 B2.
Proof.
  unfold bundle_json_d. intros H. apply (f_equal (fun j => match j with JObj l => l | _ => [] end)) in H.
  apply cons_inj in H as [H0 H]. apply cons_inj in H as [H1 H]. apply cons_inj in H as [H2 _].
  apply pair_inj in H0 as [_ H0]. apply pair_inj in H1 as [_ H1]. apply pair_inj in H2 as [_ H2].
  split; [done|]. apply cb_json_same in H1 as (C1 & C2 & C3 & C4 & C5).
  split; [done|]. split; [done|]. split; [done|]. split; [done|]. split; [done|]. intros k.
  apply (perm_map_forall2 overlay_json); [apply overlay_json_same'|]. by apply overlays_json_same.
Qed.

Definition json_eq_dec : forall a b : json, {a = b} + {a <> b}.
Proof.
  fix IH 1. intros a b.
  destruct a as [|x|x|x|l|l], b as [|y|y|y|l'|l']; try (right; congruence).
  - by left.
  - destruct (bool_dec x y); [left|right]; congruence.
  - destruct (Nat.eq_dec x y); [left|right]; congruence.
  - destruct (string_dec x y); [left|right]; congruence.
  - assert (H : {l = l'} + {l <> l'}).
    { clear -IH. revert l'. induction l as [|x l IHl]; intros [|y l']; [by left|by right|by right|].
      destruct (IH x y) as [->|]; [|right; congruence]. destruct (IHl l') as [->|]; [by left|right; congruence]. }
    destruct H as [->|]; [by left|right; congruence].
  - assert (H : {l = l'} + {l <> l'}).
    { clear -IH. revert l'. induction l as [|[k x] l IHl]; intros [|[k' y] l']; [by left|by right|by right|].
      destruct (string_dec k k') as [->|]; [|right; congruence].
      destruct (IH x y) as [->|]; [|right; congruence]. destruct (IHl l') as [->|]; [by left|right; congruence]. }
    destruct H as [->|]; [by left|right; congruence].
Defined.

Section Tamper.
Context (digest : json -> string) (lua : string -> bool + string).
Lemma C04_bundle o1 o2 ls1 ls2 B1 B2 :
  validate digest lua o1 ls1 B1 = VValid -> validate digest lua o2 ls2 B2 = VValid -> b_said B1 = b_said B2 ->
  (bundle_json B1 = bundle_json B2 /\ bundle_same B1 B2) \/
  (bundle_json_d (JStr dummy_said) B1 <> bundle_json_d (JStr dummy_said) B2 /\
   digest (bundle_json_d (JStr dummy_said) B1) = digest (bundle_json_d (JStr dummy_said) B2)).
Proof.
  intros V1 V2 E. apply validate_valid_said in V1 as [V1 _], V2 as [V2 _].
  apply said_errors_nil in V1 as (S1 & _), V2 as (S2 & _).
  assert (Hd : digest (bundle_json_d (JStr dummy_said) B1) = digest (bundle_json_d (JStr dummy_said) B2)) by congruence.
  destruct (json_eq_dec (bundle_json_d (JStr dummy_said) B1) (bundle_json_d (JStr dummy_said) B2)) as [J|J]; [left|by right].
  unfold bundle_json. rewrite E. apply bundle_json_same in J as J'. destruct J' as [_ J']. split; [|done].
  unfold bundle_json_d in *. apply (f_equal (fun j => match j with JObj l => l | _ => [] end)) in J.
  apply cons_inj in J as [_ J]. by rewrite J.
Qed.
Lemma C04_capture_base o1 o2 ls1 ls2 B1 B2 :
  validate digest lua o1 ls1 B1 = VValid -> validate digest lua o2 ls2 B2 = VValid -> cb_said (b_cb B1) = cb_said (b_cb B2) ->
  (cb_json (b_cb B1) = cb_json (b_cb B2) /\ cb_stype (b_cb B1) = cb_stype (b_cb B2) /\
   cb_attrs (b_cb B1) ≡ₚ cb_attrs (b_cb B2) /\ cb_class (b_cb B1) = cb_class (b_cb B2) /\
   cb_flagged (b_cb B1) ≡ₚ cb_flagged (b_cb B2)) \/
  (cb_json_d (JStr dummy_said) (b_cb B1) <> cb_json_d (JStr dummy_said) (b_cb B2) /\
   digest (cb_json_d (JStr dummy_said) (b_cb B1)) = digest (cb_json_d (JStr dummy_said) (b_cb B2))).
Proof.
  intros V1 V2 E. apply validate_valid_said in V1 as [V1 _], V2 as [V2 _].
  apply said_errors_nil in V1 as (_ & S1 & _), V2 as (_ & S2 & _).
  assert (Hd : digest (cb_json_d (JStr dummy_said) (b_cb B1)) = digest (cb_json_d (JStr dummy_said) (b_cb B2))) by congruence.
  destruct (json_eq_dec (cb_json_d (JStr dummy_said) (b_cb B1)) (cb_json_d (JStr dummy_said) (b_cb B2))) as [J|J]; [left|by right].
  split.
  - unfold cb_json. rewrite E. clear -J. unfold cb_json_d in *. apply (f_equal (fun j => match j with JObj l => l | _ => [] end)) in J.
    apply cons_inj in J as [_ J]. by rewrite J.
  - apply (cb_json_same (Some dummy_said) (Some dummy_said)) in J as (_ & J). exact J.
Qed.
Lemma C04_overlay o1 o2 ls1 ls2 B1 B2 x y :
  validate digest lua o1 ls1 B1 = VValid -> validate digest lua o2 ls2 B2 = VValid ->
  x ∈ b_ovs B1 -> y ∈ b_ovs B2 -> ov_said x = ov_said y ->
  (overlay_json x = overlay_json y /\ overlay_same x y) \/
  (overlay_json_d (JStr dummy_said) x <> overlay_json_d (JStr dummy_said) y /\
   digest (overlay_json_d (JStr dummy_said) x) = digest (overlay_json_d (JStr dummy_said) y)).
Proof.
  intros V1 V2 Hx Hy E. apply validate_valid_said in V1 as [V1 _], V2 as [V2 _].
  apply said_errors_nil in V1 as (_ & _ & S1), V2 as (_ & _ & S2).
  destruct (S1 x Hx) as [S1' _], (S2 y Hy) as [S2' _].
  assert (Hd : digest (overlay_json_d (JStr dummy_said) x) = digest (overlay_json_d (JStr dummy_said) y)) by congruence.
  destruct (json_eq_dec (overlay_json_d (JStr dummy_said) x) (overlay_json_d (JStr dummy_said) y)) as [J|J]; [left|by right].
  split.
  - unfold overlay_json. rewrite E. by apply (overlay_json_d_swap (JStr dummy_said)).
  - split; [done|]. by apply (overlay_json_same (Some dummy_said) (Some dummy_said)) in J as (_ & J).
Qed.
End Tamper.
