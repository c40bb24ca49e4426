(** The public operations on attributes and boxes keep boxes well formed. *)
From Verif Require Import Spec_Bundle Overlays_proofs.

(** One attribute's share of [box_ok]. *)
Record attr_ok (a : attribute) : Prop := {
  ak_cond : (at_cond a = None /\ at_deps a = None) \/
    exists c, at_cond a = Some (encode_condition c).1 /\ at_deps a = Some (encode_condition c).2;
  ak_frames : forall f fr sc s v, lookup_opt f (at_frames a) = Some fr -> fr !! sc = Some s -> fs_meta s !! "frame_id" <> Some v }.

Lemma attr_ok_new n : attr_ok (attr_new n).
Proof. constructor; [by left|done]. Qed.
Lemma attr_ok_same a a' : at_cond a' = at_cond a -> at_deps a' = at_deps a -> at_frames a' = at_frames a -> attr_ok a -> attr_ok a'.
Proof. intros E1 E2 E3 [H1 H2]. constructor; [by rewrite E1, E2|by rewrite E3]. Qed.
Lemma attr_ok_set_condition c a : attr_ok a -> attr_ok (set_condition c a).
Proof. intros [H1 H2]. constructor; [right; by exists c|done]. Qed.
Lemma frames_insert_lookup id f fs x fr sc s : lookup_opt x (Some (frames_insert id f fs)) = Some fr -> fr !! sc = Some s ->
  (x = id /\ f !! sc = Some s) \/ exists fr', lookup_opt x fs = Some fr' /\ fr' !! sc = Some s.
Proof.
  unfold lookup_opt, frames_insert. cbn [unwrap_or].
  set (m := match fs with Some a => a | None => ∅ end).
  assert (Em : unwrap_or ∅ fs = m) by done. rewrite Em.
  assert (Hm : forall y, m !! y = match fs with Some m => m !! y | None => None end).
  { intros y. unfold m. destruct fs; [done|]. apply lookup_empty. }
  destruct (decide (x = id)) as [->|Hne].
  - destruct (m !! id) as [g|] eqn:E; rewrite lookup_insert; intros [= <-] Hs.
    + apply lookup_union_Some_raw in Hs as [Hs|[_ Hs]]; [by left|]. right. exists g. split; [|done]. rewrite <- E. symmetry. by rewrite Hm.
    + by left.
  - destruct (m !! id) as [g|] eqn:E; rewrite lookup_insert_ne by done; intros Hx Hs; right; exists fr; (split; [|done]); rewrite <- Hx; symmetry; by rewrite Hm.
Qed.
Lemma attr_ok_set_framing id f a : (forall sc s v, f !! sc = Some s -> fs_meta s !! "frame_id" <> Some v) ->
  attr_ok a -> attr_ok (set_framing id f a).
Proof.
  intros Hf [H1 H2]. constructor; [done|]. intros x fr sc s v Hx Hs.
  destruct (frames_insert_lookup id f (at_frames a) x fr sc s Hx Hs) as [[-> Hf']|(fr' & Hx' & Hs')]; eauto.
Qed.
Lemma attr_ok_merge a a' : attr_ok a -> attr_ok a' -> attr_ok (merge_fields a a').
Proof.
  intros [H1 H2] [G1 G2]. constructor.
  - simpl. destruct G1 as [[E _]|(c & E1 & E2)]; [by rewrite E|]. rewrite E1, E2. simpl. right. by exists c.
  - simpl. destruct (at_frames a'); simpl in *; eauto.
Qed.

(** [box_ok] in terms of attributes. *)
Lemma box_ok_alt b : box_ok b <->
  (forall n a, bx_attrs b !! n = Some a -> at_name a = n /\ is_Some (at_type a) /\ attr_ok a) /\
  (forall meta l m, bx_meta b = Some meta -> meta !! l = Some m -> m <> ∅).
Proof.
  split.
  - intros [N T M F C]. split; [|done]. intros n a Ha. split; [by apply N|]. split; [by eapply T|].
    constructor; [by eapply C|]. intros f fr sc s v H1 H2 H3. apply (F f v). unfold frame_meta_says. eauto 10.
  - intros [H M]. constructor; [naive_solver|naive_solver|done| |].
    + intros f v (n & a & fr & sc & s & Ha & H1 & H2 & H3). destruct (H n a Ha) as (_ & _ & [_ Hf]). by eapply Hf.
    + intros n a Ha. by destruct (H n a Ha) as (_ & _ & [Hc _]).
Qed.
Lemma box_ok_new : box_ok box_new.
Proof. apply box_ok_alt. split; [|done]. intros n a. simpl. by rewrite lookup_empty. Qed.
Lemma merge_type a a' : is_Some (at_type a) \/ is_Some (at_type a') -> is_Some (at_type (merge_fields a a')).
Proof. simpl. destruct (at_type a'); simpl; [by eexists|]. intros [?|[? ?]]; done. Qed.
Lemma box_ok_add_attribute a b : attr_ok a -> is_Some (at_type a) \/ is_Some (bx_attrs b !! at_name a) ->
  box_ok b -> box_ok (add_attribute a b).
Proof.
  rewrite !box_ok_alt. intros Ha Ht [H M]. unfold add_attribute. destruct (bx_attrs b !! at_name a) as [a0|] eqn:E; (split; [|done]); simpl.
  - intros n x. destruct (decide (n = at_name a)) as [->|Hne].
    + rewrite lookup_insert. intros [= <-]. destruct (H _ _ E) as (N & T & K). split; [done|]. split; [|by apply attr_ok_merge].
      apply merge_type. by left.
    + rewrite lookup_insert_ne by done. apply H.
  - intros n x. destruct (decide (n = at_name a)) as [->|Hne].
    + rewrite lookup_insert. intros [= <-]. split; [done|]. split; [|done]. destruct Ht as [?|[? ?]]; done.
    + rewrite lookup_insert_ne by done. apply H.
Qed.
Lemma box_ok_remove n b : box_ok b -> box_ok (remove_attribute n b).
Proof.
  rewrite !box_ok_alt. intros [H M]. split; [|done]. intros m a. simpl. intros Ha. apply lookup_delete_Some in Ha as [_ Ha]. eauto.
Qed.
Lemma box_ok_mapping m b : box_ok b -> box_ok (add_attribute_mapping m b).
Proof. by rewrite !box_ok_alt. Qed.
Lemma box_ok_class c b : box_ok b -> box_ok (add_classification c b).
Proof. by rewrite !box_ok_alt. Qed.
Lemma box_ok_unclass b : box_ok b -> box_ok (remove_classification b).
Proof. by rewrite !box_ok_alt. Qed.
Lemma box_ok_meta l k v b : box_ok b -> box_ok (add_meta l k v b).
Proof.
  rewrite !box_ok_alt. intros [H M]. split; [done|]. unfold add_meta. simpl. intros meta l' m [= <-] Hm.
  destruct (decide (l' = l)) as [->|Hne].
  - rewrite lookup_insert in Hm. injection Hm as <-. apply insert_non_empty.
  - rewrite lookup_insert_ne in Hm by done. destruct (bx_meta b) as [meta|] eqn:E; simpl in Hm; [by eapply M|].
    by rewrite lookup_empty in Hm.
Qed.

Scheme api_attr_ind2 := Minimality for api_attr Sort Prop
  with api_box_ind2 := Minimality for api_box Sort Prop.
Combined Scheme api_ind from api_attr_ind2, api_box_ind2.
Lemma api_ok : (forall a, api_attr a -> attr_ok a) /\ (forall b, api_box b -> box_ok b).
Proof.
  apply api_ind; intros;
    try (eapply attr_ok_same; [| | |eassumption]; done).
  - apply attr_ok_new.
  - apply box_ok_alt in H0 as [H0 _]. by destruct (H0 _ _ H1) as (_ & _ & ?).
  - by apply attr_ok_set_condition.
  - apply attr_ok_set_framing; [|done]. intros sc s v Hs. by rewrite (H _ _ Hs).
  - apply box_ok_new.
  - by apply box_ok_add_attribute.
  - by apply box_ok_remove.
  - by apply box_ok_mapping.
  - by apply box_ok_class.
  - by apply box_ok_unclass.
  - by apply box_ok_meta.
Qed.
Lemma api_box_ok b : api_box b -> box_ok b. Proof. apply api_ok. Qed.
