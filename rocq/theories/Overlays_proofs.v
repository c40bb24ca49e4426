From Verif Require Import Spec_Bundle.
From Coq Require Import Lia.

#[global] Instance encoding_dec : EqDecision encoding.
Proof. solve_decision. Defined.
#[global] Instance slot_dec : EqDecision slot.
Proof. solve_decision. Defined.

Definition gkey_slot (k : gkey) : slot :=
  match k with
  | GEnc => SPlain KCharacterEncoding | GFormat => SPlain KFormat | GConf => SPlain KConformance
  | GCard => SPlain KCardinality | GCond => SPlain KConditional | GUnit => SPlain KUnit
  | GECode => SPlain KEntryCode | GEntry l => SLang KEntry l | GLabel l => SLang KLabel l
  | GInfo l => SLang KInformation l | GLink t => SLink t | GFrame f => SFrame f
  end.
#[global] Instance gkey_dec : EqDecision gkey.
Proof. solve_decision. Defined.
#[global] Instance gkey_slot_inj : Inj (=) (=) gkey_slot.
Proof. intros [] []; simpl; congruence. Qed.

Lemma gkey_match_slot k ov : ov_ver ov = ver11 ->
  gkey_match k ov = bool_decide (body_slot (ov_body ov) = gkey_slot k).
Proof.
  intros Hv. unfold gkey_match. rewrite Hv.
  destruct k, (ov_body ov); simpl; try (symmetry; by apply bool_decide_eq_false_2);
    try (symmetry; by apply bool_decide_eq_true_2);
    repeat match goal with
    | |- context [String.eqb ?a ?b] => destruct (String.eqb_spec a b)
    | |- context [?m !! "frame_id"] => destruct (m !! "frame_id") eqn:?
    end; simpl;
    try reflexivity; symmetry; (apply bool_decide_eq_true_2; congruence) || (apply bool_decide_eq_false_2; congruence).
Qed.
Lemma gkey_body_slot k : body_slot (gkey_body k) = gkey_slot k.
Proof. destruct k; done. Qed.

(** Attribute frames without the reserved key. *)
Definition attr_noid (a : attribute) : Prop :=
  forall f fr sc s, lookup_opt f (at_frames a) = Some fr -> fr !! sc = Some s -> fs_meta s !! "frame_id" = None.

Section Order.
Context (o : order) (Ho : order_ok o).

Lemma order_elem p V (m : gmap string V) k v : (k, v) ∈ o p V m <-> m !! k = Some v.
Proof. rewrite (Ho p V m). apply elem_of_map_to_list. Qed.
Lemma order_nodup p V (m : gmap string V) : NoDup ((o p V m).*1).
Proof. rewrite (Ho p V m). apply NoDup_fst_map_to_list. Qed.

(** Inserting a list of pairs. *)
Lemma fold_insert_spec (l : list (string * string)) : forall (acc : gmap string string) k,
  let r := fold_left (fun acc' kv => <[kv.1 := kv.2]> acc') l acc in
  (forall v, r !! k = Some v -> (acc !! k = Some v /\ k ∉ l.*1) \/ (k, v) ∈ l) /\
  (r !! k = None -> acc !! k = None /\ k ∉ l.*1).
Proof.
  induction l as [|[k' v'] l IH]; intros acc k; simpl.
  - split; [intros v Hv; left|intros Hn]; (split; [done|]); apply not_elem_of_nil.
  - destruct (IH (<[k' := v']> acc) k) as [H1 H2]. split.
    + intros v Hv. destruct (H1 v Hv) as [[Ha Hn]|Hin].
      * destruct (decide (k = k')) as [->|Hne].
        -- rewrite lookup_insert in Ha. injection Ha as ->. right. apply elem_of_list_here.
        -- rewrite lookup_insert_ne in Ha by done. left. split; [done|]. by apply not_elem_of_cons.
      * right. by apply elem_of_list_further.
    + intros Hn. destruct (H2 Hn) as [Ha Hni]. destruct (decide (k = k')) as [->|Hne].
      * by rewrite lookup_insert in Ha.
      * rewrite lookup_insert_ne in Ha by done. split; [done|]. by apply not_elem_of_cons.
Qed.

Definition scope_says (f : framing) (k v : string) : Prop :=
  exists sc s, f !! sc = Some s /\ fs_meta s !! k = Some v.
Lemma frame_meta_of_spec p f meta k :
  (forall v, frame_meta_of o p f meta !! k = Some v ->
     (meta !! k = Some v /\ forall w, ~ scope_says f k w) \/ scope_says f k v) /\
  (frame_meta_of o p f meta !! k = None -> meta !! k = None /\ forall w, ~ scope_says f k w).
Proof.
  unfold frame_meta_of.
  assert (Hs : forall k v, scope_says f k v <-> exists sc s, (sc, s) ∈ o p _ f /\ fs_meta s !! k = Some v).
  { intros k' v. unfold scope_says. split; intros (sc & s & H1 & H2); exists sc, s; (split; [|done]); by apply (order_elem p fscope f sc s). }
  set (L := o p fscope f) in *.
  assert (Hmain : forall acc : gmap string string,
    (forall v, fold_left (fun acc sc => fold_left (fun acc' kv => <[kv.1 := kv.2]> acc') (o (p ++ [sc.1]) _ (fs_meta sc.2)) acc) L acc !! k = Some v ->
      (acc !! k = Some v /\ forall w, ~ (exists sc s, (sc, s) ∈ L /\ fs_meta s !! k = Some w)) \/
      (exists sc s, (sc, s) ∈ L /\ fs_meta s !! k = Some v)) /\
    (fold_left (fun acc sc => fold_left (fun acc' kv => <[kv.1 := kv.2]> acc') (o (p ++ [sc.1]) _ (fs_meta sc.2)) acc) L acc !! k = None ->
      acc !! k = None /\ forall w, ~ (exists sc s, (sc, s) ∈ L /\ fs_meta s !! k = Some w))).
  { clear Hs. clearbody L. induction L as [|[sc s] L IH]; intros acc; simpl.
    - split; [intros v Hv; left|intros Hn]; (split; [done|]); intros w (sc & s & Hin & _); by apply not_elem_of_nil in Hin.
    - destruct (IH (fold_left (fun acc' kv => <[kv.1 := kv.2]> acc') (o (p ++ [sc]) _ (fs_meta s)) acc)) as [I1 I2].
      destruct (fold_insert_spec (o (p ++ [sc]) _ (fs_meta s)) acc k) as [J1 J2]. split.
      + intros v Hv. destruct (I1 v Hv) as [[Ha Hn]|(sc' & s' & Hin & Hs')].
        2:{ right. exists sc', s'. split; [by apply elem_of_list_further|done]. }
        destruct (J1 v Ha) as [[Hb Hni]|Hin].
        * left. split; [done|]. intros w (sc' & s' & Hin & Hw). apply elem_of_cons in Hin as [[= -> ->]|Hin].
          -- apply Hni. apply elem_of_list_fmap. exists (k, w). split; [done|]. by apply order_elem.
          -- apply (Hn w). eauto.
        * right. exists sc, s. split; [apply elem_of_list_here|]. by apply order_elem in Hin.
      + intros Hn. destruct (I2 Hn) as [Ha Hni]. destruct (J2 Ha) as [Hb Hni'].
        split; [done|]. intros w (sc' & s' & Hin & Hw). apply elem_of_cons in Hin as [[= -> ->]|Hin].
        * apply Hni'. apply elem_of_list_fmap. exists (k, w). split; [done|]. by apply order_elem.
        * apply (Hni w). eauto. }
  destruct (Hmain meta) as [M1 M2]. split.
  - intros v Hv. destruct (M1 v Hv) as [[Ha Hn]|Hx].
    + left. split; [done|]. intros w Hw. apply (Hn w). by apply Hs.
    + right. by apply Hs.
  - intros Hn. destruct (M2 Hn) as [Ha Hni]. split; [done|]. intros w Hw. apply (Hni w). by apply Hs.
Qed.

Lemma frame_meta_noid p f meta : (forall w, ~ scope_says f "frame_id" w) ->
  frame_meta_of o p f meta !! "frame_id" = meta !! "frame_id".
Proof.
  intros Hn. destruct (frame_meta_of_spec p f meta "frame_id") as [H1 H2].
  destruct (frame_meta_of o p f meta !! "frame_id") eqn:E.
  - destruct (H1 _ eq_refl) as [[-> _]|Hx]; [done|]. by apply Hn in Hx.
  - symmetry. by apply H2.
Qed.

Lemma body_add_slot a b : attr_noid a -> body_slot (body_add o a b) = body_slot b.
Proof.
  intros Hn. destruct b; simpl; try done.
  - destruct (meta !! "frame_id") as [id|] eqn:E; simpl; rewrite ?E; try done.
    destruct (lookup_opt id (at_frames a)) as [fr|] eqn:F; simpl; rewrite ?E; try done.
    rewrite frame_meta_noid, E; [done|]. intros w (sc & s & Hs & Hw). by rewrite (Hn _ _ _ _ F Hs) in Hw.
  - destruct (at_stds a) as [[]|]; done.
Qed.
Lemma ov_add_ver a ov : ov_ver (ov_add o a ov) = ov_ver ov. Proof. done. Qed.

Lemma add_field_lookup {V} n (v : option V) m n' :
  add_field n v m !! n' = if decide (n' = n) then match v with Some _ => v | None => m !! n' end else m !! n'.
Proof.
  unfold add_field. destruct (decide (n' = n)) as [->|Hne], v; try done.
  - by rewrite lookup_insert.
  - by rewrite lookup_insert_ne.
Qed.

(** One attribute added to the overlay of a slot it carries. *)
Lemma body_add_spec a b s :
  body_slot b = s -> is_Some (attr_datum a s) -> body_tidy b -> body_datum b (at_name a) = None ->
  body_tidy (body_add o a b) /\
  (forall n, body_datum (body_add o a b) n = if decide (n = at_name a) then attr_datum a s else body_datum b n).
Proof.
  intros <- [d Hd] Ht Hnone.
  destruct b; simpl in *; try done;
    try (apply fmap_Some in Hd as (x & Hx & ->); apply fmap_None in Hnone;
         split; [done|]; intros n'; rewrite add_field_lookup, Hx; destruct (decide _); done).
  - (* Conditional *)
    apply fmap_Some in Hd as (x & Hx & ->). apply fmap_None in Hnone. rewrite Hx. split.
    + intros n. rewrite !add_field_lookup. destruct (decide (n = at_name a)); [done|]. apply Ht.
    + intros n. rewrite !add_field_lookup. destruct (decide (n = at_name a)) as [->|]; [|done].
      simpl. rewrite (Ht _ Hnone). by destruct (at_deps a).
  - (* Label *)
    apply fmap_Some in Hd as (x & Hx & ->). apply fmap_None in Hnone. rewrite Hx.
    destruct Ht as [-> Ht]. split; [split; [done|]|].
    + intros n. rewrite !add_field_lookup. destruct (decide (n = at_name a)); [done|]. apply Ht.
    + intros n. rewrite !add_field_lookup. destruct (decide (n = at_name a)) as [->|]; [|done].
      simpl. rewrite (Ht _ Hnone). by destruct (lookup_opt l (at_catlabels a)).
  - (* Framing *)
    destruct (meta !! "frame_id") as [id|] eqn:E; [|done]. simpl in *.
    apply fmap_Some in Hd as (x & Hx & ->). apply fmap_None in Hnone. rewrite Hx. simpl.
    split; [done|]. intros n. destruct (decide (n = at_name a)) as [->|].
    + by rewrite lookup_insert.
    + by rewrite lookup_insert_ne.
Qed.

Definition ov_slot (ov : overlay) : slot := body_slot (ov_body ov).
Definition all11 (ovs : list overlay) : Prop := Forall (fun ov => ov_ver ov = ver11) ovs.
Definition find_slot (s : slot) (ovs : list overlay) : option overlay :=
  List.find (fun ov => bool_decide (ov_slot ov = s)) ovs.

Lemma find_slot_some s ovs ov : find_slot s ovs = Some ov -> ov ∈ ovs /\ ov_slot ov = s.
Proof.
  unfold find_slot. intros H. apply find_some in H as [H1 H2]. split; [by apply elem_of_list_In|].
  by apply bool_decide_eq_true_1 in H2.
Qed.
Lemma find_slot_none s ovs : find_slot s ovs = None <-> s ∉ map ov_slot ovs.
Proof.
  induction ovs as [|ov ovs IH]; simpl; [split; [intros _; apply not_elem_of_nil|done]|].
  rewrite not_elem_of_cons. unfold find_slot in *. simpl. case_bool_decide as E; simpl; [naive_solver|].
  rewrite IH. naive_solver.
Qed.
Lemma find_slot_nodup ovs ov : NoDup (map ov_slot ovs) -> ov ∈ ovs -> find_slot (ov_slot ov) ovs = Some ov.
Proof.
  induction ovs as [|x ovs IH]; simpl; intros Hn Hin; [by apply not_elem_of_nil in Hin|].
  apply NoDup_cons in Hn as [Hx Hn]. unfold find_slot. simpl. case_bool_decide as E.
  - apply elem_of_cons in Hin as [->|Hin]; [done|]. exfalso. apply Hx. rewrite E.
    apply elem_of_list_In, in_map, elem_of_list_In, Hin.
  - apply elem_of_cons in Hin as [->|Hin]; [done|]. by apply IH.
Qed.

Lemma upsert_all11 a k ovs : all11 ovs -> all11 (upsert o a k ovs).
Proof.
  unfold all11. induction ovs as [|ov ovs IH]; simpl; intros H.
  - repeat constructor.
  - apply Forall_cons in H as [H1 H2]. destruct (gkey_match k ov); constructor; auto.
Qed.
Lemma upsert_spec a k ovs : attr_noid a -> all11 ovs ->
  map ov_slot (upsert o a k ovs) =
    (if decide (gkey_slot k ∈ map ov_slot ovs) then map ov_slot ovs else map ov_slot ovs ++ [gkey_slot k]) /\
  (forall s, find_slot s (upsert o a k ovs) =
     if decide (s = gkey_slot k) then Some (ov_add o a (unwrap_or (gkey_new k) (find_slot s ovs)))
     else find_slot s ovs).
Proof.
  intros Ha. unfold all11. induction ovs as [|ov ovs IH]; intros H.
  - cbn [upsert map]. assert (Hs : ov_slot (ov_add o a (gkey_new k)) = gkey_slot k).
    { unfold ov_slot. cbn. rewrite body_add_slot by done. apply gkey_body_slot. }
    split.
    + rewrite Hs. destruct (decide _) as [Hin|]; [by apply not_elem_of_nil in Hin|done].
    + intros s. unfold find_slot. cbn [List.find]. rewrite Hs.
      destruct (decide (s = gkey_slot k)) as [->|Hne]; [by rewrite bool_decide_eq_true_2|].
      rewrite bool_decide_eq_false_2; congruence.
  - apply Forall_cons in H as [H1 H2]. cbn [upsert]. rewrite gkey_match_slot by done.
    destruct (bool_decide_reflect (body_slot (ov_body ov) = gkey_slot k)) as [E|E].
    + assert (Hs : ov_slot (ov_add o a ov) = gkey_slot k).
      { unfold ov_slot. cbn. by rewrite body_add_slot. }
      split.
      * cbn [map]. rewrite Hs. assert (E' : ov_slot ov = gkey_slot k) by done. rewrite E'.
        rewrite decide_True; [done|]. apply elem_of_list_here.
      * intros s. unfold find_slot. cbn [List.find]. rewrite Hs. unfold ov_slot. rewrite E.
        destruct (decide (s = gkey_slot k)) as [->|Hne].
        -- by rewrite !bool_decide_eq_true_2.
        -- rewrite !bool_decide_eq_false_2 by congruence. done.
    + destruct (IH H2) as [I1 I2]. split.
      * cbn [map]. rewrite I1.
        destruct (decide (gkey_slot k ∈ map ov_slot ovs)) as [Hin|Hn].
        -- rewrite decide_True; [done|]. by apply elem_of_list_further.
        -- rewrite decide_False; [done|]. apply not_elem_of_cons. split; [|done]. unfold ov_slot. congruence.
      * intros s. unfold find_slot in *. cbn [List.find]. rewrite I2.
        case_bool_decide as E2; [|done]. rewrite decide_False; [done|]. intros ->. by unfold ov_slot in E2.
Qed.

(** The keys of one attribute. *)
Lemma map_gkeys_elem {V} p (m : option (gmap string V)) (g : string -> gkey) k :
  k ∈ map_gkeys o p m g <-> exists l, k = g l /\ is_Some (lookup_opt l m).
Proof.
  unfold map_gkeys. destruct m as [m|]; simpl.
  2:{ split; [intros H; by apply not_elem_of_nil in H|]. intros (l & _ & [x Hx]); done. }
  rewrite elem_of_list_In, in_map_iff. split.
  - intros ([l v] & <- & Hin). exists l. split; [done|]. apply elem_of_list_In, order_elem in Hin. by eexists.
  - intros (l & -> & [v Hv]). exists (l, v). split; [done|]. by apply elem_of_list_In, order_elem.
Qed.
Lemma map_gkeys_nodup {V} p (m : option (gmap string V)) (g : string -> gkey) :
  Inj (=) (=) g -> NoDup (map_gkeys o p m g).
Proof.
  intros Hg. unfold map_gkeys. destruct m as [m|]; [|apply NoDup_nil_2].
  replace (map (fun kv => g kv.1) (o p V m)) with (g <$> ((o p V m).*1)).
  - apply NoDup_fmap_2; [done|]. apply order_nodup.
  - rewrite <- list_fmap_compose. done.
Qed.
Lemma opt_key_elem {V} (x : option V) (g k : gkey) : k ∈ opt_key x g <-> k = g /\ is_Some x.
Proof.
  destruct x; simpl.
  - rewrite elem_of_list_singleton. naive_solver.
  - split; [intros H; by apply not_elem_of_nil in H|]. intros [_ [y Hy]]; done.
Qed.
Lemma attr_keys_elem a k : k ∈ attr_keys o a <-> is_Some (attr_datum a (gkey_slot k)).
Proof.
  unfold attr_keys. rewrite !elem_of_app, !opt_key_elem, !map_gkeys_elem.
  destruct k; simpl; rewrite ?fmap_is_Some; naive_solver.
Qed.
Lemma attr_keys_nodup a : NoDup (attr_keys o a).
Proof.
  unfold attr_keys.
  assert (Hop : forall V (x : option V) g, NoDup (opt_key x g)) by (intros V [] g; [apply NoDup_singleton|apply NoDup_nil_2]).
  repeat (apply NoDup_app; split; [first [apply Hop | apply map_gkeys_nodup; intros ? ? [= ?]; done]|];
          split; [intros k; rewrite ?elem_of_app, ?opt_key_elem, ?map_gkeys_elem; naive_solver|]).
  apply map_gkeys_nodup. intros ? ? [= ?]; done.
Qed.

Definition slots_step (ss : list slot) (k : gkey) : list slot :=
  if decide (gkey_slot k ∈ ss) then ss else ss ++ [gkey_slot k].
Lemma add_attr_all11 a ovs : all11 ovs -> all11 (add_attr_overlays o ovs a).
Proof.
  unfold add_attr_overlays. generalize (attr_keys o a). intros ks. revert ovs.
  induction ks as [|k ks IH]; simpl; intros ovs H; [done|]. apply IH. by apply upsert_all11.
Qed.
Lemma add_attr_find a ovs : attr_noid a -> all11 ovs ->
  map ov_slot (add_attr_overlays o ovs a) = fold_left slots_step (attr_keys o a) (map ov_slot ovs) /\
  (forall k, find_slot (gkey_slot k) (add_attr_overlays o ovs a) =
    if decide (is_Some (attr_datum a (gkey_slot k)))
    then Some (ov_add o a (unwrap_or (gkey_new k) (find_slot (gkey_slot k) ovs)))
    else find_slot (gkey_slot k) ovs) /\
  (forall s, (forall k, s <> gkey_slot k) -> find_slot s (add_attr_overlays o ovs a) = find_slot s ovs).
Proof.
  intros Ha H11. unfold add_attr_overlays.
  assert (Hgen : forall ks, NoDup ks -> forall ovs, all11 ovs ->
    let ovs' := fold_left (fun acc k => upsert o a k acc) ks ovs in
    map ov_slot ovs' = fold_left slots_step ks (map ov_slot ovs) /\
    (forall k, find_slot (gkey_slot k) ovs' =
      if decide (k ∈ ks) then Some (ov_add o a (unwrap_or (gkey_new k) (find_slot (gkey_slot k) ovs)))
      else find_slot (gkey_slot k) ovs) /\
    (forall s, (forall k, s <> gkey_slot k) -> find_slot s ovs' = find_slot s ovs)).
  { clear ovs H11. induction ks as [|k ks IH]; intros Hn ovs H11; cbn [fold_left].
    - split; [done|]. split; [|done]. intros k. rewrite decide_False; [done|]. apply not_elem_of_nil.
    - apply NoDup_cons in Hn as [Hk Hn]. destruct (upsert_spec a k ovs Ha H11) as [U1 U2].
      destruct (IH Hn _ (upsert_all11 a k ovs H11)) as (I1 & I2 & I3). split; [|split].
      + rewrite I1. f_equal. rewrite U1. unfold slots_step. done.
      + intros k'. rewrite I2, U2. destruct (decide (k' = k)) as [->|Hne].
        * rewrite decide_False by done. rewrite decide_True by done.
          rewrite decide_True by apply elem_of_list_here. done.
        * rewrite (decide_False (P := gkey_slot k' = gkey_slot k)) by (intros E; apply Hne, (inj gkey_slot), E).
          destruct (decide (k' ∈ ks)).
          -- rewrite decide_True by (by apply elem_of_list_further). done.
          -- rewrite decide_False; [done|]. by apply not_elem_of_cons.
      + intros s Hs. rewrite I3 by done. rewrite U2. rewrite decide_False; [done|]. apply Hs. }
  destruct (Hgen _ (attr_keys_nodup a) ovs H11) as (G1 & G2 & G3). split; [done|]. split; [|done].
  intros k. rewrite G2. destruct (decide (k ∈ attr_keys o a)) as [Hin|Hn].
  - rewrite decide_True; [done|]. by apply attr_keys_elem.
  - rewrite decide_False; [done|]. by rewrite <- attr_keys_elem.
Qed.

(** Initial overlays are never touched. *)
Definition untouched (ov : overlay) : Prop := forall k, gkey_match k ov = false.
Lemma upsert_app a k init new : Forall untouched init -> upsert o a k (init ++ new) = init ++ upsert o a k new.
Proof.
  induction init as [|ov init IH]; intros H; [done|]. apply Forall_cons in H as [H1 H2].
  simpl. rewrite H1. by rewrite IH.
Qed.
Lemma add_attr_app a init new : Forall untouched init ->
  add_attr_overlays o (init ++ new) a = init ++ add_attr_overlays o new a.
Proof.
  intros H. unfold add_attr_overlays. generalize (attr_keys o a). intros ks. revert new.
  induction ks as [|k ks IH]; intros new; simpl; [done|]. rewrite upsert_app by done. apply IH.
Qed.
Definition gen (l : list attribute) : list overlay := fold_left (add_attr_overlays o) l [].
Lemma gen_app l init : Forall untouched init -> fold_left (add_attr_overlays o) l init = init ++ gen l.
Proof.
  intros H. unfold gen. rewrite <- (app_nil_r init) at 1. generalize (@nil overlay). revert init H.
  induction l as [|a l IH]; intros init H new; simpl; [done|]. rewrite add_attr_app by done. by apply IH.
Qed.
Lemma initial_untouched b : Forall untouched (initial_overlays o b).
Proof.
  unfold initial_overlays. apply Forall_app. split.
  - apply Forall_map, Forall_true. intros m k. by destruct k.
  - destruct (bx_meta b); [|constructor]. apply Forall_map, Forall_true. intros m k. by destruct k.
Qed.
Lemma generate_overlays_eq b : generate_overlays o b = initial_overlays o b ++ gen (attr_values o b).
Proof. apply gen_app, initial_untouched. Qed.

Lemma slots_steps_spec ks : forall ss, NoDup ss -> (forall s, s ∈ ss -> exists k, s = gkey_slot k) ->
  NoDup (fold_left slots_step ks ss) /\ (forall s, s ∈ fold_left slots_step ks ss -> exists k, s = gkey_slot k).
Proof.
  induction ks as [|k ks IH]; simpl; intros ss Hn Hk; [done|]. apply IH.
  - unfold slots_step. destruct (decide _) as [|Hni]; [done|]. apply NoDup_app. split; [done|].
    split; [|apply NoDup_singleton]. intros x Hx ->%elem_of_list_singleton. done.
  - intros s. unfold slots_step. destruct (decide _) as [|Hni]; [apply Hk|]. rewrite elem_of_app, elem_of_list_singleton.
    intros [?| ->]; eauto.
Qed.

Definition meta_right (l : list attribute) (f : string) (b : body) : Prop :=
  exists meta m, b = BFraming meta m /\
    (forall k v, meta !! k = Some v ->
      (k = "frame_id" /\ v = f) \/ exists a fr, a ∈ l /\ lookup_opt f (at_frames a) = Some fr /\ scope_says fr k v) /\
    (forall k, meta !! k = None -> forall a fr v, a ∈ l -> lookup_opt f (at_frames a) = Some fr -> ~ scope_says fr k v).

Lemma gkey_body_tidy k : body_tidy (gkey_body k). Proof. by destruct k. Qed.
Lemma gkey_body_datum k n : body_datum (gkey_body k) n = None.
Proof. destruct k; simpl; by rewrite lookup_empty. Qed.

Lemma body_slot_frame b f : body_slot b = SFrame f -> exists meta m, b = BFraming meta m /\ meta !! "frame_id" = Some f.
Proof. destruct b; simpl; try done. destruct (meta !! "frame_id") eqn:E; [|done]. intros [= ->]. eauto. Qed.

Lemma gen_spec l : NoDup (map at_name l) -> Forall attr_noid l ->
  all11 (gen l) /\ NoDup (map ov_slot (gen l)) /\
  (forall s, s ∈ map ov_slot (gen l) -> exists k, s = gkey_slot k) /\
  (forall k, find_slot (gkey_slot k) (gen l) = None <-> forall a, a ∈ l -> attr_datum a (gkey_slot k) = None) /\
  (forall k ov, find_slot (gkey_slot k) (gen l) = Some ov ->
     ov_said ov = None /\ ov_cb ov = None /\ body_tidy (ov_body ov) /\
     (forall n d, body_datum (ov_body ov) n = Some d <->
        exists a, a ∈ l /\ at_name a = n /\ attr_datum a (gkey_slot k) = Some d) /\
     (forall f, k = GFrame f -> meta_right l f (ov_body ov))).
Proof.
  induction l as [|a l IH] using rev_ind; intros Hnd Hno.
  { unfold gen; simpl. split; [constructor|]. split; [apply NoDup_nil_2|].
    split; [intros s H; by apply not_elem_of_nil in H|].
    split; [|done]. intros k. split; [|done]. intros _ a H; by apply not_elem_of_nil in H. }
  rewrite map_app in Hnd. apply NoDup_app in Hnd as (Hnd & Hfresh & _).
  apply Forall_app in Hno as [Hno Ha]. apply Forall_cons in Ha as [Ha _].
  destruct (IH Hnd Hno) as (I1 & I2 & I3 & I4 & I5). clear IH.
  assert (Hg : gen (l ++ [a]) = add_attr_overlays o (gen l) a) by (unfold gen; by rewrite fold_left_app).
  rewrite Hg. destruct (add_attr_find a (gen l) Ha I1) as (F1 & F2 & F3).
  assert (Hfr : forall a', a' ∈ l -> at_name a' <> at_name a).
  { intros a' Hin E. apply (Hfresh (at_name a')).
    - apply elem_of_list_In, in_map, elem_of_list_In, Hin.
    - rewrite E. apply elem_of_list_here. }
  split; [by apply add_attr_all11|].
  destruct (slots_steps_spec (attr_keys o a) _ I2 I3) as [S1 S2].
  split; [by rewrite F1|]. split; [by rewrite F1|]. split.
  - intros k. rewrite F2. destruct (decide (is_Some (attr_datum a (gkey_slot k)))) as [Hs|Hn].
    + split; [done|]. intros H. destruct Hs as [d Hd]. rewrite H in Hd; [done|].
      apply elem_of_app. right. apply elem_of_list_here.
    + rewrite I4. apply eq_None_not_Some in Hn. split; intros H a' Hin.
      * apply elem_of_app in Hin as [Hin| ->%elem_of_list_singleton]; auto.
      * apply H. apply elem_of_app. by left.
  - intros k ov Hov. rewrite F2 in Hov.
    destruct (decide (is_Some (attr_datum a (gkey_slot k)))) as [Hs|Hn].
    2:{ destruct (I5 k ov Hov) as (J1 & J2 & J3 & J4 & J5). apply eq_None_not_Some in Hn.
        split; [done|]. split; [done|]. split; [done|]. split.
        - intros n d. rewrite J4. split; intros (a' & Hin & ? & ?); exists a'.
          + split; [apply elem_of_app; by left|done].
          + apply elem_of_app in Hin as [Hin| ->%elem_of_list_singleton]; [done|congruence].
        - intros f ->. destruct (J5 f eq_refl) as (meta & m & -> & M1 & M2). exists meta, m. split; [done|].
          simpl in Hn. apply fmap_None in Hn. split.
          + intros k v Hv. destruct (M1 k v Hv) as [?|(a' & fr & ? & ? & ?)]; [by left|right].
            exists a', fr. split; [apply elem_of_app; by left|done].
          + intros k Hk a' fr v Hin Hfr'. apply elem_of_app in Hin as [Hin| ->%elem_of_list_singleton].
            * by eapply M2.
            * congruence. }
    injection Hov as <-.
    assert (Hold : exists ov0, unwrap_or (gkey_new k) (find_slot (gkey_slot k) (gen l)) = ov0 /\
       body_slot (ov_body ov0) = gkey_slot k /\
       ov_said ov0 = None /\ ov_cb ov0 = None /\ body_tidy (ov_body ov0) /\
       (forall n d, body_datum (ov_body ov0) n = Some d <->
          exists a, a ∈ l /\ at_name a = n /\ attr_datum a (gkey_slot k) = Some d) /\
       (forall f, k = GFrame f -> meta_right l f (ov_body ov0))).
    { destruct (find_slot (gkey_slot k) (gen l)) as [ov0|] eqn:E; simpl.
      - exists ov0. split; [done|]. split; [by apply find_slot_some in E as [_ E]|]. by apply I5.
      - exists (gkey_new k). split; [done|]. split; [apply gkey_body_slot|]. split; [done|]. split; [done|].
        split; [apply gkey_body_tidy|]. split.
        + intros n d. cbn [gkey_new ov_body]. rewrite gkey_body_datum. split; [done|].
          intros (a' & Hin & _ & Hd). apply (I4 k) with (a := a') in E; [|done]. congruence.
        + intros f ->. exists {["frame_id" := f]}, ∅. split; [done|]. split.
          * intros k v Hv. apply lookup_singleton_Some in Hv as [<- <-]. by left.
          * intros k Hk a' fr v Hin Hfr'. apply (I4 (GFrame f)) with (a := a') in E; [|done].
            simpl in E. apply fmap_None in E. congruence. }
    destruct Hold as (ov0 & -> & Hsl & J1 & J2 & J3 & J4 & J5).
    assert (Hnone : body_datum (ov_body ov0) (at_name a) = None).
    { destruct (body_datum (ov_body ov0) (at_name a)) eqn:E; [|done].
      apply J4 in E as (a' & Hin & Hnm & _). by apply Hfr in Hin. }
    destruct (body_add_spec a (ov_body ov0) (gkey_slot k) Hsl Hs J3 Hnone) as [B1 B2].
    split; [done|]. split; [done|]. cbn [ov_add set_body ov_body]. split; [done|]. split.
    + intros n d. rewrite B2. destruct (decide (n = at_name a)) as [->|Hne].
      * split.
        -- intros Hd. exists a. split; [apply elem_of_app; right; apply elem_of_list_here|done].
        -- intros (a' & Hin & Hnm & Hd). apply elem_of_app in Hin as [Hin| ->%elem_of_list_singleton]; [|done].
           by apply Hfr in Hin.
      * rewrite J4. split; intros (a' & Hin & Hnm & Hd); exists a'.
        -- split; [apply elem_of_app; by left|done].
        -- apply elem_of_app in Hin as [Hin| ->%elem_of_list_singleton]; [done|congruence].
    + intros f ->. destruct (J5 f eq_refl) as (meta & m & Hb & M1 & M2). rewrite Hb. rewrite Hb in Hsl.
      apply body_slot_frame in Hsl as (meta' & m' & [= <- <-] & Hid). cbn [body_add]. rewrite Hid.
      destruct Hs as [d Hd]. simpl in Hd. apply fmap_Some in Hd as (fr & Hfa & ->). rewrite Hfa.
      eexists _, _. split; [done|].
      pose proof (fun k => frame_meta_of_spec [at_name a; "frame"; f] fr meta k) as Hspec. split.
      * intros k v Hv. destruct (proj1 (Hspec k) v Hv) as [[Hm _]|Hsc].
        -- destruct (M1 k v Hm) as [?|(a' & fr' & ? & ? & ?)]; [by left|right]. exists a', fr'.
           split; [apply elem_of_app; by left|done].
        -- right. exists a, fr. split; [apply elem_of_app; right; apply elem_of_list_here|done].
      * intros k Hk a' fr' v Hin Hfr'. destruct (proj2 (Hspec k) Hk) as [Hm Hsc].
        apply elem_of_app in Hin as [Hin| ->%elem_of_list_singleton].
        -- by eapply M2.
        -- rewrite Hfa in Hfr'. injection Hfr' as <-. apply Hsc.
Qed.
End Order.
