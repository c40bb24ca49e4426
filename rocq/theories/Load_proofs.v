(** Loading a bundle: what the loaded box is made of. *)
From Verif Require Import Spec_Build Upd_proofs Effect_proofs Command_proofs Bundle_proofs Box_proofs Overlays_proofs.

Section Load.
Variable o : order.
Hypothesis Ho : order_ok o.

Lemma imap_get_order {V} p (m : gmap string V) n : imap_get n (o p _ m) = m !! n.
Proof.
  apply option_eq. intros v. split.
  - intros H. apply imap_get_elem in H. by apply (order_elem o Ho) in H.
  - intros H. apply imap_get_nodup; [by apply order_nodup|]. by apply order_elem.
Qed.
Lemma imap_get_map {V} (l : imap V) : forall n, imap_get n l = (list_to_map l : gmap string V) !! n.
Proof.
  induction l as [|[k v] l IH]; intros n; [done|]. cbn. destruct (String.eqb_spec n k) as [->|];
    [by rewrite lookup_insert|by rewrite lookup_insert_ne, IH].
Qed.
Definition loadable (u : upd) : Prop :=
  match u with UFrame _ f => forall sc s, f !! sc = Some s -> fs_meta s !! "frame_id" = None | _ => True end.
Lemma load_conds_loadable d l us : load_conds d l = Some us -> Forall (fun nu => loadable nu.2) us.
Proof.
  revert us. induction l as [|[n c] l IH]; intros us; cbn; [intros [= <-]; constructor|].
  destruct (d !! n); [|done]. destruct (decode_condition c l0); [|done]. destruct (load_conds d l); [|done].
  intros [= <-]. constructor; [done|by apply IH].
Qed.
Lemma load_ops_loadable i ov us : load_ops o i ov = Some us -> Forall (fun nu => loadable nu.2) us.
Proof.
  unfold load_ops. destruct (ov_body ov); try (intros [= <-]; rewrite Forall_map; apply Forall_true; done); try (intros [= <-]; constructor).
  - apply load_conds_loadable.
  - destruct (meta !! "frame_id"); [|done]. intros [= <-]. rewrite Forall_map. apply Forall_true. intros [n f] sc s0.
    cbn. unfold with_meta, framing in *. rewrite lookup_fmap. destruct (f !! sc); [|done]. cbn. intros [= <-]. cbn. apply lookup_delete.
Qed.
(** Anything kept by flags and loadable updates holds after loading. *)
Section Inv.
Variable P : string -> attribute -> Prop.
Hypothesis Pflag : forall n a, P n a -> P n (set_flagged a).
Hypothesis Pupd : forall n a u, loadable u -> P n a -> P n (upd_attr u a).
Definition allP (m0 m : gmap string attribute) : Prop :=
  (forall n a, m !! n = Some a -> P n a) /\ forall n, is_Some (m !! n) <-> is_Some (m0 !! n).
Lemma load_upds_inv us : forall m m', Forall (fun nu => loadable nu.2) us -> (forall n a, m !! n = Some a -> P n a) ->
  fold_left load_upd us (Some m) = Some m' -> allP m m'.
Proof.
  induction us as [|[n u] us IH]; intros m m' Hl Hm; [intros [= <-]; by split|]. apply Forall_cons in Hl as [Hu Hl].
  cbn. destruct (m !! n) as [a|] eqn:Ha.
  - intros H. apply IH in H as [H1 H2]; [|done|].
    + split; [done|]. intros x. rewrite H2. destruct (decide (n = x)) as [<-|]; [rewrite lookup_insert, Ha; split; eauto|by rewrite lookup_insert_ne].
    + intros x b Hx. apply lookup_insert_Some in Hx as [[<- <-]|[_ Hx]]; [|by apply Hm]. apply Pupd; [done|by apply Hm].
  - clear. intros H. exfalso. revert H. induction us; [done|]. by cbn.
Qed.
Lemma fold_none {A} (f : option (gmap string attribute) -> A -> option (gmap string attribute)) l : (forall x, f None x = None) -> fold_left f l None = None.
Proof. intros H. induction l as [|x l IH]; [done|]. cbn. by rewrite H. Qed.
Lemma load_upd_none us : fold_left load_upd us None = None. Proof. by apply fold_none. Qed.
Lemma load_overlay_none iov : load_overlay o None iov = None.
Proof. unfold load_overlay. destruct (load_ops o iov.1 iov.2); [apply load_upd_none|done]. Qed.
Lemma load_overlays_inv l : forall m m', (forall n a, m !! n = Some a -> P n a) ->
  fold_left (load_overlay o) l (Some m) = Some m' -> allP m m'.
Proof.
  induction l as [|iov l IH]; intros m m' Hm; [intros [= <-]; by split|]. cbn [fold_left].
  destruct (load_overlay o (Some m) iov) as [m1|] eqn:E; [|rewrite fold_none by apply load_overlay_none; done].
  unfold load_overlay in E. destruct (load_ops o iov.1 iov.2) as [us|] eqn:Eu; [|done].
  apply load_upds_inv in E as [E1 E2]; [|by eapply load_ops_loadable|done]. intros H. apply IH in H as [H1 H2]; [|done].
  split; [done|]. intros n. by rewrite H2.
Qed.
Lemma load_kind_none ovs k : load_kind o ovs None k = None.
Proof. unfold load_kind. apply fold_none. apply load_overlay_none. Qed.
Lemma load_kinds_inv ovs ks : forall m m', (forall n a, m !! n = Some a -> P n a) ->
  fold_left (load_kind o ovs) ks (Some m) = Some m' -> allP m m'.
Proof.
  induction ks as [|k ks IH]; intros m m' Hm; [intros [= <-]; by split|]. cbn [fold_left].
  destruct (load_kind o ovs (Some m) k) as [m1|] eqn:E; [|rewrite fold_none by apply load_kind_none; done].
  unfold load_kind in E. apply load_overlays_inv in E as [E1 E2]; [|done]. intros H. apply IH in H as [H1 H2]; [|done].
  split; [done|]. intros n. by rewrite H2.
Qed.
Lemma load_flags_inv fl : forall m m', (forall n a, m !! n = Some a -> P n a) ->
  fold_left load_flag fl (Some m) = Some m' -> allP m m'.
Proof.
  induction fl as [|n fl IH]; intros m m' Hm; [intros [= <-]; by split|]. cbn [fold_left]. cbn [load_flag].
  destruct (m !! n) as [a|] eqn:Ha; [|rewrite fold_none by done; done].
  intros H. apply IH in H as [H1 H2].
  - split; [done|]. intros x. rewrite H2. destruct (decide (n = x)) as [<-|]; [rewrite lookup_insert, Ha; split; eauto|by rewrite lookup_insert_ne].
  - intros x b Hx. apply lookup_insert_Some in Hx as [[<- <-]|[_ Hx]]; [|by apply Hm]. apply Pflag. by apply Hm.
Qed.
End Inv.
Definition typed_attrs (l : imap nattr) : gmap string attribute :=
  fold_left (fun m (kv : string * nattr) => <[kv.1 := set_type kv.2 (attr_new kv.1)]> m) l ∅.
Lemma typed_lookup l n : NoDup (map fst l) -> typed_attrs l !! n = (fun t => set_type t (attr_new n)) <$> imap_get n l.
Proof.
  unfold typed_attrs. intros Hnd. enough (G : forall acc : gmap string attribute, fold_left (fun m (kv : string * nattr) => <[kv.1 := set_type kv.2 (attr_new kv.1)]> m) l acc !! n =
    match imap_get n l with Some t => Some (set_type t (attr_new n)) | None => acc !! n end).
  { rewrite G. by destruct (imap_get n l). }
  induction l as [|[k t] l IH]; intros acc; [done|]. cbn in Hnd. apply NoDup_cons in Hnd as [Hk Hnd]. cbn. rewrite IH by done.
  destruct (String.eqb_spec n k) as [->|].
  - rewrite (proj2 (imap_get_none k l)) by done. by rewrite lookup_insert.
  - by rewrite lookup_insert_ne.
Qed.
Lemma typed_names l n a : typed_attrs l !! n = Some a -> at_name a = n /\ api_attr a /\ is_Some (at_type a) /\ at_catlabels a = None.
Proof.
  unfold typed_attrs. enough (G : forall acc : gmap string attribute, (forall n a, acc !! n = Some a -> at_name a = n /\ api_attr a /\ is_Some (at_type a) /\ at_catlabels a = None) ->
    forall n a, fold_left (fun m (kv : string * nattr) => <[kv.1 := set_type kv.2 (attr_new kv.1)]> m) l acc !! n = Some a -> at_name a = n /\ api_attr a /\ is_Some (at_type a) /\ at_catlabels a = None).
  { apply G. intros ? ?. by rewrite lookup_empty. }
  induction l as [|[k t] l IH]; intros acc Hacc; [done|]. cbn. apply IH. intros x b Hx. apply lookup_insert_Some in Hx as [[<- <-]|[_ Hx]]; [|by apply Hacc].
  split; [done|]. split; [by constructor; constructor|]. split; [by eexists|done].
Qed.
Lemma load_attrs_inv (P : string -> attribute -> Prop) B m :
  (forall n a, P n a -> P n (set_flagged a)) -> (forall n a u, loadable u -> P n a -> P n (upd_attr u a)) ->
  (forall n a, typed_attrs (cb_attrs (b_cb B)) !! n = Some a -> P n a) ->
  load_attrs o B = Some m -> allP P (typed_attrs (cb_attrs (b_cb B))) m.
Proof.
  intros H1 H2 H3. unfold load_attrs. fold (typed_attrs (cb_attrs (b_cb B))).
  destruct (fold_left load_flag (cb_flagged (b_cb B)) (Some (typed_attrs (cb_attrs (b_cb B))))) as [m1|] eqn:E;
    [|rewrite fold_none by apply load_kind_none; done].
  apply (load_flags_inv P H1) in E as [E1 E2]; [|done]. intros H. apply (load_kinds_inv P H2) in H as [G1 G2]; [|done].
  split; [done|]. intros n. by rewrite G2.
Qed.
(** Adding fresh attributes one by one. *)
Lemma add_fresh (l : imap attribute) : forall b, NoDup (map fst l) -> (forall n a, (n, a) ∈ l -> at_name a = n /\ bx_attrs b !! n = None) ->
  let b' := fold_left (fun acc (kv : string * attribute) => add_attribute kv.2 acc) l b in
  bx_maps b' = bx_maps b /\ bx_meta b' = bx_meta b /\ bx_class b' = bx_class b /\
  forall n, bx_attrs b' !! n = match imap_get n l with Some a => Some a | None => bx_attrs b !! n end.
Proof.
  induction l as [|[k a] l IH]; intros b Hnd Hl; [done|]. cbn [map fst] in Hnd. apply NoDup_cons in Hnd as [Hk Hnd].
  cbn [fold_left fst snd]. cbn zeta in *. destruct (Hl k a) as [En Hf]; [left|].
  assert (E : add_attribute a b = put_attr k a b). { unfold add_attribute. by rewrite En, Hf. }
  rewrite E. destruct (IH (put_attr k a b)) as (H1 & H2 & H3 & H4); [done| |].
  - intros n x Hin. destruct (Hl n x) as [G1 G2]; [by right|]. split; [done|]. cbn. rewrite lookup_insert_ne; [done|].
    intros <-. apply Hk. apply elem_of_list_fmap. by exists (k, x).
  - repeat (split; [done|]). intros n. rewrite H4. cbn. destruct (String.eqb_spec n k) as [->|].
    + rewrite (proj2 (imap_get_none k l)) by done. by rewrite lookup_insert.
    + by rewrite lookup_insert_ne.
Qed.
Lemma load_metas l : forall b, let b' := fold_left (load_meta o) l b in
  bx_attrs b' = bx_attrs b /\ bx_maps b' = bx_maps b /\ bx_class b' = bx_class b /\ (api_box b -> api_box b').
Proof.
  induction l as [|iov l IH]; intros b; [done|]. cbn [fold_left]. cbn zeta in *.
  destruct (IH (load_meta o b iov)) as (-> & -> & -> & H4).
  assert (G : bx_attrs (load_meta o b iov) = bx_attrs b /\ bx_maps (load_meta o b iov) = bx_maps b /\ bx_class (load_meta o b iov) = bx_class b
     /\ (api_box b -> api_box (load_meta o b iov))).
  { unfold load_meta. destruct (ov_body iov.2) as [| | | | | | | | | |lg m| | | | | | ]; try done. generalize (o ["load"; dec_of_nat iov.1] _ m). intros kv. clear.
    revert b. induction kv as [|[k v] kv IH]; intros b; [done|]. cbn [fold_left fst snd]. destruct (IH (add_meta lg k v b)) as (-> & -> & -> & H4).
    repeat (split; [done|]). intros Hb. apply H4. by apply ab_meta. }
  destruct G as (-> & -> & -> & G). repeat (split; [done|]). auto.
Qed.
Lemma load_parts B bx : load o B = Some bx -> exists m, load_attrs o B = Some m /\ bx_attrs bx = m /\ bx_maps bx = None /\
  bx_class bx = Some (cb_class (b_cb B)) /\
  bx_meta bx = bx_meta (fold_left (load_meta o) (indexed (b_ovs B)) (add_classification (cb_class (b_cb B)) box_new)).
Proof.
  unfold load. destruct (load_attrs o B) as [m|] eqn:E; [|done]. intros [= <-]. exists m. split; [done|].
  set (b0 := fold_left (load_meta o) (indexed (b_ovs B)) (add_classification (cb_class (b_cb B)) box_new)).
  destruct (load_metas (indexed (b_ovs B)) (add_classification (cb_class (b_cb B)) box_new)) as (H1 & H2 & H3 & _). fold b0 in H1, H2, H3.
  apply (load_attrs_inv (fun n a => at_name a = n)) in E as [E _]; [|done|by intros n a u _; rewrite upd_attr_name|intros n a Ha; by apply (typed_names (cb_attrs (b_cb B)))].
  destruct (add_fresh (o ["load"] _ m) b0) as (G1 & G2 & G3 & G4).
  - by apply order_nodup.
  - intros n a Hin. apply (order_elem o Ho) in Hin. split; [by apply E|]. rewrite H1. apply lookup_empty.
  - rewrite G1, G2, G3, H2, H3. split; [|done]. apply map_eq. intros n. rewrite G4, imap_get_order, H1. cbn. rewrite lookup_empty. by destruct (m !! n).
Qed.
Lemma load_api B bx : load o B = Some bx -> api_box bx.
Proof.
  unfold load. destruct (load_attrs o B) as [m|] eqn:E; [|done]. intros [= <-].
  apply (load_attrs_inv (fun n a => api_attr a /\ is_Some (at_type a))) in E as [E _].
  - set (b0 := fold_left _ (indexed (b_ovs B)) _). assert (Hb0 : api_box b0). { apply load_metas. apply ab_class. constructor. }
    assert (G : forall l b, api_box b -> Forall (fun kv : string * attribute => api_attr kv.2 /\ is_Some (at_type kv.2)) l -> api_box (fold_left (fun acc kv => add_attribute kv.2 acc) l b)).
    { induction l as [|[k a] l IH]; intros b Hb Hl; [done|]. apply Forall_cons in Hl as [[H1 H2] Hl]. cbn. apply IH; [|done]. apply ab_add; auto. }
    apply G; [done|]. rewrite Forall_forall. intros [n a] Hin. apply (order_elem o Ho) in Hin. by apply (E n a).
  - intros n a [H1 H2]. split; [by constructor|done].
  - intros n a u Hu [H1 H2]. split; [|by destruct u]. destruct u; cbn; by constructor.
  - intros n a Ha. apply typed_names in Ha. naive_solver.
Qed.
Lemma load_types B bx : NoDup (map fst (cb_attrs (b_cb B))) -> load o B = Some bx ->
  forall n, box_types bx n = imap_get n (cb_attrs (b_cb B)).
Proof.
  intros Hnd H. apply load_parts in H as (m & E & H & _).
  apply (load_attrs_inv (fun n a => at_type a = imap_get n (cb_attrs (b_cb B)))) in E as [E1 E2].
  - intros n. unfold box_types. rewrite H. destruct (m !! n) as [a|] eqn:Hm; [by apply E1|]. cbn.
    destruct (imap_get n (cb_attrs (b_cb B))) as [t|] eqn:Et; [|done]. destruct (proj2 (E2 n)) as [x Hx]; [|congruence].
    rewrite typed_lookup, Et by done. by eexists.
  - done.
  - intros n a u _ <-. by destruct u.
  - intros n a. rewrite typed_lookup by done. destruct (imap_get n (cb_attrs (b_cb B))); [|done]. by intros [= <-].
Qed.
End Load.
