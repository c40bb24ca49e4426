(** C05: loading a generated bundle gives an equivalent box. *)
From Verif Require Import Spec_Build Upd_proofs Effect_proofs Command_proofs Load_proofs Run_proofs Build_proofs Flags_proofs
  Bundle_proofs Box_proofs Determinism_proofs Condition_proofs Overlays_proofs.

(** ** Folding updates that agree with each other *)
Definition agree (us : list (string * upd)) : Prop :=
  forall n u u', (n, u) ∈ us -> (n, u') ∈ us -> upd_slot u = upd_slot u' -> upd_datum u = upd_datum u'.
Lemma framing_union_self (f : framing) : f ∪ f = f.
Proof. apply map_eq. intros k. unfold framing in *. rewrite lookup_union. by destruct (f !! k). Qed.
Lemma upd_twice u a : (forall l, lookup_opt l (at_catlabels a) = None) ->
  attr_datum a (upd_slot u) = None \/ attr_datum a (upd_slot u) = Some (upd_datum u) ->
  attr_datum (upd_attr u a) (upd_slot u) = Some (upd_datum u).
Proof.
  intros Hc Ha. rewrite attr_datum_upd, decide_True by done. f_equal. destruct u; try done; cbn.
  - by rewrite Hc.
  - cbn in Ha. destruct (lookup_opt id (at_frames a)) as [g|]; [|done]. destruct Ha as [?|[= ->]]; [done|]. by rewrite framing_union_self.
Qed.
Lemma load_upds_agree us : forall m, agree us ->
  (forall n u, (n, u) ∈ us -> exists a, m !! n = Some a /\ (attr_datum a (upd_slot u) = None \/ attr_datum a (upd_slot u) = Some (upd_datum u))) ->
  (forall n a l, m !! n = Some a -> lookup_opt l (at_catlabels a) = None) ->
  exists m', fold_left load_upd us (Some m) = Some m' /\
    (forall n a, m !! n = Some a -> exists a', m' !! n = Some a' /\ at_type a' = at_type a /\ at_flag a' = at_flag a /\
       (forall l, lookup_opt l (at_catlabels a') = None) /\
       (forall u, (n, u) ∈ us -> attr_datum a' (upd_slot u) = Some (upd_datum u)) /\
       (forall s, (forall u, (n, u) ∈ us -> upd_slot u <> s) -> attr_datum a' s = attr_datum a s)) /\
    (forall n, m !! n = None -> m' !! n = None).
Proof.
  induction us as [|[n0 u0] us IH]; intros m Hag Hm Hcat.
  { exists m. split; [done|]. split; [|done]. intros n a Ha. exists a. repeat (split; [done|]). split; [intros l; by eapply Hcat|].
    split; [intros u Hu; by apply elem_of_nil in Hu|done]. }
  destruct (Hm n0 u0) as (a0 & Ha0 & Hd0); [left|].
  cbn [fold_left]. unfold load_upd at 2. cbn [fst snd]. rewrite Ha0.
  assert (Hdec : forall s s' : slot, s = s' \/ s <> s') by (intros s s'; destruct (decide (s = s')); auto).
  destruct (IH (<[n0 := upd_attr u0 a0]> m)) as (m' & E & H1 & H2).
  - intros n u u' Hu Hu'. apply (Hag n); by right.
  - intros n u Hu. destruct (Hm n u) as (a & Ha & Hd); [by right|]. destruct (decide (n = n0)) as [->|Hne].
    + rewrite Ha0 in Ha. injection Ha as <-. rewrite lookup_insert. eexists. split; [done|].
      destruct (Hdec (upd_slot u) (upd_slot u0)) as [Es|Es].
      * right. rewrite Es. rewrite upd_twice; [|by intros l; eapply Hcat|done]. f_equal. apply (Hag n0); [left|by right|done].
      * rewrite attr_datum_upd, decide_False by done. done.
    + rewrite lookup_insert_ne by done. eauto.
  - intros n a l Ha. destruct (decide (n = n0)) as [->|Hne].
    + rewrite lookup_insert in Ha. injection Ha as <-. destruct (upd_attr_same u0 a0) as (_ & _ & _ & ->). by eapply Hcat.
    + rewrite lookup_insert_ne in Ha by done. by eapply Hcat.
  - exists m'. split; [done|]. split.
    + intros n a Ha. destruct (decide (n = n0)) as [->|Hne].
      * rewrite Ha0 in Ha. injection Ha as <-. destruct (H1 n0 (upd_attr u0 a0)) as (a' & G1 & G2 & G3 & G4 & G5 & G6); [by rewrite lookup_insert|].
        destruct (upd_attr_same u0 a0) as (_ & T1 & T2 & _).
        exists a'. split; [done|]. split; [congruence|]. split; [congruence|]. split; [done|]. split.
        -- intros u [[= ->]|Hu]%elem_of_cons; [|by apply G5].
           destruct (decide (Exists (fun nu => nu.1 = n0 /\ upd_slot nu.2 = upd_slot u0) us)) as [Hex|Hex].
           ++ apply Exists_exists in Hex as ([n u] & Hin & En & Es). cbn in En, Es. subst n. rewrite <- Es. rewrite (G5 u Hin). f_equal.
              apply (Hag n0); [by right|left|done].
           ++ rewrite G6; [apply upd_twice; [by intros l; eapply Hcat|done]|]. intros u Hu Es. apply Hex. apply Exists_exists. by exists (n0, u).
        -- intros s Hs. rewrite G6; [|intros u Hu; apply Hs; by right]. rewrite attr_datum_upd, decide_False; [done|].
           intros ->. apply (Hs u0); [left|done].
      * destruct (H1 n a) as (a' & G1 & G2 & G3 & G4 & G5 & G6); [by rewrite lookup_insert_ne|]. exists a'. repeat (split; [done|]). split.
        -- intros u [[= -> _]|Hu]%elem_of_cons; [done|by apply G5].
        -- intros s Hs. apply G6. intros u Hu. apply Hs. by right.
    + intros n Hn. apply H2. rewrite lookup_insert_ne; [done|]. intros <-. congruence.
Qed.

(** ** Folding meta entries that agree *)
Lemma metas_agree ts : forall b, (forall l k v v', (l, k, v) ∈ ts -> (l, k, v') ∈ ts -> v = v') ->
  let b' := fold_left (fun acc (t : string * string * string) => add_meta t.1.1 t.1.2 t.2 acc) ts b in
  (forall l k v, (l, k, v) ∈ ts -> box_datum b' (SLang KMeta l) k = Some (DText v)) /\
  (forall l k, (forall v, (l, k, v) ∉ ts) -> box_datum b' (SLang KMeta l) k = box_datum b (SLang KMeta l) k).
Proof.
  induction ts as [|[[l0 k0] v0] ts IH]; intros b Hf; [split; [intros l k v H; by apply elem_of_nil in H|done]|].
  cbn [fold_left fst snd]. cbn zeta in *.
  destruct (IH (add_meta l0 k0 v0 b)) as [H1 H2]; [intros l k v v' Hv Hv'; apply (Hf l k); by right|].
  assert (Hadd : forall l k, box_datum (add_meta l0 k0 v0 b) (SLang KMeta l) k = if decide (l = l0 /\ k = k0) then Some (DText v0) else box_datum b (SLang KMeta l) k).
  { intros l k. rewrite !box_datum_meta. unfold add_meta. cbn [bx_meta unwrap_or]. generalize (unwrap_or ∅ (bx_meta b)) as meta. intros meta.
    destruct (decide (l = l0)) as [->|Hl].
    - rewrite lookup_insert. cbn. destruct (decide (k = k0)) as [->|Hk].
      + rewrite lookup_insert, decide_True by done. done.
      + rewrite lookup_insert_ne, decide_False by (done || by intros [_ ?]). destruct (meta !! l0); cbn; [done|by rewrite lookup_empty].
    - rewrite lookup_insert_ne, decide_False by (done || by intros [? _]). done. }
  split.
  - intros l k v [[= -> -> ->]|Hin]%elem_of_cons; [|by apply H1].
    destruct (decide (Exists (fun t => t.1 = (l0, k0)) ts)) as [Hex|Hex].
    + apply Exists_exists in Hex as ([lk v] & Hin & E). cbn in E. subst lk. rewrite (H1 l0 k0 v Hin). f_equal. f_equal. apply (Hf l0 k0); [by right|left].
    + rewrite H2; [rewrite Hadd, decide_True; done|]. intros v Hv. apply Hex. apply Exists_exists. by exists (l0, k0, v).
  - intros l k Hn. rewrite H2; [|intros v Hv; apply (Hn v); by right]. rewrite Hadd, decide_False; [done|].
    intros [-> ->]. apply (Hn v0). left.
Qed.

(** ** Loading a bundle that says what a box says *)
(** What loading needs of a bundle [B] for the box [b]: the facts, except for copies of frame metadata in scopes. *)
Definition ferase (d : datum) : datum := match d with DFraming f => DFraming (erase_frame f) | _ => d end.
Record loadable (b : obox) (B : bundle) : Prop := {
  lb_exists : forall s, s <> SPlain KAttributeMapping -> (exists n d, box_datum b s n = Some d) -> exists ov, ov ∈ b_ovs B /\ body_slot (ov_body ov) = s;
  lb_facts : forall ov n, ov ∈ b_ovs B -> is_mapping (ov_body ov) = false ->
    ferase <$> body_datum (ov_body ov) n = ferase <$> box_datum b (body_slot (ov_body ov)) n;
  lb_frame : forall ov meta m, ov ∈ b_ovs B -> ov_body ov = BFraming meta m ->
    exists f, meta !! "frame_id" = Some f /\
      (forall k v, k <> "frame_id" -> meta !! k = Some v -> frame_meta_says (bx_attrs b) f k v) /\
      (forall k v, frame_meta_says (bx_attrs b) f k v -> is_Some (meta !! k));
  lb_names : NoDup (map fst (cb_attrs (b_cb B)));
  lb_types : forall n t, (n, t) ∈ cb_attrs (b_cb B) <-> exists a, bx_attrs b !! n = Some a /\ at_type a = Some t;
  lb_class : cb_class (b_cb B) = unwrap_or "" (bx_class b);
  lb_flags : forall n, n ∈ cb_flagged (b_cb B) <-> exists a, bx_attrs b !! n = Some a /\ at_flag a = true }.
Lemma right_loadable b B : bundle_right b B -> loadable b B.
Proof.
  intros R. split; [| |apply R|apply R|apply R|apply R|apply R].
  - intros s Hs. by apply (br_exists b B R).
  - intros ov n Hin Hm. f_equal. apply option_eq. intros d. apply (br_facts b B R); [done|].
    destruct (ov_body ov) as [| | | | | | | | | | | |meta m| | | |]; try done. cbn. destruct (meta !! "frame_id"); done.
Qed.
Section Reload.
Variable o : order.
Hypothesis Ho : order_ok o.
Variable b : obox.
Variable B : bundle.
Hypothesis R : loadable b B.
Hypothesis Hb : box_ok b.
Hypothesis Hcat : forall n a l, bx_attrs b !! n = Some a -> lookup_opt l (at_catlabels a) = None.
Hypothesis Hfc : frames_consistent b.

Definition loaded (bd : body) (d : datum) (u : upd) : Prop :=
  upd_slot u = body_slot bd /\
  match u with
  | UFrame id g => exists meta m f, bd = BFraming meta m /\ d = DFraming f /\ g = with_meta (delete "frame_id" meta) f
  | ULabel _ t => exists c, d = DLabel t c
  | _ => upd_datum u = d
  end.
Definition no_meta (bd : body) : Prop := forall l m, bd <> BMeta l m.

Lemma each_elem {V} (f : V -> upd) (m : gmap string V) p n u :
  (n, u) ∈ map (fun kv : string * V => (kv.1, f kv.2)) (o p _ m) <-> exists v, m !! n = Some v /\ u = f v.
Proof.
  rewrite elem_of_list_fmap. split.
  - intros ([k v] & [= -> ->] & Hin). apply (order_elem o Ho) in Hin. eauto.
  - intros (v & Hv & ->). exists (n, v). split; [done|]. by apply (order_elem o Ho).
Qed.
Lemma ferase_plain d d' : (forall f, d <> DFraming f) -> ferase d = ferase d' -> d = d'.
Proof. intros H E. destruct d, d'; cbn in E; try done. by destruct (H f). Qed.
Lemma plain_body bd n d : (forall meta m, bd <> BFraming meta m) -> body_datum bd n = Some d -> forall f, d <> DFraming f.
Proof.
  intros H Hd f ->. destruct bd; cbn in Hd; try (match type of Hd with _ <$> ?x = _ => destruct x; done end); try done. by eapply H.
Qed.
Lemma fact ov n d : ov ∈ b_ovs B -> is_mapping (ov_body ov) = false -> (forall meta m, ov_body ov <> BFraming meta m) ->
  body_datum (ov_body ov) n = Some d <-> box_datum b (body_slot (ov_body ov)) n = Some d.
Proof.
  intros Hin Hm Hf. pose proof (lb_facts b B R ov n Hin Hm) as E. split; intros H.
  - rewrite H in E. destruct (box_datum _ _ _) as [d'|]; [|done]. injection E as E. f_equal. symmetry. apply ferase_plain; [by eapply plain_body|done].
  - rewrite H in E. destruct (body_datum _ _) as [d'|] eqn:D; [|done]. injection E as E. f_equal. apply ferase_plain; [by eapply plain_body|done].
Qed.
Lemma with_meta_erase m (f f' : framing) : erase_frame f = erase_frame f' -> with_meta m f = with_meta m f'.
Proof.
  intros E. unfold with_meta, erase_frame, framing in *. apply map_eq. intros k. assert (E' : (erase_scope <$> f) !! k = (erase_scope <$> f') !! k) by by rewrite E.
  rewrite !lookup_fmap in *. destruct (f !! k) as [[]|], (f' !! k) as [[]|]; cbn in *; try done; unfold erase_scope in E'; cbn in E'; injection E' as -> ->; done.
Qed.
Lemma fact_loaded ov n d u : ov ∈ b_ovs B -> is_mapping (ov_body ov) = false -> body_datum (ov_body ov) n = Some d -> loaded (ov_body ov) d u ->
  exists d', box_datum b (body_slot (ov_body ov)) n = Some d' /\ loaded (ov_body ov) d' u.
Proof.
  intros Hin Hm H [L1 L2]. pose proof (lb_facts b B R ov n Hin Hm) as E. rewrite H in E. destruct (box_datum _ _ _) as [d'|]; [|done]. injection E as E.
  exists d'. split; [done|]. split; [done|].
  destruct u; try (rewrite <- L2 in *; apply ferase_plain in E; [done|by intros]).
  - destruct L2 as [c ->]. apply ferase_plain in E as <-; [by eexists|done].
  - destruct L2 as (meta & m & f0 & E1 & -> & ->). destruct d' as [| | | | | |f']; try done. cbn in E. injection E as E. exists meta, m, f'.
    split; [done|]. split; [done|]. by apply with_meta_erase.
Qed.
Lemma fact_some ov n d : ov ∈ b_ovs B -> is_mapping (ov_body ov) = false -> box_datum b (body_slot (ov_body ov)) n = Some d -> exists d', body_datum (ov_body ov) n = Some d'.
Proof.
  intros Hin Hm H. pose proof (lb_facts b B R ov n Hin Hm) as E. rewrite H in E. destruct (body_datum _ _) as [d'|]; [by eexists|done].
Qed.
Lemma cond_datum n c d : box_datum b (SPlain KConditional) n = Some (DCondition c d) -> exists t, c = (encode_condition t).1 /\ d = Some (encode_condition t).2.
Proof.
  rewrite box_datum_attr by done. destruct (bx_attrs b !! n) as [a|] eqn:Ha; [|done]. cbn.
  destruct (ok_conds b Hb n a Ha) as [[E1 E2]|(t & E1 & E2)]; rewrite E1; [done|]. cbn. rewrite E2. intros [= <- <-]. eauto.
Qed.
Lemma load_conds_spec d l : (forall n c, (n, c) ∈ l -> exists t, c = (encode_condition t).1 /\ d !! n = Some (encode_condition t).2) ->
  exists us, load_conds d l = Some us /\ forall n u, (n, u) ∈ us <-> exists t, u = UCond t /\ (n, (encode_condition t).1) ∈ l /\ d !! n = Some (encode_condition t).2.
Proof.
  induction l as [|[n0 c0] l IH]; intros H.
  - exists []. split; [done|]. intros n u. split; [by intros ?%elem_of_nil|]. intros (t & _ & Ht & _). by apply elem_of_nil in Ht.
  - destruct IH as (us & E & IH); [intros n c Hin; apply H; by right|].
    destruct (H n0 c0) as (t & -> & Ht); [left|]. cbn. rewrite Ht, decode_encode_condition, E. eexists. split; [done|].
    intros n u. rewrite elem_of_cons, IH. split.
    + intros [[= -> ->]|(t' & -> & H1 & H2)]; [exists t; split; [done|]; split; [left|done]|]. exists t'. split; [done|]. split; [by right|done].
    + intros (t' & -> & [[= -> E']|Hin]%elem_of_cons & H2); [|right; eauto].
      left. f_equal. f_equal. rewrite Ht in H2. injection H2 as H2.
      pose proof (decode_encode_condition t) as D. rewrite <- E', H2, decode_encode_condition in D. by injection D.
Qed.
Lemma ops_spec i ov : ov ∈ b_ovs B -> exists us, load_ops o i ov = Some us /\
  (forall n u, (n, u) ∈ us -> exists d, box_datum b (body_slot (ov_body ov)) n = Some d /\ loaded (ov_body ov) d u) /\
  (body_kind (ov_body ov) ∈ load_kinds -> forall n d, box_datum b (body_slot (ov_body ov)) n = Some d -> exists u, (n, u) ∈ us).
Proof.
  intros Hin.
  assert (Hsimple : forall {V} (f : V -> upd) (m : gmap string V) p, is_mapping (ov_body ov) = false ->
    (forall n v, m !! n = Some v -> exists d, body_datum (ov_body ov) n = Some d /\ loaded (ov_body ov) d (f v)) ->
    (forall n d, body_datum (ov_body ov) n = Some d -> is_Some (m !! n)) ->
    exists us, Some (map (fun kv : string * V => (kv.1, f kv.2)) (o p _ m)) = Some us /\
    (forall n u, (n, u) ∈ us -> exists d, box_datum b (body_slot (ov_body ov)) n = Some d /\ loaded (ov_body ov) d u) /\
    (body_kind (ov_body ov) ∈ load_kinds -> forall n d, box_datum b (body_slot (ov_body ov)) n = Some d -> exists u, (n, u) ∈ us)).
  { intros V f m p Hmap H1 H2. eexists. split; [done|]. split.
    - intros n u Hu. apply each_elem in Hu as (v & Hv & ->). destruct (H1 n v Hv) as (d & Hd & HL). by apply (fact_loaded ov n d).
    - intros _ n d Hd. apply fact_some in Hd as [d' Hd]; [|done|done]. destruct (H2 n d' Hd) as [v Hv]. exists (f v). apply each_elem. eauto. }
  assert (Hnone : body_kind (ov_body ov) ∉ load_kinds -> exists us, Some [] = Some us /\
    (forall n u, (n, u) ∈ us -> exists d, box_datum b (body_slot (ov_body ov)) n = Some d /\ loaded (ov_body ov) d u) /\
    (body_kind (ov_body ov) ∈ load_kinds -> forall n d, box_datum b (body_slot (ov_body ov)) n = Some d -> exists u, (n, u) ∈ us)).
  { intros Hk. exists []. split; [done|]. split; [intros n u Hu; by apply elem_of_nil in Hu|done]. }
  assert (Hnk : forall k, k ∈ load_kinds -> bool_decide (k ∈ load_kinds) = true) by (intros k Hk; by apply bool_decide_eq_true).
  pose proof (fun n d => fact ov n d Hin) as F. unfold load_ops.
  destruct (ov_body ov) as [m|m|m|m|m|c d|m|l m|l cats m cl|l m|l m|t m|meta m|m|l|l|m] eqn:Ebd;
    try (apply Hnone; intros Hk; apply Hnk in Hk; vm_compute in Hk; done);
    try (apply Hsimple; [done|intros n v Hv; eexists; cbn; rewrite Hv; split; [reflexivity|]; by split|
                         intros n d0; cbn; destruct (m !! n); [by eexists|done]]).
  - destruct (load_conds_spec d (o ["load"; dec_of_nat i] _ c)) as (us & E & Hus).
    + intros n x Hx. apply (order_elem o Ho) in Hx. specialize (F n (DCondition x (d !! n)) eq_refl ltac:(by intros)). cbn in F. rewrite Hx in F.
      destruct (cond_datum n x (d !! n)) as (t & -> & Ht); [by apply F|]. eauto.
    + exists us. split; [done|]. split.
      * intros n u Hu. apply Hus in Hu as (t & -> & H1 & H2). apply (order_elem o Ho) in H1.
        exists (DCondition (encode_condition t).1 (d !! n)). split; [apply F; [done|by intros|]; cbn; by rewrite H1|]. split; [done|]. cbn. by rewrite H2.
      * intros _ n x Hx. apply F in Hx; [|done|by intros]. cbn in Hx. destruct (c !! n) as [y|] eqn:Ey; [|done].
        destruct (cond_datum n y (d !! n)) as (t & -> & Ht); [apply F; [done|by intros|]; cbn; by rewrite Ey|].
        exists (UCond t). apply Hus. exists t. split; [done|]. split; [|done]. by apply (order_elem o Ho).
  - apply Hsimple; [done| |].
    + intros n v Hv. exists (DLabel v (cl !! n)). split; [cbn; by rewrite Hv|]. split; [done|]. by eexists.
    + intros n d. cbn. destruct (m !! n); [by eexists|done].
  - destruct (lb_frame b B R ov meta m Hin Ebd) as (f & Hf & _). rewrite Hf. apply (Hsimple framing (fun g => UFrame f (with_meta (delete "frame_id" meta) g))); [done| |].
    + intros n v Hv. exists (DFraming v). split; [cbn; by rewrite Hv|]. split; [cbn; by rewrite Hf|]. eauto 8.
    + intros n d. cbn. destruct (m !! n); [by eexists|done].
Qed.
(** The frame metadata of an overlay is what the box says. *)
Lemma frame_meta_exact ov meta m : ov ∈ b_ovs B -> ov_body ov = BFraming meta m -> exists f, meta !! "frame_id" = Some f /\
  forall k v, delete "frame_id" meta !! k = Some v <-> frame_meta_says (bx_attrs b) f k v.
Proof.
  intros Hin E. destruct (lb_frame b B R ov meta m Hin E) as (f & Hf & H1 & H2). exists f. split; [done|]. intros k v. split.
  - rewrite lookup_delete_Some. intros [Hk Hv]. apply H1; [done|done].
  - intros Hs. rewrite lookup_delete_Some. destruct (decide (k = "frame_id")) as [->|Hk]; [by apply (ok_frames b Hb) in Hs|].
    split; [done|]. destruct (H2 k v Hs) as [w Hw]. rewrite Hw. f_equal. apply (Hfc f k); [by apply H1|done].
Qed.
Lemma loaded_fun ov ov' n d u d' u' : ov ∈ b_ovs B -> ov' ∈ b_ovs B ->
  box_datum b (body_slot (ov_body ov)) n = Some d -> loaded (ov_body ov) d u ->
  box_datum b (body_slot (ov_body ov')) n = Some d' -> loaded (ov_body ov') d' u' ->
  upd_slot u = upd_slot u' -> upd_datum u = upd_datum u'.
Proof.
  intros Hin Hin' Hd [Hs HL] Hd' [Hs' HL'] Es. rewrite <- Hs in Hd. rewrite <- Hs', <- Es in Hd'. rewrite Hd in Hd'. injection Hd' as <-.
  destruct u; destruct u'; try done; try (by rewrite HL, HL').
  { destruct HL as [c ->], HL' as [c' [= -> _]]. done. }
  destruct HL as (meta & m & g0 & E1 & -> & ->), HL' as (meta' & m' & g1 & E1' & [= <-] & ->). cbn in Es. injection Es as <-. cbn. f_equal.
  unfold with_meta. f_equal.
  destruct (frame_meta_exact ov meta m Hin E1) as (x & Hx & Hm), (frame_meta_exact ov' meta' m' Hin' E1') as (x' & Hx' & Hm').
  rewrite E1 in Hs. rewrite E1' in Hs'. cbn in Hs, Hs'. rewrite Hx in Hs. rewrite Hx' in Hs'. injection Hs as <-. injection Hs' as <-.
  assert (E : delete "frame_id" meta = delete "frame_id" meta'); [|by rewrite E].
  apply map_eq. intros k. apply option_eq. intros v. by rewrite Hm, Hm'.
Qed.
Lemma loaded_erase bd d u : (forall t c, d = DLabel t c -> c = None) -> loaded bd d u -> erase_datum (upd_datum u) = erase_datum d.
Proof.
  intros Hl [_ H]. destruct u; try (by rewrite H). { destruct H as [c ->]. by rewrite (Hl _ _ eq_refl). } destruct H as (meta & m & f0 & _ & -> & ->). cbn. f_equal.
  apply map_eq. intros k. unfold erase_frame, with_meta, framing in *. rewrite !lookup_fmap. by destruct (f0 !! k).
Qed.
Lemma label_none n a s t c : bx_attrs b !! n = Some a -> attr_datum a s = Some (DLabel t c) -> c = None.
Proof.
  intros Ha. destruct s as [k|k l|x|f]; [destruct k; cbn|destruct k; cbn -[lookup_opt]|cbn -[lookup_opt]|cbn -[lookup_opt]]; try done;
    try (match goal with |- _ <$> ?x = _ -> _ => destruct x; done end).
  rewrite (Hcat n a l Ha). destruct (lookup_opt l (at_labels a)); [|done]. by intros [= _ <-].
Qed.
(** All updates of the load, in order. *)
Definition ov_upds (iov : nat * overlay) : list (string * upd) := unwrap_or [] (load_ops o iov.1 iov.2).
Lemma overlays_upds l x : (forall iov, iov ∈ l -> iov.2 ∈ b_ovs B) ->
  fold_left (load_overlay o) l x = fold_left load_upd (concat (map ov_upds l)) x.
Proof.
  revert x. induction l as [|iov l IH]; intros x H; [done|]. cbn [fold_left map concat]. rewrite fold_left_app, IH; [|intros y Hy; apply H; by right].
  f_equal. unfold load_overlay, ov_upds. destruct (ops_spec iov.1 iov.2) as (us & -> & _); [apply H; left|]. done.
Qed.
Lemma indexed_elem {A} (l : list A) iov : iov ∈ indexed l <-> l !! iov.1 = Some iov.2.
Proof.
  unfold indexed. destruct iov as [i x]. cbn.
  assert (G : forall (l : list A) k, (i, x) ∈ zip (seq k (length l)) l <-> (k <= i)%nat /\ l !! (i - k)%nat = Some x).
  { clear. induction l as [|y l IH]; intros k; [split; [by intros ?%elem_of_nil|by intros [_ ?]]|].
    cbn [length seq zip zip_with]. rewrite elem_of_cons, IH. split.
    - intros [[= -> ->]|[H1 H2]]; [rewrite Nat.sub_diag; done|]. split; [lia|].
      replace (i - k)%nat with (S (i - S k)) by lia. done.
    - intros [H1 H2]. destruct (decide (i = k)) as [->|Hne]; [rewrite Nat.sub_diag in H2; injection H2 as ->; by left|].
      right. split; [lia|]. by replace (i - k)%nat with (S (i - S k)) in H2 by lia. }
  rewrite G, Nat.sub_0_r. split; [by intros [_ ?]|]. intros H. split; [lia|done].
Qed.
Definition kind_list (k : okind) : list (nat * overlay) :=
  List.filter (fun iov => bool_decide (body_kind (ov_body iov.2) = k)) (indexed (b_ovs B)).
Lemma kind_list_elem k iov : iov ∈ kind_list k <-> b_ovs B !! iov.1 = Some iov.2 /\ body_kind (ov_body iov.2) = k.
Proof.
  unfold kind_list. rewrite elem_of_list_In, filter_In, <- elem_of_list_In, indexed_elem, bool_decide_eq_true. done.
Qed.
Definition all_upds : list (string * upd) := concat (map (fun k => concat (map ov_upds (kind_list k))) load_kinds).
Lemma kinds_upds ks x : fold_left (load_kind o (b_ovs B)) ks x = fold_left load_upd (concat (map (fun k => concat (map ov_upds (kind_list k))) ks)) x.
Proof.
  revert x. induction ks as [|k ks IH]; intros x; [done|]. cbn [fold_left map concat]. rewrite fold_left_app, IH. f_equal.
  unfold load_kind. fold (kind_list k). apply overlays_upds. intros iov H. apply kind_list_elem in H as [H _]. by apply elem_of_list_lookup_2 in H.
Qed.
Lemma concat_elem {A} (x : A) ls : x ∈ concat ls <-> exists l, x ∈ l /\ l ∈ ls.
Proof. rewrite elem_of_list_In, in_concat. setoid_rewrite <- elem_of_list_In. split; intros (l & H1 & H2); eauto. Qed.
Lemma all_upds_elem n u : (n, u) ∈ all_upds <-> exists i ov us, b_ovs B !! i = Some ov /\ body_kind (ov_body ov) ∈ load_kinds /\
  load_ops o i ov = Some us /\ (n, u) ∈ us.
Proof.
  unfold all_upds. rewrite concat_elem. split.
  - intros (l & Hl & Hk). apply elem_of_list_fmap in Hk as (k & -> & Hk). apply concat_elem in Hl as (l' & Hl' & Hx).
    apply elem_of_list_fmap in Hx as ([i ov] & -> & Hx). apply kind_list_elem in Hx as [H1 <-]. cbn [fst snd] in *.
    unfold ov_upds in Hl'. cbn [fst snd] in Hl'. destruct (load_ops o i ov) as [us|] eqn:E; [|by apply elem_of_nil in Hl']. exists i, ov, us. done.
  - intros (i & ov & us & H1 & H2 & H3 & H4). exists (concat (map ov_upds (kind_list (body_kind (ov_body ov))))). split.
    + apply concat_elem. exists us. split; [done|]. apply elem_of_list_fmap. exists (i, ov). split; [unfold ov_upds; cbn; by rewrite H3|].
      by apply kind_list_elem.
    + apply elem_of_list_fmap. by exists (body_kind (ov_body ov)).
Qed.
Lemma all_upds_sound n u : (n, u) ∈ all_upds -> exists ov d, ov ∈ b_ovs B /\ box_datum b (body_slot (ov_body ov)) n = Some d /\ loaded (ov_body ov) d u
  /\ exists a, bx_attrs b !! n = Some a.
Proof.
  intros H. apply all_upds_elem in H as (i & ov & us & H1 & H2 & H3 & H4). apply elem_of_list_lookup_2 in H1.
  destruct (ops_spec i ov H1) as (us' & E & G & _). rewrite H3 in E. injection E as <-. destruct (G n u H4) as (d & Hd & HL). exists ov, d.
  repeat (split; [done|]). rewrite box_datum_attr in Hd.
  - destruct (bx_attrs b !! n) as [a|]; [eauto|done].
  - intros l E. destruct HL as [HL _]. rewrite E in HL. by destruct u.
Qed.
Lemma slot_kind bd s a d : body_slot bd = s -> attr_datum a s = Some d -> body_kind bd ∈ load_kinds.
Proof.
  intros <-. destruct bd as [| | | | | | | | | | | |meta m| | | |]; cbn; try done; intros _; unfold load_kinds; repeat (first [by left | right]).
Qed.
Lemma all_upds_complete n a s d : bx_attrs b !! n = Some a -> attr_datum a s = Some d ->
  exists ov u, ov ∈ b_ovs B /\ body_slot (ov_body ov) = s /\ (n, u) ∈ all_upds /\ loaded (ov_body ov) d u.
Proof.
  intros Ha Hd. assert (Hm : s <> SPlain KAttributeMapping) by (intros ->; done).
  assert (Hbd : box_datum b s n = Some d). { rewrite box_datum_attr; [by rewrite Ha|]. intros l ->. done. }
  destruct (lb_exists b B R s Hm) as (ov & Hin & Es); [eauto|]. apply elem_of_list_lookup_1 in Hin as [i Hi].
  pose proof (elem_of_list_lookup_2 _ _ _ Hi) as Hin. destruct (ops_spec i ov Hin) as (us & E & G1 & G2).
  assert (Hk : body_kind (ov_body ov) ∈ load_kinds) by (by eapply slot_kind).
  destruct (G2 Hk n d) as [u Hu]; [by rewrite Es|]. exists ov, u. split; [done|]. split; [done|]. split; [apply all_upds_elem; eauto 10|].
  destruct (G1 n u Hu) as (d' & Hd' & HL). rewrite Es, Hbd in Hd'. by injection Hd' as <-.
Qed.
Lemma types_lookup n : imap_get n (cb_attrs (b_cb B)) = (a ← bx_attrs b !! n; at_type a).
Proof.
  apply option_eq. intros t. split.
  - intros H. apply imap_get_elem in H. apply (lb_types b B R) in H as (a & -> & H). done.
  - intros H. destruct (bx_attrs b !! n) as [a|] eqn:Ha; [|done]. cbn in H. apply imap_get_nodup; [apply (lb_names b B R)|].
    apply (lb_types b B R). eauto.
Qed.
Lemma typed_known n : is_Some (typed_attrs (cb_attrs (b_cb B)) !! n) <-> is_Some (bx_attrs b !! n).
Proof.
  rewrite typed_lookup by apply (lb_names b B R). rewrite fmap_is_Some, types_lookup. destruct (bx_attrs b !! n) as [a|] eqn:Ha; cbn.
  - split; [by eexists|]. intros _. by apply (ok_types b Hb n).
  - split; by intros [? ?].
Qed.
Lemma flags_total fl : forall m : gmap string attribute, (forall n, n ∈ fl -> is_Some (m !! n)) -> is_Some (fold_left load_flag fl (Some m)).
Proof.
  induction fl as [|n fl IH]; intros m H; [by eexists|]. cbn [fold_left load_flag]. destruct (H n) as [a Ha]; [left|]. rewrite Ha. apply IH.
  intros x Hx. destruct (decide (n = x)) as [->|]; [rewrite lookup_insert; by eexists|]. rewrite lookup_insert_ne by done. apply H. by right.
Qed.
Lemma flag_keeps fl : forall m m' : gmap string attribute, fold_left load_flag fl (Some m) = Some m' -> forall n,
  match m !! n, m' !! n with
  | Some a, Some a' => at_type a' = at_type a /\ at_catlabels a' = at_catlabels a /\ forall s, attr_datum a' s = attr_datum a s
  | None, None => True | _, _ => False end.
Proof.
  induction fl as [|x fl IH]; intros m m'; [intros [= <-] n; by destruct (m !! n)|]. cbn [fold_left load_flag].
  destruct (m !! x) as [a|] eqn:Ha; [|rewrite fold_none by done; done]. intros H n. specialize (IH _ _ H n).
  destruct (decide (x = n)) as [<-|Hne].
  - rewrite lookup_insert in IH. rewrite Ha. destruct (m' !! x); [|done]. destruct IH as (-> & -> & IH). repeat (split; [done|]). intros s. by rewrite IH.
  - rewrite lookup_insert_ne in IH by done. done.
Qed.
Lemma reload_attrs : exists m', load_attrs o B = Some m' /\
  (forall n, bx_attrs b !! n = None -> m' !! n = None) /\
  (forall n a, bx_attrs b !! n = Some a -> exists a', m' !! n = Some a' /\ (forall l, lookup_opt l (at_catlabels a') = None) /\
     (forall u, (n, u) ∈ all_upds -> attr_datum a' (upd_slot u) = Some (upd_datum u)) /\
     (forall s, (forall u, (n, u) ∈ all_upds -> upd_slot u <> s) -> attr_datum a' s = None)).
Proof.
  unfold load_attrs. fold (typed_attrs (cb_attrs (b_cb B))).
  destruct (flags_total (cb_flagged (b_cb B)) (typed_attrs (cb_attrs (b_cb B)))) as [m1 E1].
  { intros n Hn. apply typed_known. apply (lb_flags b B R) in Hn as (a & -> & _). by eexists. }
  rewrite E1, kinds_upds. fold all_upds. pose proof (flag_keeps _ _ _ E1) as K.
  assert (T : forall n a, typed_attrs (cb_attrs (b_cb B)) !! n = Some a -> (forall s, attr_datum a s = None) /\ at_catlabels a = None).
  { intros n a. rewrite typed_lookup by apply (lb_names b B R). destruct (imap_get n _); [|done]. intros [= <-].
    split; [|done]. intros s. destruct s as [k|k l|t|f]; [by destruct k|by destruct k|done|done]. }
  assert (K1 : forall n a, m1 !! n = Some a -> (forall s, attr_datum a s = None) /\ at_catlabels a = None).
  { intros n a Ha. specialize (K n). rewrite Ha in K. destruct (typed_attrs (cb_attrs (b_cb B)) !! n) as [a0|] eqn:E0; [|done].
    destruct (T n a0 E0) as [T1 T2]. destruct K as (_ & -> & K). split; [|done]. intros s. by rewrite K. }
  assert (K2 : forall n, is_Some (m1 !! n) <-> is_Some (bx_attrs b !! n)).
  { intros n. rewrite <- typed_known. specialize (K n). destruct (typed_attrs _ !! n), (m1 !! n); try done; split; by eexists. }
  destruct (load_upds_agree all_upds m1) as (m' & E & H1 & H2).
  - intros n u u' Hu Hu'. apply all_upds_sound in Hu as (ov & d & Ho1 & Hd & HL & _). apply all_upds_sound in Hu' as (ov' & d' & Ho1' & Hd' & HL' & _).
    exact (loaded_fun ov ov' n d u d' u' Ho1 Ho1' Hd HL Hd' HL').
  - intros n u Hu. apply all_upds_sound in Hu as (_ & _ & _ & _ & _ & a & Ha). destruct (proj2 (K2 n)) as [a1 Ha1]; [by eexists|].
    exists a1. split; [done|]. left. by apply (K1 n).
  - intros n a l Ha. apply K1 in Ha as [_ ->]. done.
  - exists m'. split; [done|]. split.
    + intros n Hn. apply H2. destruct (m1 !! n) eqn:E'; [|done]. exfalso. destruct (proj1 (K2 n)) as [? ?]; [by eexists|congruence].
    + intros n a Ha. destruct (proj2 (K2 n)) as [a1 Ha1]; [by eexists|]. destruct (H1 n a1 Ha1) as (a' & G1 & _ & _ & G4 & G5 & G6).
      exists a'. split; [done|]. split; [done|]. split; [done|]. intros s Hs. rewrite G6 by done. by apply (K1 n).
Qed.
Lemma upds_total us : forall m : gmap string attribute, (forall n u, (n, u) ∈ us -> is_Some (m !! n)) -> is_Some (fold_left load_upd us (Some m)).
Proof.
  induction us as [|[n u] us IH]; intros m H; [by eexists|]. cbn [fold_left]. unfold load_upd at 2. cbn [fst snd].
  destruct (H n u) as [a Ha]; [left|]. rewrite Ha. apply IH.
  intros x v Hx. destruct (decide (n = x)) as [->|]; [rewrite lookup_insert; by eexists|]. rewrite lookup_insert_ne by done. apply (H x v). by right.
Qed.
Lemma load_never_panics : is_Some (load o B).
Proof.
  enough (G : is_Some (load_attrs o B)). { destruct G as [m E]. unfold load. rewrite E. by eexists. }
  unfold load_attrs. fold (typed_attrs (cb_attrs (b_cb B))).
  destruct (flags_total (cb_flagged (b_cb B)) (typed_attrs (cb_attrs (b_cb B)))) as [m1 E1].
  { intros n Hn. apply typed_known. apply (lb_flags b B R) in Hn as (a & -> & _). by eexists. }
  rewrite E1, kinds_upds. fold all_upds. apply upds_total. intros n u Hu.
  apply all_upds_sound in Hu as (_ & _ & _ & _ & _ & a & Ha). pose proof (flag_keeps _ _ _ E1 n) as K.
  destruct (proj2 (typed_known n)) as [x Hx]; [by eexists|]. rewrite Hx in K. by destruct (m1 !! n).
Qed.
(** Meta. *)
Definition meta_triples : list (string * string * string) :=
  concat (map (fun iov : nat * overlay => match ov_body iov.2 with BMeta l m => map (fun kv : string * string => (l, kv.1, kv.2)) (o ["load"; dec_of_nat iov.1] _ m) | _ => [] end) (indexed (b_ovs B))).
Lemma load_meta_triples l x : fold_left (load_meta o) l x =
  fold_left (fun acc (t : string * string * string) => add_meta t.1.1 t.1.2 t.2 acc)
   (concat (map (fun iov : nat * overlay => match ov_body iov.2 with BMeta l m => map (fun kv : string * string => (l, kv.1, kv.2)) (o ["load"; dec_of_nat iov.1] _ m) | _ => [] end) l)) x.
Proof.
  revert x. induction l as [|iov l IH]; intros x; [done|]. cbn [fold_left map concat]. rewrite fold_left_app, IH. f_equal.
  unfold load_meta. destruct (ov_body iov.2) as [| | | | | | | | | |lg m| | | | | |]; try done. generalize (o ["load"; dec_of_nat iov.1] _ m). clear. intros kvs. revert x.
  induction kvs as [|[k v] kvs IH]; intros x; [done|]. cbn [fold_left map fst snd]. apply IH.
Qed.
Lemma meta_triple_elem l k v : (l, k, v) ∈ meta_triples <-> box_datum b (SLang KMeta l) k = Some (DText v).
Proof.
  unfold meta_triples. rewrite concat_elem. split.
  - intros (x & Hx & H). apply elem_of_list_fmap in H as ([i ov] & -> & H). apply indexed_elem in H. cbn [fst snd] in *. apply elem_of_list_lookup_2 in H.
    pose proof (fact ov k (DText v) H) as F.
    destruct (ov_body ov) as [| | | | | | | | | |lg m| | | | | |]; try (by apply elem_of_nil in Hx).
    apply elem_of_list_fmap in Hx as ([k' v'] & [= -> -> ->] & Hx). apply (order_elem o Ho) in Hx. apply (F eq_refl); [by intros|]. cbn. cbn in Hx. by rewrite Hx.
  - intros H. destruct (lb_exists b B R (SLang KMeta l) ltac:(done)) as (ov & Hin & Es); [eauto|].
    pose proof (fact ov k (DText v) Hin) as F. rewrite Es in F. apply elem_of_list_lookup_1 in Hin as [i Hi].
    destruct (ov_body ov) as [| | | | | | | | | |lg m| |meta m| | | |] eqn:E; try done; [|cbn in Es; by destruct (meta !! "frame_id")]. cbn in Es. injection Es as ->.
    apply F in H; [|done|by intros]. cbn in H. exists (map (fun kv : string * string => (l, kv.1, kv.2)) (o ["load"; dec_of_nat i] _ m)). split.
    + apply elem_of_list_fmap. exists (k, v). split; [done|]. apply (order_elem o Ho). destruct (m !! k); [by injection H as ->|done].
    + apply elem_of_list_fmap. exists (i, ov). cbn [fst snd]. rewrite E. split; [done|]. by apply indexed_elem.
Qed.
Lemma reload_equiv : unwrap_or [] (bx_maps b) = [] -> exists b', load o B = Some b' /\ box_equiv b b'.
Proof.
  intros Hmaps. destruct reload_attrs as (m' & E & Hno & Hyes).
  assert (El : exists b', load o B = Some b'). { unfold load. rewrite E. by eexists. }
  destruct El as [b' El]. exists b'. split; [done|].
  destruct (load_parts o Ho B b' El) as (m & E' & H1 & H2 & H3 & H4). rewrite E in E'. injection E' as <-.
  assert (Hat : forall n a s, bx_attrs b !! n = Some a -> exists a', bx_attrs b' !! n = Some a' /\
     match attr_datum a s with
     | Some d => exists ov u, ov ∈ b_ovs B /\ body_slot (ov_body ov) = s /\ loaded (ov_body ov) d u /\ attr_datum a' s = Some (upd_datum u)
     | None => attr_datum a' s = None end).
  { intros n a s Ha. destruct (Hyes n a Ha) as (a' & G1 & _ & G2 & G3). exists a'. rewrite H1. split; [done|]. destruct (attr_datum a s) as [d|] eqn:Ed.
    - destruct (all_upds_complete n a s d Ha Ed) as (ov & u & Hin & Es & Hu & HL). exists ov, u. repeat (split; [done|]).
      rewrite <- Es, <- (proj1 HL). by apply G2.
    - apply G3. intros u Hu Es. apply all_upds_sound in Hu as (ov & d & Hin & Hd & HL & _). rewrite <- (proj1 HL), Es in Hd.
      rewrite box_datum_attr, Ha in Hd; [cbn in Hd; congruence|]. intros l ->. by destruct u. }
  assert (Hmeta : forall l k, box_datum b' (SLang KMeta l) k = box_datum b (SLang KMeta l) k).
  { intros l k. rewrite !box_datum_meta, H4, <- box_datum_meta, load_meta_triples. fold meta_triples.
    destruct (metas_agree meta_triples (add_classification (cb_class (b_cb B)) box_new)) as [G1 G2].
    { intros l' k' v v' Hv Hv'. apply meta_triple_elem in Hv, Hv'. congruence. }
    rewrite <- box_datum_meta. destruct (box_datum b (SLang KMeta l) k) as [d|] eqn:Ed.
    - assert (exists v, d = DText v) as [v ->]. { rewrite box_datum_meta in Ed. destruct (_ ≫= _); [|done]. injection Ed as <-. eauto. }
      apply G1. by apply meta_triple_elem.
    - rewrite G2; [done|]. intros v Hv. apply meta_triple_elem in Hv. congruence. }
  split.
  - intros s n. destruct s as [k|k l|t|f]; [| destruct (decide (k = KMeta)) as [->|Hk]; [by rewrite Hmeta|] | |];
      (rewrite !box_datum_attr by (intros ? [=]; done); destruct (bx_attrs b !! n) as [a|] eqn:Ha; [|by rewrite H1, (Hno n Ha)];
       match goal with |- _ <$> (_ ≫= (fun a => attr_datum a ?s)) = _ => destruct (Hat n a s Ha) as (a' & -> & G) end;
       cbn -[attr_datum]; destruct (attr_datum a _) as [d|] eqn:Edat; [destruct G as (ov & u & _ & _ & HL & ->); cbn; f_equal; symmetry; apply (loaded_erase (ov_body ov)); [|done]; intros ? ? ->; by eapply label_none|by rewrite G]).
  - intros n. pose proof (load_types o Ho B b' (lb_names b B R) El n) as T. unfold box_types in T. rewrite T. by rewrite types_lookup.
  - intros n. pose proof (load_flagged o Ho B b' El n) as F. rewrite (lb_flags b B R), <- flagged_alt in F. unfold flagged, box_flag in F.
    destruct (bx_attrs b !! n) as [a|] eqn:Ha.
    + destruct (Hyes n a Ha) as (a' & G1 & _). rewrite H1, G1 in *. cbn in *. f_equal.
      destruct (at_flag a), (at_flag a'); try done; exfalso; [by destruct F as [_ F]; discriminate (F eq_refl)|by destruct F as [F _]; discriminate (F eq_refl)].
    + by rewrite H1, (Hno n Ha).
  - rewrite H3. apply eq_sym, (lb_class b B R).
  - by rewrite H2.
  - intros f k v. split.
    + intros (n & a & fr & sc & s & Ha & Hf & Hs & Hk).
      assert (Ed : attr_datum a (SFrame f) = Some (DFraming fr)) by (cbn; by rewrite Hf).
      destruct (Hat n a (SFrame f) Ha) as (a' & Ha' & G). rewrite Ed in G. destruct G as (ov & u & Hin & Es & HL & G).
      destruct HL as [HL1 HL2]. rewrite Es in HL1. destruct u; try done. injection HL1 as ->.
      destruct HL2 as (meta & m & g & Eb & [= <-] & ->). cbn in G. destruct (lookup_opt f (at_frames a')) as [g'|] eqn:Eg; [|done]. injection G as ->.
      destruct (frame_meta_exact ov meta m Hin Eb) as (f' & Hf' & Hm). rewrite Eb in Es. cbn in Es. rewrite Hf' in Es. injection Es as ->.
      exists n, a', (with_meta (delete "frame_id" meta) fr), sc, (FScope (fs_pred s) (fs_just s) (delete "frame_id" meta)).
      split; [done|]. split; [done|]. split; [unfold with_meta, framing in *; by rewrite lookup_fmap, Hs|]. cbn. apply Hm. exists n, a, fr, sc, s. done.
    + intros (n & a' & fr & sc & s & Ha' & Hf & Hs & Hk). destruct (bx_attrs b !! n) as [a|] eqn:Ha; [|by rewrite H1, (Hno n Ha) in Ha'].
      destruct (Hat n a (SFrame f) Ha) as (a2 & Ha2 & G). rewrite Ha' in Ha2. injection Ha2 as <-.
      assert (Ed : attr_datum a' (SFrame f) = Some (DFraming fr)) by (cbn; by rewrite Hf). rewrite Ed in G.
      destruct (attr_datum a (SFrame f)) as [d|]; [|done]. destruct G as (ov & u & Hin & Es & HL & G).
      destruct HL as [HL1 HL2]. rewrite Es in HL1. destruct u; try done. injection HL1 as ->. injection G as <-.
      destruct HL2 as (meta & m & g & Eb & _ & ->). destruct (frame_meta_exact ov meta m Hin Eb) as (f' & Hf' & Hm).
      rewrite Eb in Es. cbn in Es. rewrite Hf' in Es. injection Es as ->. apply Hm.
      unfold with_meta, framing in *. rewrite lookup_fmap in Hs. destruct (g !! sc); [|done]. injection Hs as <-. done.
Qed.
Lemma reload_scopes b' : load o B = Some b' -> forall n a', bx_attrs b' !! n = Some a' ->
  (forall l, lookup_opt l (at_catlabels a') = None) /\
  forall f fr sc s, lookup_opt f (at_frames a') = Some fr -> fr !! sc = Some s ->
    forall k v, fs_meta s !! k = Some v <-> frame_meta_says (bx_attrs b) f k v.
Proof.
  intros El n a' Ha'. destruct reload_attrs as (m' & E & Hno & Hyes).
  destruct (load_parts o Ho B b' El) as (m & E' & H1 & _). rewrite E in E'. injection E' as <-. rewrite H1 in Ha'.
  destruct (bx_attrs b !! n) as [a|] eqn:Ha; [|by rewrite (Hno n Ha) in Ha'].
  destruct (Hyes n a Ha) as (a2 & G1 & G2 & G3 & G4). rewrite Ha' in G1. injection G1 as <-. split; [done|].
  intros f fr sc s Hf Hs. assert (Ed' : attr_datum a' (SFrame f) = Some (DFraming fr)) by (cbn; by rewrite Hf).
  destruct (attr_datum a (SFrame f)) as [d|] eqn:Ed.
  - destruct (all_upds_complete n a (SFrame f) d Ha Ed) as (ov & u & Hin & Es & Hu & HL1 & HL2). rewrite Es in HL1.
    pose proof (G3 u Hu) as G. rewrite HL1 in G. rewrite Ed' in G. destruct u; try done. injection HL1 as ->. injection G as <-.
    destruct HL2 as (meta & m0 & g & Eb & _ & ->). destruct (frame_meta_exact ov meta m0 Hin Eb) as (f' & Hf' & Hm).
    rewrite Eb in Es. cbn in Es. rewrite Hf' in Es. injection Es as ->.
    unfold with_meta, framing in *. rewrite lookup_fmap in Hs. destruct (g !! sc); [|done]. injection Hs as <-. done.
  - exfalso. rewrite G4 in Ed'; [done|]. intros u Hu Es. apply all_upds_sound in Hu as (ov & d & Hin & Hd & HL & _). rewrite <- (proj1 HL), Es in Hd.
    rewrite box_datum_attr, Ha in Hd; [cbn in Hd, Ed; congruence|done].
Qed.
End Reload.
