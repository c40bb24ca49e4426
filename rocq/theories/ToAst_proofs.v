(** C07: building the AST of a generated bundle gives an equivalent box. *)
From Verif Require Import ToAst Spec_Build Upd_proofs Effect_proofs Command_proofs Load_proofs Run_proofs Build_proofs
  Bundle_proofs Box_proofs Determinism_proofs Condition_proofs Overlays_proofs Reload_proofs Incremental_proofs AstValidator_proofs.

(** The slots [to_ast] writes commands for. *)
Definition spoken (s : slot) : Prop := match s with SLink _ | SFrame _ => False | _ => True end.

Section Each.
Variable o : order.
Hypothesis Ho : order_ok o.
Lemma each_keys {V} p (f : string -> V -> nvalue) (m : gmap string V) : map fst (each_value o p f m) = (o p V m).*1.
Proof. unfold each_value. rewrite map_map. done. Qed.
Lemma each_nodup {V} p (f : string -> V -> nvalue) (m : gmap string V) : NoDup (map fst (each_value o p f m)).
Proof. rewrite each_keys. by apply order_nodup. Qed.
Lemma each_get {V} p (f : string -> V -> nvalue) (m : gmap string V) n v :
  imap_get n (each_value o p f m) = Some v <-> exists x, m !! n = Some x /\ v = f n x.
Proof.
  split.
  - intros H. apply imap_get_elem in H. apply elem_of_list_fmap in H as ([k x] & [= -> ->] & Hin). apply (order_elem o Ho) in Hin. by exists x.
  - intros (x & Hx & ->). apply imap_get_nodup; [apply each_nodup|]. apply elem_of_list_fmap. exists (n, x). split; [done|]. by apply (order_elem o Ho).
Qed.
Lemma each_has {V} p (f : string -> V -> nvalue) (m : gmap string V) n v :
  has (Some (each_value o p f m)) n v <-> exists x, m !! n = Some x /\ v = f n x.
Proof. rewrite <- (each_get p). unfold has. split; [intros (l & [= <-] & H); done|eauto]. Qed.
Lemma each_values_ok {V} p (f : string -> V -> nvalue) (m : gmap string V) : (forall n x, m !! n = Some x -> nvalue_ok (f n x)) -> values_ok (Some (each_value o p f m)).
Proof.
  intros H l [= <-]. split; [apply each_nodup|]. intros n v Hv. apply each_get in Hv as (x & Hx & ->). by apply H.
Qed.
Lemma vals_ok (l : list string) : nvalue_ok (VArr (map VVal l)).
Proof. induction l as [|x l IH]; [done|]. split; [done|exact IH]. Qed.
Lemma strings_of_vals (l : list string) : strings_of (map VVal l) = l.
Proof. induction l as [|x l IH]; [done|]. cbn. by f_equal. Qed.
Lemma code_ok n e : (forall l, e = ECObj l -> NoDup (map fst l)) -> nvalue_ok (code_value n e).
Proof.
  intros H. destruct e as [s|l|l]; [done|apply vals_ok|]. specialize (H l eq_refl). cbn. split.
  - rewrite map_map. done.
  - clear H. induction l as [|[k vs] l IH]; [done|]. split; [apply vals_ok|exact IH].
Qed.
Lemma entry_ok p n e : nvalue_ok (entry_value o p n e).
Proof.
  destruct e as [s|m]; [done|]. cbn. split; [apply each_nodup|].
  unfold each_value. generalize (o (p ++ [n]) _ m) as l. intros l. induction l as [|[k v] l IH]; [done|]. split; [done|exact IH].
Qed.
Lemma groups_back (l : imap (list string)) : groups (map (fun kv => (kv.1, VArr (map VVal kv.2))) l) l.
Proof.
  induction l as [|[k vs] l IH]; [constructor|]. cbn. constructor; [|done]. symmetry. apply strings_of_vals.
Qed.
Lemma code_says from1 p n e : says from1 KEntryCode p (code_value n e) (SPlain KEntryCode) (DCodes e).
Proof.
  destruct e as [s|l|l]; cbn; constructor; [|apply groups_back]. symmetry. apply strings_of_vals.
Qed.
Lemma entry_says from1 ps p n e l : lang_is from1 ps l -> says from1 KEntry ps (entry_value o p n e) (SLang KEntry l) (DEntries e).
Proof.
  intros Hl. destruct e as [s|m]; cbn; constructor; [done|done|]. intros k t. rewrite each_get. split; [eauto|]. intros (x & Hx & [= ->]). done.
Qed.
Lemma lang_props from1 s l : from1 s = Some l -> lang_is from1 (Some [("lang", VVal s)]) l.
Proof. intros H. exists s. split; [|done]. eexists. split; [done|]. done. Qed.
Lemma lang_props_ok s : values_ok (Some [("lang", VVal s)]).
Proof.
  intros l [= <-]. split; [apply NoDup_singleton|]. intros n v. cbn. destruct (String.eqb n "lang"); [by intros [= <-]|done].
Qed.
Lemma none_ok : values_ok None. Proof. by intros l. Qed.
(** The conditions. *)
Lemma cond_values_spec d l : NoDup l.*1 -> (forall n c, (n, c) ∈ l -> exists t, c = (encode_condition t).1 /\ d !! n = Some (encode_condition t).2) ->
  exists vs, cond_values d l = Some vs /\ map fst vs = l.*1 /\
    forall n v, (n, v) ∈ vs <-> exists t, v = VVal t /\ (n, (encode_condition t).1) ∈ l /\ d !! n = Some (encode_condition t).2.
Proof.
  induction l as [|[n0 c0] l IH]; intros Hnd H.
  - exists []. split; [done|]. split; [done|]. intros n v. split; [by intros ?%elem_of_nil|]. intros (t & _ & Ht & _). by apply elem_of_nil in Ht.
  - apply NoDup_cons in Hnd as [Hn0 Hnd]. destruct IH as (vs & E & Ek & IH); [done|intros n c Hin; apply H; by right|].
    destruct (H n0 c0) as (t & -> & Ht); [left|]. cbn. rewrite Ht, decode_encode_condition, E. eexists. split; [done|]. split; [cbn; by rewrite Ek|].
    intros n v. rewrite elem_of_cons, IH. split.
    + intros [[= -> ->]|(t' & -> & H1 & H2)]; [exists t; split; [done|]; split; [left|done]|]. exists t'. split; [done|]. split; [by right|done].
    + intros (t' & -> & [[= -> E']|Hin]%elem_of_cons & H2); [|right; eauto].
      left. f_equal. f_equal. rewrite Ht in H2. injection H2 as H2.
      pose proof (decode_encode_condition t) as D. rewrite <- E', H2, decode_encode_condition in D. by injection D.
Qed.
(** The properties of a meta command. *)
Lemma meta_props_get l : forall acc n, NoDup l.*1 ->
  imap_get n (fold_left (fun acc (kv : string * string) => imap_insert kv.1 (VVal kv.2) acc) l acc) =
  match imap_get n l with Some s => Some (VVal s) | None => imap_get n acc end.
Proof.
  assert (G : forall (m : imap nvalue) k v n, imap_get n (imap_insert k v m) = if String.eqb n k then Some v else imap_get n m).
  { intros m k v n. induction m as [|[j w] m IH]; cbn; [by destruct (String.eqb n k)|].
    destruct (String.eqb_spec k j) as [->|Hkj]; cbn.
    - by destruct (String.eqb n j).
    - destruct (String.eqb_spec n j) as [->|]; [|exact IH]. by rewrite (proj2 (String.eqb_neq j k)) by congruence. }
  induction l as [|[k s] l IH]; intros acc n Hnd; [done|]. apply NoDup_cons in Hnd as [Hk Hnd]. cbn [fold_left fst snd imap_get]. rewrite IH by done.
  destruct (String.eqb_spec n k) as [->|Hne].
  - assert (E : imap_get k l = None) by (by apply imap_get_none). rewrite E, G, String.eqb_refl. done.
  - rewrite G, (proj2 (String.eqb_neq n k)) by done. done.
Qed.
Lemma meta_props_keys l : forall acc : imap nvalue, NoDup (map fst acc) ->
  NoDup (map fst (fold_left (fun acc (kv : string * string) => imap_insert kv.1 (VVal kv.2) acc) l acc)).
Proof.
  induction l as [|[k s] l IH]; intros acc H; [done|]. cbn [fold_left fst snd]. apply IH.
  destruct (decide (k ∈ map fst acc)) as [Hin|Hin]; [|rewrite imap_insert_fresh by done; rewrite map_app; apply NoDup_app; split; [done|]; split; [|apply NoDup_singleton]; intros x Hx [= ->]%elem_of_list_singleton; done].
  clear IH. induction acc as [|[j w] acc IH]; [by apply elem_of_nil in Hin|]. cbn in *. apply NoDup_cons in H as [Hj H].
  destruct (String.eqb_spec k j) as [->|Hkj]; cbn; apply NoDup_cons; [done|]. split.
  - intros Hx. apply imap_insert_keys in Hx as [->|Hx]; done.
  - apply IH; [done|]. apply elem_of_cons in Hin as [?|?]; done.
Qed.
End Each.

Section ToAst.
Variable from1 to1 : string -> option string.
Variable o : order.
Hypothesis Ho : order_ok o.
Variable b : obox.
Variable B : bundle.
Hypothesis R : bundle_right b B.
Hypothesis Hb : box_ok b.
Hypothesis Hcat : forall n a l, bx_attrs b !! n = Some a -> lookup_opt l (at_catlabels a) = None.
Hypothesis Hlang : forall k l n d, box_datum b (SLang k l) n = Some d -> exists s, to1 l = Some s /\ from1 s = Some l.
Hypothesis Hmeta : forall l, box_datum b (SLang KMeta l) "lang" = None.
Hypothesis Hgroups : forall n l, box_datum b (SPlain KEntryCode) n = Some (DCodes (ECObj l)) -> NoDup (map fst l).

Definition right_values (k : okind) (s : slot) (ct : content) : Prop :=
  (forall n v, has (ct_attrs ct) n v -> exists d, box_datum b s n = Some d /\ says from1 k (ct_props ct) v s d) /\
  (forall n d, box_datum b s n = Some d -> exists v, has (ct_attrs ct) n v).
Definition right_content (k : okind) (s : slot) (ct : content) : Prop :=
  match k with
  | KMeta => exists l, s = SLang KMeta l /\ lang_is from1 (ct_props ct) l /\
      forall key x, key <> "lang" -> has (ct_props ct) key (VVal x) <-> box_datum b s key = Some (DText x)
  | _ => k ∈ attribute_kinds /\ k <> KLink /\ k <> KAttributeFraming /\ right_values k s ct
  end.
Lemma ov_lang ov k l : ov ∈ b_ovs B -> body_slot (ov_body ov) = SLang k l -> exists s, to1 l = Some s /\ from1 s = Some l.
Proof.
  intros Hin E. destruct (proj1 (br_exists b B R (SLang k l) ltac:(done))) as (n & d & Hd); [by exists ov|]. by eapply Hlang.
Qed.
Lemma ov_fact ov n d : ov ∈ b_ovs B -> body_slot (ov_body ov) <> SPlain KAttributeMapping ->
  body_datum (ov_body ov) n = Some d <-> box_datum b (body_slot (ov_body ov)) n = Some d.
Proof. apply (br_facts b B R). Qed.
Lemma label_plain l n t c : box_datum b (SLang KLabel l) n = Some (DLabel t c) -> c = None.
Proof.
  rewrite box_datum_attr by done. destruct (bx_attrs b !! n) as [a|] eqn:Ha; [|done]. cbn -[lookup_opt]. rewrite (Hcat n a l Ha).
  destruct (lookup_opt l (at_labels a)); [|done]. by intros [= _ <-].
Qed.
Lemma each_right {V} ov k s p (f : string -> V -> nvalue) (m : gmap string V) ps (g : string -> V -> datum) :
  ov ∈ b_ovs B -> s <> SPlain KAttributeMapping -> body_slot (ov_body ov) = s -> (forall n, body_datum (ov_body ov) n = g n <$> m !! n) ->
  (forall n x, box_datum b s n = Some (g n x) -> says from1 k ps (f n x) s (g n x)) ->
  right_values k s (Content (Some (each_value o p f m)) ps).
Proof.
  intros Hin Hs Es Hd Hsay. assert (F : forall n d, g n <$> m !! n = Some d <-> box_datum b s n = Some d).
  { intros n d. rewrite <- Hd, <- Es. apply ov_fact; [done|by rewrite Es]. }
  split; cbn [ct_attrs ct_props].
  - intros n v H. apply (each_has o Ho) in H as (x & Hx & ->). exists (g n x). assert (E : box_datum b s n = Some (g n x)) by (apply F; by rewrite Hx).
    split; [done|]. by apply Hsay.
  - intros n d Hdat. apply F in Hdat. destruct (m !! n) as [x|] eqn:Ex; [|done]. exists (f n x). apply (each_has o Ho). eauto.
Qed.
Lemma command_of i ov : ov ∈ b_ovs B ->
  (overlay_command to1 o i ov = Ok None /\ (forall n d, box_datum b (body_slot (ov_body ov)) n = Some d -> ~ spoken (body_slot (ov_body ov)))) \/
  exists ct, overlay_command to1 o i ov = Ok (Some (Command CAdd (OOverlay (ov_type ov) ct))) /\
    values_ok (ct_attrs ct) /\ values_ok (ct_props ct) /\ right_content (body_kind (ov_body ov)) (body_slot (ov_body ov)) ct.
Proof.
  intros Hin. set (p := ["ast"; dec_of_nat i]).
  assert (K : forall k, k ∈ attribute_kinds -> k ∈ attribute_kinds) by done.
  unfold overlay_command. destruct (ov_body ov) as [m|m|m|m|m|c d|m|l m|l cats m cl|l m|l m|t m|meta m|m|l|l|m] eqn:Ebd.
  all: cbn [body_kind body_slot].
  all: try (left; split; [done|]; intros n d Hd Hsp; try done; try (cbn in Hd; destruct (bx_attrs b !! n); done)).
  all: try (match goal with |- context[Panic] => idtac | _ => fail 1 end; match goal with |- context[to1 ?l] =>
        match type of Ebd with _ = ?bd => destruct (ov_lang ov (body_kind bd) l Hin) as (s & Es1 & Es2); [by rewrite Ebd|]; rewrite Es1 end end).
  all: try (right; eexists; split; [reflexivity|]; cbn [ct_attrs ct_props]; split; [|split]).
  all: try apply none_ok; try apply lang_props_ok; try (apply (each_values_ok o Ho); by intros).
  all: try (split; [by apply (bool_decide_unpack _)|]; split; [done|]; split; [done|]; eapply (each_right ov); [done|done|by rewrite Ebd|by intros n; rewrite Ebd|]).
  all: try (intros n x _; first [constructor; by apply lang_props | constructor]).
  all: try (intros n x Hx; first [apply code_says | apply (entry_says o Ho); by apply lang_props]).
  - (* conditions *)
    destruct (cond_values_spec d (o p _ c)) as (vs & Ev & Ek & Hvs).
    { by apply order_nodup. }
    { intros n x Hx. apply (order_elem o Ho) in Hx. pose proof (ov_fact ov n (DCondition x (d !! n)) Hin) as F. rewrite Ebd in F. cbn in F. rewrite Hx in F.
      destruct (cond_datum b Hb n x (d !! n)) as (t & -> & Ht); [by apply F|]. eauto. }
    subst p. rewrite Ev. right. eexists. split; [reflexivity|]. cbn [ct_attrs ct_props]. split; [|split; [apply none_ok|]].
    + intros l [= <-]. split; [rewrite Ek; by apply order_nodup|]. intros n v Hv. apply imap_get_elem, Hvs in Hv as (t & -> & _). done.
    + split; [by apply (bool_decide_unpack _)|]. split; [done|]. split; [done|].
      assert (Hnd : NoDup (map fst vs)) by (rewrite Ek; by apply order_nodup).
      split; cbn [ct_attrs ct_props].
      * intros n v (l & [= <-] & Hg). apply imap_get_elem, Hvs in Hg as (t & -> & H1 & H2). apply (order_elem o Ho) in H1.
        exists (DCondition (encode_condition t).1 (Some (encode_condition t).2)). split; [|constructor].
        pose proof (ov_fact ov n (DCondition (encode_condition t).1 (d !! n)) Hin) as F. rewrite Ebd in F. cbn in F. rewrite H1, H2 in F. by apply F.
      * intros n x Hx. pose proof (ov_fact ov n x Hin) as F. rewrite Ebd in F. cbn in F. apply F in Hx as Hy; [|done].
        destruct (c !! n) as [y|] eqn:Ey; [|done]. cbn in Hy. injection Hy as <-.
        destruct (cond_datum b Hb n y (d !! n) Hx) as (t & -> & Ht).
        exists (VVal t). eexists. split; [done|]. apply imap_get_nodup; [done|]. apply Hvs. exists t. split; [done|]. split; [by apply (order_elem o Ho)|done].
  - apply (each_values_ok o Ho). intros n x Hx. apply code_ok. intros l ->. apply (Hgroups n).
    pose proof (ov_fact ov n (DCodes (ECObj l)) Hin) as F. rewrite Ebd in F. cbn in F. rewrite Hx in F. by apply F.
  - apply (each_values_ok o Ho). intros n x Hx. by apply entry_ok.
  - intros n x Hx. cbn beta in *. assert (cl !! n = None) as E by (by eapply (label_plain l n x)). rewrite E. constructor. by apply lang_props.
  - (* meta *)
    intros l0 [= <-]. split; [apply meta_props_keys; apply NoDup_singleton|]. intros n v. rewrite meta_props_get by by apply order_nodup.
    destruct (imap_get n _); [by intros [= <-]|]. cbn. destruct (String.eqb n "lang"); [by intros [= <-]|done].
  - assert (El : forall k, m !! k = None \/ k <> "lang").
    { intros k. destruct (decide (k = "lang")) as [->|]; [left|by right]. destruct (m !! "lang") as [x|] eqn:Ex; [|done].
      pose proof (ov_fact ov "lang" (DText x) Hin) as F. rewrite Ebd in F. cbn [body_slot body_kind body_datum] in F. rewrite Ex, Hmeta in F.
      destruct F as [F _]; [done|]. by discriminate F. }
    cbn [right_content]. exists l. split; [done|]. split.
    + exists s. split; [|done]. eexists. split; [done|]. rewrite meta_props_get by by apply order_nodup. rewrite imap_get_order by done.
      destruct (El "lang") as [->|?]; done.
    + intros key x Hk. pose proof (ov_fact ov key (DText x) Hin) as F. rewrite Ebd in F. cbn [body_slot body_kind body_datum] in F. rewrite <- F by done.
      unfold has. split.
      * intros (l0 & [= <-] & H). rewrite meta_props_get in H by by apply order_nodup. rewrite imap_get_order in H by done.
        destruct (m !! key) as [y|]; [by injection H as ->|]. cbn in H. by rewrite (proj2 (String.eqb_neq key "lang")) in H.
      * intros H. eexists. split; [done|]. rewrite meta_props_get by by apply order_nodup. rewrite imap_get_order by done.
        destruct (m !! key) as [y|]; [by injection H as ->|done].
  - destruct (meta !! "frame_id"); [done|]. cbn in Hd. by destruct (bx_attrs b !! n).
Qed.

(** The box while the overlay commands are applied. *)
Record midway (done : slot -> Prop) (x : obox) : Prop := {
  mw_api : api_box x;
  mw_types : forall n, box_types x n = box_types b n;
  mw_flags : forall n a, bx_attrs x !! n = Some a -> at_flag a = false;
  mw_maps : bx_maps x = None;
  mw_class : unwrap_or "" (bx_class x) = unwrap_or "" (bx_class b);
  mw_cats : forall s n, category x s n = None;
  mw_facts : forall s n, box_datum x s n = None \/ box_datum x s n = box_datum b s n;
  mw_done : forall s n, done s -> box_datum x s n = box_datum b s n;
  mw_spoken : forall s n d, box_datum x s n = Some d -> spoken s }.
Lemma says_spoken k p v s d : k <> KLink -> k <> KAttributeFraming -> says from1 k p v s d -> spoken s /\ forall l, s <> SLang KMeta l.
Proof. intros H1 H2 H. inversion H; subst; done. Qed.
Lemma says_fun k p v s d s' d' : nvalue_ok v -> values_ok p -> says from1 k p v s d -> says from1 k p v s' d' -> s = s' /\ d = d'.
Proof.
  intros Hv Hp H H'. apply says_upd in H as (u & E & <- & <-); [|done..]. apply says_upd in H' as (u' & E' & <- & <-); [|done..].
  rewrite E in E'. by injection E' as <-.
Qed.
Lemma known_types x n : (forall n, box_types x n = box_types b n) -> is_Some (bx_attrs b !! n) -> is_Some (bx_attrs x !! n).
Proof.
  intros H [a Ha]. specialize (H n). unfold box_types in H. rewrite Ha in H. cbn in H. destruct (ok_types b Hb n a Ha) as [t Ht]. rewrite Ht in H.
  destruct (bx_attrs x !! n); [by eexists|done].
Qed.
Lemma overlay_step done x k s ct : midway done x -> k <> KMeta -> values_ok (ct_attrs ct) -> values_ok (ct_props ct) -> right_content k s ct ->
  exists x', add_overlay from1 k ct x = Ok x' /\ midway (fun s' => s' = s \/ done s') x'.
Proof.
  intros M Hk Va Vp HR. assert (Hr : k ∈ attribute_kinds /\ k <> KLink /\ k <> KAttributeFraming /\ right_values k s ct) by (by destruct k).
  clear HR. destruct Hr as (Hin & Hl & Hf & H1 & H2).
  pose proof (api_box_ok x (mw_api _ _ M)) as Kx.
  assert (Hacc : forall n v, has (ct_attrs ct) n v -> acceptable from1 x k (ct_props ct) n v).
  { intros n v Hv. destruct (H1 n v Hv) as (d & Hd & Hsay). apply fine_acceptable; [done|]. split; cbn [fst snd].
    - apply (known_types x n (mw_types _ _ M)). destruct (says_spoken _ _ _ _ _ Hl Hf Hsay) as [_ Hnm]. rewrite box_datum_attr in Hd by done.
      destruct (bx_attrs b !! n); [by eexists|done].
    - assert (Hvo : nvalue_ok v). { destruct Hv as (l & El & Hg). by apply (proj2 (Va l El) n). }
      apply says_upd in Hsay as (u & -> & _); done. }
  assert (HE : exists x', add_overlay from1 k ct x = Ok x').
  { pose proof (loop_result from1 x k ct (box_ok_names x Kx) Va Vp Hin) as L. destruct (add_overlay from1 k ct x) as [x'|es|]; [by eexists| |]; exfalso.
    - destruct L as (_ & hs & Hh & L). assert (hs = []) as -> by (by apply (header_fun k (ct_props ct) hs [] Vp Hh), he_other).
      destruct L as [(l & n & v & El & Hfb & _)|(_ & Hne & _)]; [|done]. by eapply accepts_not_bad.
    - destruct L as [[-> _]|(_ & l & n & v & El & Hfb & _)]; [done|]. by eapply accepts_not_bad. }
  destruct HE as [x' E]. exists x'. split; [done|].
  destruct (overlay_rest from1 x x' k ct Kx Va Vp Hk E) as (R1 & R2 & R3 & R4 & R5 & R6).
  assert (Hfacts : forall n, (exists v, has (ct_attrs ct) n v) -> exists d, box_datum b s n = Some d /\ box_datum x' s n = Some d /\ forall s', s' <> s -> box_datum x' s' n = box_datum x s' n).
  { intros n [v Hv]. destruct (H1 n v Hv) as (d & Hd & Hsay). exists d. split; [done|].
    destruct (overlay_given from1 x x' k ct n v s d Kx Va Vp E Hin Hv Hsay) as [G1 G2]. split; [|done]. rewrite G1. f_equal.
    destruct (mw_facts _ _ M s n) as [E0|E0]; rewrite E0; [|rewrite Hd]; rewrite (mw_cats _ _ M).
    - inversion Hsay; subst; done.
    - inversion Hsay; subst; done. }
  assert (Hother : forall n, (forall v, ~ has (ct_attrs ct) n v) -> forall s', box_datum x' s' n = box_datum x s' n).
  { intros n Hn. apply (overlay_other from1 x x' k ct n Kx Va Vp Hk E). intros v s' d' _ Hv. by destruct (Hn v). }
  assert (Hdec : forall n, (exists v, has (ct_attrs ct) n v) \/ forall v, ~ has (ct_attrs ct) n v).
  { intros n. unfold has. destruct (ct_attrs ct) as [l|]; [|right; by intros v (l & ? & _)].
    destruct (imap_get n l) as [v|] eqn:Eg; [left; eauto|]. right. intros v (l' & [= <-] & Hg). congruence. }
  assert (Hs0 : forall n d, box_datum b s n = Some d -> spoken s).
  { intros n d Hd. destruct (H2 n d Hd) as [v Hv]. destruct (H1 n v Hv) as (d' & _ & Hsay). by apply (says_spoken k (ct_props ct) v s d'). }
  constructor.
  - apply (apply_api from1 (Some x) x' (Command CAdd (OOverlay (OType k "") ct))); [by split|intros ? [= <-]; apply M|exact E].
  - intros n. rewrite R4. apply M.
  - intros n a Ha. pose proof (R5 n) as F. unfold box_flag in F. rewrite Ha in F. destruct (bx_attrs x !! n) as [a0|] eqn:Ha0; [|done].
    cbn in F. injection F as ->. by apply (mw_flags _ _ M n).
  - rewrite R1. apply M.
  - rewrite R3. apply M.
  - intros s' n. rewrite R6. apply M.
  - intros s' n. destruct (Hdec n) as [Hv|Hn]; [|rewrite Hother by done; apply M].
    destruct (Hfacts n Hv) as (d & G1 & G2 & G3). destruct (decide (s' = s)) as [->|Hne]; [right; by rewrite G1, G2|]. rewrite G3 by done. apply M.
  - intros s' n Hs. destruct (Hdec n) as [Hv|Hn].
    + destruct (Hfacts n Hv) as (d & G1 & G2 & G3). destruct (decide (s' = s)) as [->|Hne]; [by rewrite G1, G2|]. rewrite G3 by done.
      destruct Hs as [?|Hs]; [done|]. by apply (mw_done _ _ M).
    + rewrite Hother by done. destruct Hs as [->|Hs]; [|by apply (mw_done _ _ M)].
      destruct (mw_facts _ _ M s n) as [E0|E0]; [|done]. rewrite E0. destruct (box_datum b s n) as [d|] eqn:Ed; [|done].
      destruct (H2 n d Ed) as [v Hv]. by destruct (Hn v).
  - intros s' n d Hd. destruct (Hdec n) as [Hv|Hn]; [|rewrite Hother in Hd by done; by apply (mw_spoken _ _ M s' n d)].
    destruct (Hfacts n Hv) as (d' & G1 & G2 & G3). destruct (decide (s' = s)) as [->|Hne]; [by apply (Hs0 n d')|].
    rewrite G3 in Hd by done. by apply (mw_spoken _ _ M s' n d).
Qed.
Lemma box_datum_attrs x x' s n : (forall l, s <> SLang KMeta l) -> bx_attrs x' = bx_attrs x -> box_datum x' s n = box_datum x s n.
Proof. intros Hs E. rewrite !box_datum_attr by done. by rewrite E. Qed.
Lemma meta_step done x s ct : midway done x -> values_ok (ct_attrs ct) -> values_ok (ct_props ct) -> right_content KMeta s ct ->
  exists x', add_overlay from1 KMeta ct x = Ok x' /\ midway (fun s' => s' = s \/ done s') x'.
Proof.
  intros M Va Vp (l & -> & Hl & Hkeys).
  assert (HE : exists x', add_overlay from1 KMeta ct x = Ok x').
  { pose proof (meta_result from1 x ct) as L. destruct (add_overlay from1 KMeta ct x) as [x'|es|]; [by eexists|done|]. exfalso.
    destruct (L Vp) as [(_ & Hno & _)|[Hk _]]; [by destruct (Hno l)|]. by apply loops_not_meta in Hk. }
  destruct HE as [x' E]. exists x'. split; [done|].
  destruct (meta_effect from1 x x' ct Vp E) as (R1 & R2 & R3 & R4 & R5).
  assert (Hun : forall l', lang_is from1 (ct_props ct) l' -> l' = l).
  { intros l' H'. apply cmd_lang_spec in H', Hl. congruence. }
  assert (HM : forall l' key, box_datum x' (SLang KMeta l') key = if decide (l' = l /\ box_datum b (SLang KMeta l) key <> None) then box_datum b (SLang KMeta l) key else box_datum x (SLang KMeta l') key).
  { intros l' key. case_decide as Hd.
    - destruct Hd as [-> Hd]. destruct (box_datum b (SLang KMeta l) key) as [d|] eqn:Ed; [|done].
      assert (exists t, d = DText t) as [t ->]. { rewrite box_datum_meta in Ed. destruct (_ ≫= _); [|done]. injection Ed as <-. eauto. }
      assert (Hkl : key <> "lang") by (intros ->; rewrite Hmeta in Ed; done).
      apply (R4 l key t Hl Hkl). by apply Hkeys.
    - apply R5. intros (H1 & H2 & t & H3). apply Hun in H1 as ->. apply Hd. split; [done|]. apply Hkeys in H3; [|done]. rewrite H3. done. }
  assert (HN : forall s' n, (forall l', s' <> SLang KMeta l') -> box_datum x' s' n = box_datum x s' n) by (intros s' n Hs; by apply box_datum_attrs).
  assert (Hcase : forall s', (exists l', s' = SLang KMeta l') \/ forall l', s' <> SLang KMeta l').
  { intros [k|k l'|t|f]; try (right; by intros ? [=]). destruct (decide (k = KMeta)) as [->|Hk]; [left; eauto|right; intros ? [= ? _]; done]. }
  constructor.
  - apply (apply_api from1 (Some x) x' (Command CAdd (OOverlay (OType KMeta "") ct))); [by split|intros ? [= <-]; apply M|exact E].
  - intros n. unfold box_types. rewrite R1. apply M.
  - rewrite R1. apply M.
  - rewrite R2. apply M.
  - rewrite R3. apply M.
  - intros s' n. pose proof (mw_cats _ _ M s' n) as C. unfold category in *. by rewrite R1.
  - intros s' n. destruct (Hcase s') as [[l' ->]|Hs]; [|rewrite HN by done; apply M]. rewrite HM. case_decide as Hd; [|apply M]. destruct Hd as [-> _]. by right.
  - intros s' n Hs. destruct (Hcase s') as [[l' ->]|Hns].
    + rewrite HM. case_decide as Hd; [by destruct Hd as [-> _]|]. destruct Hs as [[= ->]|Hs]; [|by apply (mw_done _ _ M)].
      destruct (mw_facts _ _ M (SLang KMeta l) n) as [E0|E0]; [|done]. rewrite E0. destruct (box_datum b (SLang KMeta l) n) eqn:Ed; [|done].
      exfalso. by apply Hd.
    + rewrite HN by done. destruct Hs as [->|Hs]; [by destruct (Hns l)|by apply (mw_done _ _ M)].
  - intros s' n d Hd. destruct (Hcase s') as [[l' ->]|Hns]; [done|]. rewrite HN in Hd by done. by apply (mw_spoken _ _ M s' n d).
Qed.
Lemma midway_weaken (d1 d2 : slot -> Prop) x : (forall s n, d2 s -> d1 s \/ box_datum b s n = None) -> midway d1 x -> midway d2 x.
Proof.
  intros H []. constructor; try done. intros s n Hs. destruct (H s n Hs) as [Hs'|E]; [by apply mw_done0|]. destruct (mw_facts0 s n) as [->|?]; [by rewrite E|done].
Qed.
Lemma commands_run l : forall x (D : slot -> Prop), (forall iov, iov ∈ l -> iov.2 ∈ b_ovs B) -> midway D x ->
  exists cs, overlay_commands to1 o l = Ok cs /\ Forall command_ok cs /\ Forall (fun r => is_ok r = true) (outcomes from1 (Some x) cs) /\
  exists x', state_after from1 (Some x) cs = Some x' /\ midway (fun s => (spoken s /\ exists iov, iov ∈ l /\ body_slot (ov_body iov.2) = s) \/ D s) x'.
Proof.
  induction l as [|[i ov] l IH]; intros x D Hin M.
  - exists []. split; [done|]. split; [constructor|]. split; [constructor|]. exists x. split; [done|].
    revert M. apply midway_weaken. intros s n [[_ (iov & H & _)]|H]; [by apply elem_of_nil in H|by left].
  - assert (Hov : ov ∈ b_ovs B) by (apply (Hin (i, ov)); left).
    assert (Hin' : forall iov, iov ∈ l -> iov.2 ∈ b_ovs B) by (intros iov H; apply Hin; by right).
    cbn [overlay_commands]. destruct (command_of i ov Hov) as [[E Hno]|(ct & E & Va & Vp & HR)]; rewrite E; cbn [obind].
    + destruct (IH x D Hin' M) as (cs & E2 & Hc & Hok & x' & Hst & M'). rewrite E2. cbn [obind]. exists cs. split; [done|]. split; [done|]. split; [done|].
      exists x'. split; [done|]. revert M'. apply midway_weaken. intros s n [[Hsp (iov & H & Es)]|H]; [|by left; right].
      apply elem_of_cons in H as [->|H]; [|left; left; split; [done|]; eauto]. cbn [snd] in Es.
      right. destruct (box_datum b s n) as [d|] eqn:Ed; [|done]. subst s. exfalso. by apply (Hno n d Ed).
    + assert (HS : exists x1, apply_command from1 (Some x) (Command CAdd (OOverlay (ov_type ov) ct)) = Ok x1 /\ midway (fun s' => s' = body_slot (ov_body ov) \/ D s') x1).
      { change (apply_command from1 (Some x) (Command CAdd (OOverlay (ov_type ov) ct))) with (add_overlay from1 (body_kind (ov_body ov)) ct x).
        destruct (decide (body_kind (ov_body ov) = KMeta)) as [Ek|Ek]; [|by apply overlay_step].
        rewrite Ek in *. by apply meta_step. }
      destruct HS as (x1 & Ea & M1). destruct (IH x1 _ Hin' M1) as (cs & E2 & Hc & Hok & x' & Hst & M'). rewrite E2. cbn [obind].
      eexists. split; [done|]. split; [constructor; [by split|done]|]. split.
      { cbn [outcomes]. rewrite Ea. constructor; [done|exact Hok]. }
      exists x'. split; [rewrite state_after_cons, Ea; exact Hst|]. revert M'. apply midway_weaken.
      intros s n [[Hsp (iov & H & Es)]|H]; [|by left; right; right].
      apply elem_of_cons in H as [->|H]; [left; right; by left|left; left; split; [done|]; eauto].
Qed.
Hypothesis Hflags : forall n a, bx_attrs b !! n = Some a -> at_flag a = false.
Hypothesis Hspoken : forall s n d, box_datum b s n = Some d -> spoken s.
Hypothesis Hmaps : unwrap_or [] (bx_maps b) = [].
Lemma base_step : exists x, apply_command from1 None (base_command (b_cb B)) = Ok x /\ command_ok (base_command (b_cb B)) /\ midway (fun _ => False) x.
Proof.
  assert (Hc : command_ok (base_command (b_cb B))).
  { unfold command_ok, base_command. cbn [cmd_obj cc_attrs cc_props]. split; [intros l [= <-]; apply (br_names b B R)|].
    destruct (String.eqb (cb_class (b_cb B)) ""); [by intros l|]. intros l [= <-]. split; [apply NoDup_singleton|]. intros n v. cbn.
    destruct (String.eqb n "classification"); [by intros [= <-]|done]. }
  unfold base_command at 1. cbn [apply_command cmd_kind cmd_obj unwrap_or]. eexists. split; [reflexivity|]. split; [done|].
  unfold add_capture. cbn [cc_attrs cc_props unwrap_or].
  destruct (add_capture_attrs (cb_attrs (b_cb B)) box_new) as (A1 & A2 & A3 & A4); [by intros n a; cbn; rewrite lookup_empty|apply (br_names b B R)|].
  match goal with |- midway _ (fold_left ?f ?l ?b0) => set (ps := l); set (b1 := b0) in * end.
  destruct (add_capture_class ps b1) as (C1 & C2 & C3 & C4).
  { subst ps. destruct (String.eqb _ _); [constructor|apply NoDup_singleton]. }
  match goal with |- midway _ ?y => set (x := y) in * end.
  assert (Hat : forall n, bx_attrs x !! n = (fun t => set_type t (attr_new n)) <$> imap_get n (cb_attrs (b_cb B))).
  { intros n. rewrite C1, A4. change (bx_attrs box_new !! n) with ((∅ : gmap string attribute) !! n). rewrite lookup_empty. by destruct (imap_get n _). }
  assert (Hnone : forall s n, box_datum x s n = None).
  { intros s n. destruct s as [k|k l|t|f]; [| destruct (decide (k = KMeta)) as [->|Hk]; [by rewrite box_datum_meta, C3, A2|] | |];
      (rewrite box_datum_attr by (intros ? [=]; done); rewrite Hat; destruct (imap_get n _) as [t0|]; [|done]; cbn; try done; by destruct k). }
  constructor.
  - apply (apply_api from1 None x (base_command (b_cb B)) Hc); [done|done].
  - intros n. unfold box_types. rewrite Hat. rewrite <- (types_lookup b B (right_loadable b B R) n). by destruct (imap_get n _).
  - intros n a. rewrite Hat. destruct (imap_get n _); [|done]. by intros [= <-].
  - by rewrite C2, A1.
  - rewrite C4, A3. subst ps. destruct (String.eqb_spec (cb_class (b_cb B)) "") as [E|E]; cbn.
    + rewrite (br_class b B R) in E. by rewrite E.
    + apply (br_class b B R).
  - intros s n. unfold category. destruct s as [k|k l|t|f]; try done. destruct k; try done. rewrite Hat. by destruct (imap_get n _).
  - intros s n. left. apply Hnone.
  - done.
  - intros s n d. by rewrite Hnone.
Qed.
Lemma to_ast_runs : exists a x, to_ast to1 o B = Ok a /\ ast_commands a <> [] /\ Forall command_ok (ast_commands a) /\
  Forall (fun r => is_ok r = true) (outcomes from1 None (ast_commands a)) /\ state_after from1 None (ast_commands a) = Some x /\
  api_box x /\ box_equiv b x.
Proof.
  destruct base_step as (x0 & E0 & C0 & M0).
  destruct (commands_run (indexed (b_ovs B)) x0 (fun _ => False)) as (cs & E & Hc & Hok & x & Hst & M); [|exact M0|].
  { intros iov H. apply indexed_elem in H. by apply elem_of_list_lookup_2 in H. }
  unfold to_ast. rewrite E. cbn [obind]. eexists. exists x. split; [reflexivity|]. cbn [ast_commands]. split; [done|].
  split; [by constructor|]. split; [cbn [outcomes]; rewrite E0; by constructor|]. split; [rewrite state_after_cons, E0; exact Hst|].
  split; [apply M|].
  assert (Hf : forall s n, box_datum b s n = box_datum x s n).
  { intros s n. destruct (box_datum b s n) as [d|] eqn:Ed.
    - rewrite <- Ed. symmetry. apply (mw_done _ _ M). left. split; [by eapply Hspoken|].
      assert (Hs : s <> SPlain KAttributeMapping). { intros ->. cbn in Ed. by destruct (bx_attrs b !! n). }
      destruct (proj2 (br_exists b B R s Hs)) as (ov & Hin & Es); [eauto|]. apply elem_of_list_lookup_1 in Hin as [i Hi].
      exists (i, ov). split; [by apply indexed_elem|done].
    - destruct (mw_facts _ _ M s n) as [ -> | -> ]; done. }
  assert (Hframes : forall y, (forall s n d, box_datum y s n = Some d -> spoken s) -> forall f k v, ~ frame_meta_says (bx_attrs y) f k v).
  { intros y Hy f k v (n & a & fr & sc & s & Ha & Hfr & _). apply (Hy (SFrame f) n (DFraming fr)). rewrite box_datum_attr by done. rewrite Ha. cbn. by rewrite Hfr. }
  constructor.
  - intros s n. by rewrite Hf.
  - intros n. symmetry. apply (mw_types _ _ M n).
  - intros n. pose proof (mw_types _ _ M n) as T. unfold box_types in T. pose proof (api_box_ok x (mw_api _ _ M)) as Kx.
    destruct (bx_attrs b !! n) as [a|] eqn:Ha, (bx_attrs x !! n) as [a'|] eqn:Ha'; cbn in *.
    + by rewrite (Hflags n a Ha), (mw_flags _ _ M n a' Ha').
    + destruct (ok_types b Hb n a Ha) as [t Ht]. congruence.
    + destruct (ok_types x Kx n a' Ha') as [t Ht]. congruence.
    + done.
  - symmetry. apply (mw_class _ _ M).
  - rewrite (mw_maps _ _ M). done.
  - intros f k v. split; intros H; exfalso; revert H; [by apply Hframes|apply Hframes; apply (mw_spoken _ _ M)].
Qed.
End ToAst.
