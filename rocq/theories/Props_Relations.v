(** C21: relationship records and the relation table. *)
From Verif Require Import Spec_Relations Props_Storage Codec_proofs Condition_proofs.
From Coq Require Import Lia.

Lemma add_relation_elem o l x : x ∈ add_relation o l <-> x = o \/ x ∈ l.
Proof. unfold add_relation. case_bool_decide as E; [naive_solver|]. rewrite elem_of_app, elem_of_list_singleton. tauto. Qed.
Lemma add_relation_nodup o l : NoDup l -> NoDup (add_relation o l).
Proof.
  intros H. unfold add_relation. case_bool_decide as E; [done|]. apply NoDup_app. split; [done|]. split; [|apply NoDup_singleton].
  intros x Hx Hx'. apply elem_of_list_singleton in Hx' as ->. done.
Qed.
Lemma split_at_app a b : split_at (String.length a) (a +:+ b)%string = Some (a, b).
Proof. induction a as [|c a IH]; [by destruct b|]. cbn. by rewrite IH. Qed.
Lemma nat_ascii n : (n <= 255)%nat -> nat_of_ascii (ascii_of_nat n) = n.
Proof. intros. apply nat_ascii_embedding. lia. Qed.
Lemma obj_byte_small o : (obj_byte o <= 22)%nat.
Proof. destruct o as [| |t c]; cbn; try lia. destruct (ot_kind t); cbn; lia. Qed.

(** Objects as they are stored: the kind is one a byte can express and the identifier fits. *)
Definition storable (o : oobject) : Prop := obj_of_byte (obj_byte (oo_kind o)) = Ok (oo_kind o) /\ (String.length (oo_said o) <= 255)%nat.
Lemma rel_loop l : forall acc n s, Forall storable l -> rel_encode l = Ok s -> (String.length s <= n)%nat -> NoDup (acc ++ l) ->
  rel_decode_loop n s acc = Ok (acc ++ l).
Proof.
  induction l as [|o l IH]; intros acc n s Hs E Hn Hd; cbn in E.
  - injection E as <-. destruct n; cbn; by rewrite app_nil_r.
  - apply Forall_cons in Hs as [[Hk Hl] Hs]. unfold len_prefixed in E. rewrite (proj2 (Nat.leb_le _ _) Hl) in E. cbn in E.
    destruct (rel_encode l) as [r| |] eqn:Er; cbn in E; try discriminate. injection E as <-.
    cbn in Hn. destruct n as [|n]; [lia|]. cbn [rel_decode_loop]. rewrite nat_ascii by done. rewrite split_at_app.
    rewrite nat_ascii by (pose proof (obj_byte_small (oo_kind o)); lia). rewrite Hk. cbn [obind].
    replace (OObj (oo_said o) (oo_kind o)) with o by by destruct o.
    assert (Ho : o ∉ acc). { apply NoDup_app in Hd as (_ & Hd & _). intros Hx. apply (Hd _ Hx). left. }
    unfold add_relation. rewrite bool_decide_eq_false_2 by done.
    rewrite (IH (acc ++ [o]) n r); [by rewrite <- app_assoc|done|done| |by rewrite <- app_assoc].
    rewrite length_append in Hn. lia.
Qed.
Lemma rel_encode_ok l : Forall storable l -> exists s, rel_encode l = Ok s.
Proof.
  induction l as [|o l IH]; intros H; [by exists EmptyString|]. apply Forall_cons in H as [[Hk Hl] H]. destruct (IH H) as [s Hs].
  cbn. unfold len_prefixed. rewrite (proj2 (Nat.leb_le _ _) Hl). cbn. rewrite Hs. cbn. by eexists.
Qed.
(** ** C21: codec.  A stored list is read back exactly; a SAID of more than 255 bytes panics instead of being stored. *)
Theorem C21_record_round_trip : forall l s, NoDup l -> Forall storable l -> rel_encode l = Ok s -> rel_decode s = Ok l.
Proof. intros l s Hd Hs E. exact (rel_loop l [] _ _ Hs E (le_n _) Hd). Qed.
Print Assumptions C21_record_round_trip.
Theorem C21_encodes_iff_short : forall l, (exists s, rel_encode l = Ok s) <-> forall o, o ∈ l -> (String.length (oo_said o) <= 255)%nat.
Proof.
  intros l. split.
  - induction l as [|o l IH]; intros [s E] x Hx; [by apply elem_of_nil in Hx|]. cbn in E. unfold len_prefixed in E.
    destruct (Nat.leb_spec (String.length (oo_said o)) 255) as [Hl|Hl]; cbn in E; [|discriminate].
    destruct (rel_encode l) as [r| |] eqn:Er; cbn in E; try discriminate.
    apply elem_of_cons in Hx as [->|Hx]; [done|]. apply IH; [by exists r|done].
  - induction l as [|o l IH]; intros H; [by exists EmptyString|]. destruct IH as [s Hs]; [intros x Hx; apply H; by right|].
    cbn. unfold len_prefixed. rewrite (proj2 (Nat.leb_le _ _) (H o (elem_of_list_here _ _))). cbn. rewrite Hs. cbn. by eexists.
Qed.
Print Assumptions C21_encodes_iff_short.
Theorem C21_long_said_panics : forall l o, o ∈ l -> (255 < String.length (oo_said o))%nat -> rel_encode l = Panic.
Proof.
  induction l as [|x l IH]; intros o Ho Hl; [by apply elem_of_nil in Ho|]. cbn. unfold len_prefixed.
  destruct (Nat.leb_spec (String.length (oo_said x)) 255) as [Hx|Hx]; [|done]. cbn.
  apply elem_of_cons in Ho as [->|Ho]; [lia|]. by rewrite (IH o Ho Hl).
Qed.
Print Assumptions C21_long_said_panics.

(** ** The table *)
Section Table.
Variable listing : string -> list oobject -> list oobject.
Hypothesis Hl : listing_ok listing.
Variable kind : string -> obj_kind.
Notation rg db k := (get2 db NsRelations k).

(** The row of [s] holds exactly the objects with a SAID in [P], without duplicates; there is one iff [D]. *)
Definition row (db : mem) (s : string) (D : Prop) (P : string -> Prop) : Prop :=
  (D /\ exists v l, rg db s = Some v /\ rel_decode v = Ok l /\ NoDup l /\ forall x, x ∈ l <-> P (oo_said x) /\ oo_kind x = kind (oo_said x)) \/
  (~ D /\ (forall t, ~ P t) /\ rg db s = None).
Lemma row_iff db s (D D' : Prop) (P P' : string -> Prop) : (D <-> D') -> (forall t, P t <-> P' t) -> row db s D P -> row db s D' P'.
Proof.
  intros HD HP [(HD' & v & l & H1 & H2 & H3 & H4)|(Hn & H1 & H2)]; [left; split; [tauto|]; exists v, l; repeat split; try done; [apply HP, H4, H|apply H4, H|intros [Hx Hx']; apply H4; split; [by apply HP|done]]|right].
  repeat split; [tauto| |done]. intros t Ht. by apply (H1 t), HP.
Qed.
Definition known (db : mem) (s : string) : Prop := rg db (meta_key s) = Some (kind_bytes (kind s)).
Definition fine (s : string) : Prop := obj_of_byte (obj_byte (kind s)) = Ok (kind s) /\ (String.length s <= 255)%nat.
Lemma known_type db s : known db s -> fine s -> object_new db s = Ok (OObj s (kind s)).
Proof.
  intros H [H2 _]. unfold object_new, object_type. rewrite mem_get2, H. unfold kind_bytes.
  rewrite nat_ascii by (pose proof (obj_byte_small (kind s)); lia). by rewrite H2.
Qed.
Definition lists (l : list oobject) (P : string -> Prop) : Prop := NoDup l /\ forall x, x ∈ l <-> P (oo_said x) /\ oo_kind x = kind (oo_said x).
Lemma row_rel db s D P : known db s -> fine s -> row db s D P -> exists l, rel_or_new db s = Ok (OObj s (kind s), l) /\ lists l P.
Proof.
  intros Hk Hf H. unfold rel_or_new, explore. rewrite mem_get2. destruct H as [(_ & v & l & Hg & Hd & Hn & Hx)|(_ & Hp & H)].
  - exists l. rewrite Hg, Hd. cbn. rewrite (known_type _ _ Hk Hf). done.
  - exists []. rewrite H. cbn. rewrite (known_type _ _ Hk Hf). cbn. split; [done|]. split; [constructor|]. intros x.
    rewrite elem_of_nil. split; [done|]. intros [Hx _]. by apply Hp in Hx.
Qed.
Lemma lists_add l P s : lists l P -> lists (add_relation (OObj s (kind s)) l) (fun t => P t \/ t = s).
Proof.
  intros [Hn Hx]. split; [by apply add_relation_nodup|]. intros x. rewrite add_relation_elem, Hx. destruct x as [t k]. cbn. split.
  - intros [E|[H ->]]; [injection E as -> ->; auto|auto].
  - intros [[H| ->] ->]; auto.
Qed.
Lemma lists_iff l P P' : (forall t, P t <-> P' t) -> lists l P -> lists l P'.
Proof. intros H [Hn Hx]. split; [done|]. intros x. rewrite Hx, H. done. Qed.
Lemma row_insert (db : mem) (s : string) o l (P : string -> Prop) : lists l P -> (forall x, P x -> fine x) ->
  exists v, rel_insert listing (o, l) s db = Ok (ins2 NsRelations s v db) /\ row (ins2 NsRelations s v db) s True P.
Proof.
  intros [Hn Hx] HP. pose proof (Hl s l) as Hp. unfold rel_insert. cbn [snd].
  assert (Hs : Forall storable (listing s l)).
  { apply Forall_forall. intros x Hin. rewrite Hp in Hin. apply Hx in Hin as [Hin Hk]. apply HP in Hin as [H1 H2]. split; [by rewrite Hk|done]. }
  destruct (rel_encode_ok _ Hs) as [v Hv]. exists v. rewrite Hv. cbn [obind]. rewrite mem_ins2. split; [done|]. left. split; [done|].
  exists v, (listing s l). rewrite get2_ins2, bool_decide_eq_true_2 by done.
  assert (Hn' : NoDup (listing s l)) by by rewrite Hp. repeat split; try done.
  - by apply C21_record_round_trip.
  - rewrite Hp in H. by apply Hx.
  - rewrite Hp in H. by apply Hx.
  - intros H. rewrite Hp. by apply Hx.
Qed.
Lemma row_same db db' s D P : rg db' s = rg db s -> row db s D P -> row db' s D P.
Proof. unfold row. by intros ->. Qed.
Lemma rg_ne db s v s' : s <> s' -> rg (ins2 NsRelations s v db) s' = rg db s'.
Proof. intros Hne. rewrite get2_ins2, bool_decide_eq_false_2; [done|]. by intros [_ H]. Qed.
Lemma rg_eq db s v : rg (ins2 NsRelations s v db) s = Some v.
Proof. by rewrite get2_ins2, bool_decide_eq_true_2. Qed.

(** The metadata rows. *)
Lemma meta_inj a b : meta_key a = meta_key b -> a = b.
Proof.
  unfold meta_key. revert b. induction a as [|c a IH]; intros [|d b] H.
  - done.
  - exfalso. apply (f_equal String.length) in H. cbn in H. rewrite length_append in H. cbn in H. lia.
  - exfalso. apply (f_equal String.length) in H. cbn in H. rewrite length_append in H. cbn in H. lia.
  - cbn in H. injection H as -> H. by rewrite (IH _ H).
Qed.
Lemma known_set db s : known (ins2 NsRelations (meta_key s) (kind_bytes (kind s)) db) s.
Proof. apply rg_eq. Qed.
Lemma known_keep db s t : known db t -> known (ins2 NsRelations (meta_key s) (kind_bytes (kind s)) db) t.
Proof.
  intros H. destruct (decide (s = t)) as [->|Hn]; [apply known_set|]. unfold known. rewrite rg_ne; [done|]. intros E. by apply meta_inj in E.
Qed.
Definition ov_in (ovs : list overlay) (s : string) : Prop := exists ov, ov ∈ ovs /\ ov_said ov = Some s.
Lemma meta_ovs ovs : forall db, Forall (fun ov => exists s, ov_said ov = Some s /\ obj_byte (kind s) = obj_byte (OOverlay (ov_type ov) (Content None None))) ovs ->
  exists db', insert_ov_metadata ovs db = Ok db' /\ (forall s, known db s \/ ov_in ovs s -> known db' s) /\
  forall k, (forall s, ov_in ovs s -> k <> meta_key s) -> rg db' k = rg db k.
Proof.
  induction ovs as [|ov ovs IH]; intros db H.
  - exists db. split; [done|]. split; [|done]. intros s [Hs|(ov & Ho & _)]; [done|by apply elem_of_nil in Ho].
  - apply Forall_cons in H as [(s & Hs & Hk) H]. cbn [insert_ov_metadata]. rewrite Hs, mem_ins2. cbn [obind].
    unfold kind_bytes. rewrite <- Hk. fold (kind_bytes (kind s)).
    destruct (IH (ins2 NsRelations (meta_key s) (kind_bytes (kind s)) db) H) as (db' & Hi & Hkn & Hf). exists db'. split; [done|]. split.
    + intros t [Ht|(ov' & Ho & Ht)]; [apply Hkn; left; by apply known_keep|]. apply elem_of_cons in Ho as [->|Ho].
      * apply Hkn. left. rewrite Hs in Ht. injection Ht as <-. apply known_set.
      * apply Hkn. right. by exists ov'.
    + intros k Hne. rewrite Hf; [apply rg_ne|].
      * intros E. apply (Hne s); [exists ov; split; [left|done]|done].
      * intros t (ov' & Ho & Ht). apply Hne. exists ov'. split; [by right|done].
Qed.
Definition kinds_match (B : bundle) : Prop := forall s r, has_role B s r -> kind s = shown r.
Definition in_bundle (B : bundle) (s : string) : Prop := exists r, has_role B s r.
Lemma in_bundle_ov B s : ov_in (b_ovs B) s -> in_bundle B s.
Proof. intros (ov & Ho & Hs). eexists. right; right. by exists ov. Qed.
Lemma meta_bundle B db : saids_present B -> kinds_match B -> exists db', insert_metadata B db = Ok db' /\
  (forall s, known db s \/ in_bundle B s -> known db' s) /\ forall k, (forall s, in_bundle B s -> k <> meta_key s) -> rg db' k = rg db k.
Proof.
  intros ([bs Hb] & [cs Hc] & Ho) Hk. unfold insert_metadata. rewrite Hb, Hc, mem_ins2. cbn [obind]. rewrite mem_ins2. cbn [obind].
  assert (Kb : kind bs = empty_bundle) by (apply (Hk _ RBundle); by left).
  assert (Kc : kind cs = empty_capture) by (apply (Hk _ RCapture); by right; left).
  rewrite <- Kb, <- Kc. edestruct meta_ovs as (db' & Hi & Hkn & Hf); [|rewrite Hi; exists db'; split; [done|split]].
  - apply Forall_forall. intros ov Hov. destruct (proj1 (Forall_forall _ _) Ho _ Hov) as [s Hs]. exists s. split; [done|].
    rewrite (Hk s (ROverlay (ot_kind (ov_type ov)))); [done|]. right; right. by exists ov.
  - intros s [Hs|(r & [[-> Hs]|[[-> Hs]|(ov & Hov & Hs & ->)]])].
    + apply Hkn. left. by apply known_keep, known_keep.
    + apply Hkn. left. apply known_keep. rewrite Hb in Hs. injection Hs as <-. apply known_set.
    + apply Hkn. left. rewrite Hc in Hs. injection Hs as <-. apply known_set.
    + apply Hkn. right. by exists ov.
  - intros k Hne. rewrite Hf; [rewrite rg_ne; [apply rg_ne|]|].
    + intros E. apply (Hne bs); [exists RBundle; by left|done].
    + intros E. apply (Hne cs); [exists RCapture; by right; left|done].
    + intros s Hs. apply Hne. by apply in_bundle_ov.
Qed.

(** The loop over the overlays. *)
Variable S : string -> Prop.
Hypothesis S_fine : forall s, S s -> fine s.
Hypothesis S_meta : forall s s', S s -> S s' -> s <> meta_key s'.
Lemma loop_ovs bs cs ovs : S bs -> S cs -> forall db ob lb oc lc (D : string -> Prop) (P : string -> string -> Prop) Pb Pc,
  Forall (fun ov => exists s, ov_said ov = Some s /\ S s) ovs ->
  (forall s, s = bs \/ s = cs \/ ov_in ovs s -> known db s) ->
  (forall s, S s -> row db s (D s) (P s)) -> (forall s t, P s t -> S t) -> lists lb Pb -> lists lc Pc ->
  exists db' lb' lc', rel_overlays listing bs cs ovs (db, (ob, lb), (oc, lc)) = Ok (db', (ob, lb'), (oc, lc')) /\
    (forall s, S s -> row db' s (D s \/ ov_in ovs s) (fun t => P s t \/ (ov_in ovs s /\ (t = bs \/ t = cs)))) /\
    lists lb' (fun t => Pb t \/ ov_in ovs t) /\ lists lc' (fun t => Pc t \/ ov_in ovs t) /\
    (forall k, ~ S k -> rg db' k = rg db k).
Proof.
  intros Sb Sc. induction ovs as [|ov ovs IH]; intros db ob lb oc lc D P Pb Pc Ho Hk Hr HP Hlb Hlc.
  - exists db, lb, lc. assert (N : forall s, ~ ov_in [] s) by (intros s (ov & Hov & _); by apply elem_of_nil in Hov).
    split; [done|]. split; [intros s Hs; apply (row_iff db s (D s) _ (P s)); [|intros t|by apply Hr]; pose proof (N s); tauto|].
    split; [|split]; [eapply lists_iff; [|exact Hlb]; intros t; cbv beta; pose proof (N t); tauto|
                      eapply lists_iff; [|exact Hlc]; intros t; cbv beta; pose proof (N t); tauto|done].
  - apply Forall_cons in Ho as [(s & Hs & Ss) Ho]. cbn [rel_overlays]. rewrite Hs. cbn [fst snd].
    assert (Iff : forall t, ov_in (ov :: ovs) t <-> t = s \/ ov_in ovs t).
    { intros t. unfold ov_in. split.
      - intros (o & Hin & Ht). apply elem_of_cons in Hin as [->|Hin]; [left; rewrite Hs in Ht; by injection Ht|right; by exists o].
      - intros [->|(o & Hin & Ht)]; [exists ov; split; [left|done]|exists o; split; [by right|done]]. }
    assert (Ks : known db s) by (apply Hk; right; right; apply Iff; by left).
    assert (Kb : known db bs) by (apply Hk; by left). assert (Kc : known db cs) by (apply Hk; right; by left).
    rewrite (known_type db s Ks (S_fine _ Ss)). cbn [obind].
    destruct (row_rel db s _ _ Ks (S_fine _ Ss) (Hr _ Ss)) as (l & Hrl & Hll). rewrite Hrl. cbn [obind].
    rewrite (known_type db bs Kb (S_fine _ Sb)). cbn [obind]. rewrite (known_type db cs Kc (S_fine _ Sc)). cbn [obind fst snd].
    pose proof (lists_add _ _ cs (lists_add _ _ bs Hll)) as Hll'.
    destruct (row_insert db s (OObj s (kind s)) _ _ Hll' ltac:(intros x [[Hx| ->]| ->]; apply S_fine; [by eapply HP|exact Sb|exact Sc])) as (v & Hv & Hrow).
    rewrite Hv. cbn [obind].
    destruct (IH (ins2 NsRelations s v db) ob (add_relation (OObj s (kind s)) lb) oc (add_relation (OObj s (kind s)) lc)
       (fun t => D t \/ t = s) (fun t x => P t x \/ (t = s /\ (x = bs \/ x = cs))) (fun t => Pb t \/ t = s) (fun t => Pc t \/ t = s))
       as (db' & lb' & lc' & E & H1 & H2 & H3 & H4); [done| | | |by apply lists_add|by apply lists_add|].
    + intros t Ht. unfold known. rewrite rg_ne; [apply Hk; rewrite Iff; tauto|].
      apply S_meta; [done|]. destruct Ht as [->|[->|(o & Hin & Ht)]]; [done..|].
      destruct (proj1 (Forall_forall _ _) Ho _ Hin) as (t' & Ht' & St). rewrite Ht in Ht'. by injection Ht' as ->.
    + intros t St. destruct (decide (t = s)) as [->|Hne].
      * apply (row_iff _ _ True _ (fun t => (P s t \/ t = bs) \/ t = cs)); [tauto|intros t; tauto|exact Hrow].
      * apply (row_iff _ _ (D t) _ (P t)); [tauto|intros x; tauto|]. apply (row_same db); [by apply rg_ne|by apply Hr].
    + intros t x [H|[-> [->| ->]]]; [by eapply HP|done..].
    + exists db', lb', lc'. split; [exact E|]. split; [|split; [|split]].
      * intros t St. eapply row_iff; [| |exact (H1 t St)]; [rewrite Iff; tauto|intros x; cbv beta; rewrite Iff; tauto].
      * eapply lists_iff; [|exact H2]. intros t. cbv beta. rewrite Iff. tauto.
      * eapply lists_iff; [|exact H3]. intros t. cbv beta. rewrite Iff. tauto.
      * intros k Hk'. rewrite H4 by done. apply rg_ne. intros ->. done.
Qed.
Lemma add_ok B db (D : string -> Prop) (P : string -> string -> Prop) :
  saids_present B -> kinds_match B -> (forall s, in_bundle B s -> S s) -> (forall s r r', has_role B s r -> has_role B s r' -> r = r') ->
  (forall s, S s -> row db s (D s) (P s)) -> (forall s t, P s t -> S t) ->
  exists db', add_relations listing B db = Ok db' /\
    (forall s, S s -> row db' s (D s \/ in_bundle B s) (fun t => P s t \/ linked B s t)) /\
    (forall s, in_bundle B s \/ (S s /\ known db s) -> known db' s) /\
    forall k, ~ S k -> (forall s, S s -> k <> meta_key s) -> rg db' k = rg db k.
Proof.
  intros HB Hk HS Hone Hr HP. unfold add_relations. destruct (meta_bundle B db HB Hk) as (db1 & E1 & K1 & F1). rewrite E1. cbn [obind].
  destruct HB as ([bs Hb] & [cs Hc] & Ho). rewrite Hb, Hc.
  assert (Rb : has_role B bs RBundle) by by left. assert (Rc : has_role B cs RCapture) by by right; left.
  assert (Ro : forall s, ov_in (b_ovs B) s <-> exists k, has_role B s (ROverlay k)).
  { intros s. split; [intros (ov & Hin & Hs); eexists; right; right; by exists ov|].
    intros [k [[? ?]|[[? ?]|(ov & Hin & Hs & _)]]]; [discriminate..|by exists ov]. }
  assert (Sb : S bs) by (apply HS; by exists RBundle). assert (Sc : S cs) by (apply HS; by exists RCapture).
  assert (Kb : known db1 bs) by (apply K1; right; by exists RBundle). assert (Kc : known db1 cs) by (apply K1; right; by exists RCapture).
  assert (Hr1 : forall s, S s -> row db1 s (D s) (P s)).
  { intros s Ss. apply (row_same db); [|by apply Hr]. apply F1. intros t Ht. apply S_meta; [done|by apply HS]. }
  destruct (row_rel _ _ _ _ Kb (S_fine _ Sb) (Hr1 _ Sb)) as (lb & Eb & Lb). rewrite Eb. cbn [obind].
  rewrite (known_type _ _ Kc (S_fine _ Sc)). cbn [obind].
  destruct (row_rel _ _ _ _ Kc (S_fine _ Sc) (Hr1 _ Sc)) as (lc & Ec & Lc). rewrite Ec. cbn [obind].
  rewrite (known_type _ _ Kb (S_fine _ Sb)). cbn [obind fst snd].
  destruct (loop_ovs bs cs (b_ovs B) Sb Sc db1 (OObj bs (kind bs)) _ (OObj cs (kind cs)) _ D P _ _
    ltac:(apply Forall_forall; intros ov Hov; destruct (proj1 (Forall_forall _ _) Ho _ Hov) as [s Hs]; exists s; split; [exact Hs|];
          apply HS, in_bundle_ov; exists ov; split; [exact Hov|exact Hs])
    ltac:(intros s [->|[->|Hs]]; [exact Kb|exact Kc|apply K1; right; apply in_bundle_ov; exact Hs])
    Hr1 HP (lists_add _ _ cs Lb) (lists_add _ _ bs Lc)) as (db2 & lb' & lc' & E2 & R2 & Lb' & Lc' & F2).
  rewrite E2. cbn [obind fst snd oo_said].
  assert (So : forall t, ov_in (b_ovs B) t -> S t) by (intros t Ht; by apply HS, in_bundle_ov).
  destruct (row_insert db2 bs (OObj bs (kind bs)) lb' _ Lb' ltac:(intros x [[Hx| ->]|Hx]; apply S_fine; [by eapply HP|exact Sc|by apply So])) as (v3 & E3 & R3).
  rewrite E3. cbn [obind].
  destruct (row_insert (ins2 NsRelations bs v3 db2) cs (OObj cs (kind cs)) lc' _ Lc' ltac:(intros x [[Hx| ->]|Hx]; apply S_fine; [by eapply HP|exact Sb|by apply So])) as (v4 & E4 & R4).
  rewrite E4. eexists. split; [reflexivity|].
  assert (Hbc : bs <> cs) by (intros ->; discriminate (Hone _ _ _ Rb Rc)).
  assert (Uo : forall s r, ov_in (b_ovs B) s -> has_role B s r -> exists k, r = ROverlay k).
  { intros s r Hs Hr'. apply Ro in Hs as [k Hs]. exists k. exact (Hone _ _ _ Hr' Hs). }
  split; [|split].
  - intros s Ss. destruct (decide (s = cs)) as [->|Hsc]; [|destruct (decide (s = bs)) as [->|Hsb]].
    + eapply row_iff; [| |exact R4].
      * split; [intros _; right; by exists RCapture|done].
      * intros t. cbv beta. split.
        -- intros [[H| ->]|H]; [by left|right; by apply lk_base_bundle|right]. apply Ro in H as [k H]. by eapply lk_base_overlay.
        -- intros [H|H]; [tauto|]. destruct H as [H _|_ H|k H _|k H _|k _ H|k H _]; try discriminate (Hone _ _ _ H Rc).
           ++ destruct H as [[_ H]|[[H _]|(? & _ & _ & H)]]; [|discriminate..]. rewrite Hb in H. injection H as <-. tauto.
           ++ right. apply Ro. by exists k.
    + eapply row_iff; [| |apply (row_same (ins2 NsRelations bs v3 db2)); [by apply rg_ne|exact R3]].
      * split; [intros _; right; by exists RBundle|done].
      * intros t. cbv beta. split.
        -- intros [[H| ->]|H]; [by left|right; by apply lk_bundle_base|right]. apply Ro in H as [k H]. by eapply lk_bundle_overlay.
        -- intros [H|H]; [tauto|]. destruct H as [_ H|H _|k _ H|k H _|k H _|k H _]; try discriminate (Hone _ _ _ H Rb).
           ++ destruct H as [[H _]|[[_ H]|(? & _ & _ & H)]]; [discriminate| |discriminate]. rewrite Hc in H. injection H as <-. tauto.
           ++ right. apply Ro. by exists k.
    + eapply row_iff; [| |apply (row_same db2); [rewrite rg_ne by congruence; by apply rg_ne|exact (R2 s Ss)]].
      * cbv beta. split; [intros [H|H]; [by left|right; by apply in_bundle_ov]|]. intros [H|[r H]]; [by left|].
        destruct H as [[_ H]|[[_ H]|(ov & Hin & Hs & _)]]; [congruence..|right; by exists ov].
      * intros t. cbv beta. split.
        -- intros [H|[H [->| ->]]]; [by left|right..]; apply Ro in H as [k H]; [by eapply lk_overlay_bundle|by eapply lk_overlay_base].
        -- intros [H|H]; [by left|]. right.
           destruct H as [H _|H _|k H _|k H Ht|k H _|k H Ht]; try (destruct H as [[? H]|[[? H]|(? & ? & ? & ?)]]; congruence).
           ++ split; [apply Ro; by exists k|]. destruct Ht as [[_ Ht]|[[? _]|(? & _ & _ & ?)]]; [left; congruence|discriminate..].
           ++ split; [apply Ro; by exists k|]. destruct Ht as [[? _]|[[_ Ht]|(? & _ & _ & ?)]]; [discriminate|right; congruence|discriminate].
  - intros s Hs. assert (Ss : S s) by (destruct Hs as [Hs|[Hs _]]; [by apply HS|done]).
    unfold known. rewrite !rg_ne by by apply S_meta. rewrite F2; [apply K1; tauto|]. intros Hm. by apply (S_meta _ _ Hm Ss).
  - intros k Hk1 Hk2. rewrite !rg_ne by congruence. rewrite F2 by done. apply F1. intros s Hs. apply Hk2. by apply HS.
Qed.
End Table.

(** The roles occurring in a history, as a table. *)
Definition members (B : bundle) : imap role :=
  match b_said B with Some s => [(s, RBundle)] | None => [] end ++ match cb_said (b_cb B) with Some s => [(s, RCapture)] | None => [] end ++
  omap (fun ov => match ov_said ov with Some s => Some (s, ROverlay (ot_kind (ov_type ov))) | None => None end) (b_ovs B).
Lemma members_role B s r : (s, r) ∈ members B <-> has_role B s r.
Proof.
  unfold members, has_role. rewrite !elem_of_app, elem_of_list_omap. split.
  - intros [H|[H|(ov & Hin & E)]].
    + destruct (b_said B); [|by apply elem_of_nil in H]. apply elem_of_list_singleton in H. injection H as -> ->. by left.
    + destruct (cb_said (b_cb B)); [|by apply elem_of_nil in H]. apply elem_of_list_singleton in H. injection H as -> ->. by right; left.
    + destruct (ov_said ov) as [x|] eqn:Ex; [|discriminate]. injection E as -> <-. right; right. by exists ov.
  - intros [[-> ->]|[[-> ->]|(ov & Hin & E & ->)]]; [left; left|right; left; left|right; right]. exists ov. by rewrite E.
Qed.
Definition kind_in (Bs : list bundle) (s : string) : obj_kind :=
  match imap_get s (concat (map members Bs)) with Some r => shown r | None => empty_bundle end.
Lemma kind_in_role Bs B s r : saids_sane Bs -> B ∈ Bs -> has_role B s r -> kind_in Bs s = shown r.
Proof.
  intros (Hone & _) HB Hr. unfold kind_in. destruct (imap_get s _) as [r'|] eqn:E.
  - apply Upd_proofs.imap_get_elem in E. apply elem_of_list_In, in_concat in E as (m & Hm & E).
    apply in_map_iff in Hm as (B' & <- & HB'). apply elem_of_list_In in HB'. apply elem_of_list_In, members_role in E.
    by rewrite (Hone _ _ _ _ _ HB' HB E Hr).
  - exfalso. pose proof (proj1 (Upd_proofs.imap_get_none _ _) E) as N. apply N. apply elem_of_list_In, in_map_iff. exists (s, r). split; [done|].
    apply in_concat. exists (members B). split; [apply in_map, elem_of_list_In, HB|]. apply elem_of_list_In. by apply members_role.
Qed.
Lemma shown_byte r : obj_of_byte (obj_byte (shown r)) = Ok (shown r).
Proof. destruct r as [| |k]; [done..|by destruct k]. Qed.

Definition history (listing : string -> list oobject -> list oobject) (Bs : list bundle) (db : mem) : outcome mem :=
  fold_left (fun acc B => let! d := acc in add_relations listing B d) Bs (Ok db).
(** The rows after a part of a history, in terms of the objects of the whole history. *)
Lemma history_rows listing Bs pre : listing_ok listing -> Forall saids_present Bs -> saids_sane Bs -> Forall (fun B => B ∈ Bs) pre ->
  exists db, history listing pre ∅ = Ok db /\
    (forall s, (exists B r, B ∈ Bs /\ has_role B s r) -> row (kind_in Bs) db s (exists B, B ∈ pre /\ in_bundle B s) (fun t => exists B, B ∈ pre /\ linked B s t)) /\
    (forall B s, B ∈ pre -> in_bundle B s -> known (kind_in Bs) db s) /\
    (forall k, ~ (exists B r, B ∈ Bs /\ has_role B k r) -> (forall s, (exists B r, B ∈ Bs /\ has_role B s r) -> k <> meta_key s) -> get2 db NsRelations k = None).
Proof.
  intros Hl Hp Hsane. set (kind := kind_in Bs). pose (S := fun s => exists B r, B ∈ Bs /\ has_role B s r).
  destruct Hsane as (Hone & Hlen & Hmeta). pose proof (conj Hone (conj Hlen Hmeta) : saids_sane Bs) as Hsane.
  assert (HK : forall B, B ∈ Bs -> kinds_match kind B) by (intros B HB s r Hr; by apply (kind_in_role Bs B)).
  assert (SF : forall s, S s -> fine kind s).
  { intros s (B & r & HB & Hr). split; [|by eapply Hlen]. rewrite (HK B HB s r Hr). apply shown_byte. }
  assert (SM : forall s s', S s -> S s' -> s <> meta_key s') by (intros s s' (B & r & HB & Hr) (B' & r' & HB' & Hr'); exact (Hmeta _ _ _ _ _ _ HB HB' Hr Hr')).
  induction pre as [|B pre IH] using rev_ind; intros HF.
    - exists ∅. split; [done|]. split; [|split; [intros B s HB; by apply elem_of_nil in HB|done]].
      intros s Ss. right. split; [intros (B & HB & _); by apply elem_of_nil in HB|]. split; [intros t (B & HB & _); by apply elem_of_nil in HB|done].
    - apply Forall_app in HF as [HF HB]. apply Forall_cons in HB as [HB _]. destruct (IH HF) as (db & E & Hr & Hk & Hf).
      unfold history in E |- *. rewrite fold_left_app, E. cbn [fold_left obind].
      destruct (add_ok listing Hl kind S SF SM B db (fun s => exists B', B' ∈ pre /\ in_bundle B' s) (fun s t => exists B', B' ∈ pre /\ linked B' s t))
        as (db' & E' & R' & K' & F').
      + exact (proj1 (Forall_forall _ _) Hp _ HB).
      + by apply HK.
      + intros s [r Hs]. by exists B, r.
      + intros s r r'. exact (Hone B B s r r' HB HB).
      + exact Hr.
      + intros s t (B' & HB' & Hlk). assert (HB2 : B' ∈ Bs) by exact (proj1 (Forall_forall _ _) HF _ HB').
        destruct Hlk; eexists B', _; (split; [exact HB2|eassumption]).
      + exists db'. split; [exact E'|]. assert (HE : forall B' (Q : bundle -> Prop), (B' ∈ pre ++ [B] /\ Q B') -> (exists B', B' ∈ pre /\ Q B') \/ Q B).
        { intros B' Q [Hin HQ]. apply elem_of_app in Hin as [Hin|Hin]; [left; by exists B'|apply elem_of_list_singleton in Hin as ->; by right]. }
        split; [|split].
        * intros s Ss. eapply row_iff; [| |exact (R' s Ss)]; cbv beta.
          -- split; [intros [(B' & Hin & Hb)|Hb]; [exists B'|exists B]; (split; [apply elem_of_app; rewrite ?elem_of_list_singleton; auto|done])|].
             intros (B' & H). exact (HE B' (fun B => in_bundle B s) H).
          -- intros t. split; [intros [(B' & Hin & Hb)|Hb]; [exists B'|exists B]; (split; [apply elem_of_app; rewrite ?elem_of_list_singleton; auto|done])|].
             intros (B' & H). exact (HE B' (fun B => linked B s t) H).
        * intros B' s Hin Hb. apply K'. destruct (HE B' (fun B => in_bundle B s) (conj Hin Hb)) as [(B2 & Hin2 & Hb2)|Hb2]; [right|by left].
          split; [|by apply (Hk B2)]. destruct Hb2 as [r Hb2]. exists B2, r. split; [exact (proj1 (Forall_forall _ _) HF _ Hin2)|done].
        * intros k H1 H2. rewrite F' by done. by apply Hf.
Qed.
(** ** C21: after any history of builds, exploring a SAID lists exactly the objects linked to it by some bundle of the
    history, with their kinds; SAIDs that never occurred are unknown. *)
Theorem C21_relation_table : forall listing Bs, listing_ok listing -> Forall saids_present Bs -> saids_sane Bs ->
  exists db, history listing Bs ∅ = Ok db /\
  (forall B s r, B ∈ Bs -> has_role B s r -> exists l, explore db s = Ok (Some (OObj s (shown r), l)) /\ NoDup l /\
     forall x, x ∈ l <-> exists B' t r', B' ∈ Bs /\ linked B' s t /\ has_role B' t r' /\ x = OObj t (shown r')) /\
  (forall s, (forall B r, B ∈ Bs -> ~ has_role B s r) -> (forall B t r, B ∈ Bs -> has_role B t r -> s <> (t +:+ ".metadata")%string) ->
     explore db s = Ok None).
Proof.
  intros listing Bs Hl Hp Hsane. set (kind := kind_in Bs). pose (S := fun s => exists B r, B ∈ Bs /\ has_role B s r).
  destruct Hsane as (Hone & Hlen & Hmeta). pose proof (conj Hone (conj Hlen Hmeta) : saids_sane Bs) as Hsane.
  assert (HK : forall B, B ∈ Bs -> kinds_match kind B) by (intros B HB s r Hr; by apply (kind_in_role Bs B)).
  assert (SF : forall s, S s -> fine kind s).
  { intros s (B & r & HB & Hr). split; [|by eapply Hlen]. rewrite (HK B HB s r Hr). apply shown_byte. }
  assert (SM : forall s s', S s -> S s' -> s <> meta_key s') by (intros s s' (B & r & HB & Hr) (B' & r' & HB' & Hr'); exact (Hmeta _ _ _ _ _ _ HB HB' Hr Hr')).
  destruct (history_rows listing Bs Bs Hl Hp Hsane) as (db & E & Hr & Hk & Hf); [by apply Forall_forall|]. fold kind in Hr, Hk. exists db. split; [exact E|]. split.
  - intros B s r HB Hsr. assert (Ss : S s) by by exists B, r. assert (Hi : in_bundle B s) by by exists r.
    destruct (Hr s Ss) as [(_ & v & l & Hg & Hd & Hn & Hx)|(Hno & _)]; [|exfalso; apply Hno; by exists B].
    exists l. unfold explore. rewrite mem_get2, Hg, Hd. cbn [obind].
    rewrite (known_type kind db s (Hk B s HB Hi) (SF s Ss)). cbn [obind]. rewrite (HK B HB s r Hsr). split; [done|]. split; [done|].
    intros [t k]. rewrite Hx. cbn [oo_said oo_kind]. split.
    + intros [(B' & HB' & Hlk) ->]. assert (exists r', has_role B' t r') as [r' Hr'] by (destruct Hlk; by eexists).
      exists B', t, r'. rewrite (HK B' HB' t r' Hr'). done.
    + intros (B' & t' & r' & HB' & Hlk & Hr' & Eo). injection Eo as -> ->. split; [by exists B'|]. symmetry. exact (HK B' HB' t' r' Hr').
  - intros s H1 H2. unfold explore. rewrite mem_get2, Hf; [done| |].
    + intros (B & r & HB & Hsr). exact (H1 B r HB Hsr).
    + intros t (B & r & HB & Hsr). exact (H2 B t r HB Hsr).
Qed.
Print Assumptions C21_relation_table.
(** Later builds keep every relation listed earlier. *)
Theorem C21_earlier_relations_kept : forall listing Bs Bs' db db' s o l x, listing_ok listing -> Forall saids_present (Bs ++ Bs') -> saids_sane (Bs ++ Bs') ->
  history listing Bs ∅ = Ok db -> history listing (Bs ++ Bs') ∅ = Ok db' ->
  (forall B t r, B ∈ Bs -> has_role B t r -> s <> (t +:+ ".metadata")%string) ->
  explore db s = Ok (Some (o, l)) -> x ∈ l -> exists l', explore db' s = Ok (Some (o, l')) /\ x ∈ l'.
Proof.
  intros listing Bs Bs' db db' s o l x Hl Hp Hs E E' Hm Hx Hin.
  assert (Hs1 : saids_sane Bs).
  { destruct Hs as (H1 & H2 & H3). split; [|split].
    - intros B B' t r r' HB HB'. apply H1; apply elem_of_app; by left.
    - intros B t r HB. apply (H2 B). apply elem_of_app; by left.
    - intros B B' t t' r r' HB HB'. apply (H3 B B'); apply elem_of_app; by left. }
  destruct (C21_relation_table listing Bs Hl (proj1 (proj1 (Forall_app _ _ _) Hp)) Hs1) as (d1 & E1 & A1 & A2).
  rewrite E in E1. injection E1 as <-.
  destruct (C21_relation_table listing _ Hl Hp Hs) as (d2 & E2 & B1 & B2). rewrite E' in E2. injection E2 as <-.
  assert (K : exists B r, B ∈ Bs /\ has_role B s r).
  { destruct (imap_get s (concat (map members Bs))) as [r|] eqn:Eg.
    - apply Upd_proofs.imap_get_elem in Eg. apply elem_of_list_In, in_concat in Eg as (m & Hm' & Eg).
      apply in_map_iff in Hm' as (B' & <- & HB'). exists B', r. split; [by apply elem_of_list_In|]. by apply members_role, elem_of_list_In.
    - exfalso. rewrite A2 in Hx; [discriminate| |done]. intros B r HB Hr.
      pose proof (proj1 (Upd_proofs.imap_get_none _ _) Eg) as N. apply N. apply elem_of_list_In, in_map_iff. exists (s, r). split; [done|].
      apply in_concat. exists (members B). split; [apply in_map, elem_of_list_In, HB|]. apply elem_of_list_In. by apply members_role. }
  destruct K as (B & r & HB & Hr). destruct (A1 B s r HB Hr) as (l1 & El & _ & Hl1). rewrite Hx in El. injection El as -> ->.
  assert (HB2 : B ∈ Bs ++ Bs') by (apply elem_of_app; by left).
  destruct (B1 B s r HB2 Hr) as (l2 & El2 & _ & Hl2). exists l2. split; [done|]. apply Hl2.
  apply Hl1 in Hin as (B' & t & r' & HB' & Hlk & Hr' & ->). exists B', t, r'. split; [apply elem_of_app; by left|done].
Qed.
Print Assumptions C21_earlier_relations_kept.

(** Two versions sharing the capture base and an overlay. *)
Definition C21_cb : capture_base := CaptureBase (Some "EC") "spec/capture_base/1.1" [] "" [].
Definition C21_b1 : bundle := Bundle (Some "EB1") C21_cb [Overlay (Some "EL") (Some "EC") "1.1" (BLabel "eng" [] ∅ ∅)].
Definition C21_b2 : bundle := Bundle (Some "EB2") C21_cb [Overlay (Some "EL") (Some "EC") "1.1" (BLabel "eng" [] ∅ ∅); Overlay (Some "EU") (Some "EC") "1.1" (BUnit ∅)].
Lemma C21_all B s r : B ∈ [C21_b1; C21_b2] -> has_role B s r ->
  (s, r) ∈ [("EB1", RBundle); ("EB2", RBundle); ("EC", RCapture); ("EL", ROverlay KLabel); ("EU", ROverlay KUnit)].
Proof.
  intros HB H. apply members_role in H. apply elem_of_list_In in H. apply elem_of_list_In.
  apply elem_of_list_In in HB. destruct HB as [<-|[<-|[]]]; unfold members in H; cbn in H;
    repeat (destruct H as [H|H]; [injection H as <- <-; cbn; tauto|]); destruct H.
Qed.
Example C21_example : Forall saids_present [C21_b1; C21_b2] /\ saids_sane [C21_b1; C21_b2] /\
  match history (fun _ l => l) [C21_b1; C21_b2] ∅ with
  | Ok db => match explore db "EC" with Ok (Some (_, l)) => bool_decide (map oo_said l = ["EB1"; "EL"; "EB2"; "EU"]) | _ => false end
  | _ => false end = true.
Proof.
  assert (P : forall B s r, B ∈ [C21_b1; C21_b2] -> has_role B s r -> In (s, r) [("EB1", RBundle); ("EB2", RBundle); ("EC", RCapture); ("EL", ROverlay KLabel); ("EU", ROverlay KUnit)]).
  { intros B s r HB H. apply elem_of_list_In. by apply (C21_all B). }
  split; [|split].
  - repeat constructor; cbn; by eexists.
  - split; [|split].
    + intros B B' s r r' HB HB' H H'. apply P in H; [|done]. apply P in H'; [|done]. cbn in H, H'.
      destruct H as [H|[H|[H|[H|[H|[]]]]]]; injection H as <- <-; destruct H' as [H|[H|[H|[H|[H|[]]]]]]; by simplify_eq.
    + intros B s r HB H. apply P in H; [|done]. cbn in H. destruct H as [H|[H|[H|[H|[H|[]]]]]]; injection H as <- _; cbn; lia.
    + intros B B' s s' r r' HB HB' H H'. apply P in H; [|done]. apply P in H'; [|done]. cbn in H, H'.
      intros E. destruct H as [H|[H|[H|[H|[H|[]]]]]]; injection H as <- _; apply (f_equal String.length) in E; rewrite length_append in E; cbn in E; lia.
  - vm_compute. reflexivity.
Qed.
