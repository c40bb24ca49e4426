(** Stopping and repeating a build: the relation records. *)
From Verif Require Import Base Condition_proofs Spec_Facade Spec_Relations Props_Storage Props_Relations Facade_proofs Crash Crash_proofs.

(** Every prefix of the writes keeps [J]; the final state satisfies [Post]. *)
Definition keeps {A} (J Pre : facade -> Prop) (m : tr A) (Post : A -> facade -> Prop) : Prop :=
  forall f, Pre f -> (forall n, J (puts (take n (m f).1) f)) /\ forall g a, (m f).2 = Ok (g, a) -> Post a g.
Lemma keeps_ret {A} (J Pre : facade -> Prop) (a : A) (Post : A -> facade -> Prop) :
  (forall f, Pre f -> J f) -> (forall f, Pre f -> Post a f) -> keeps J Pre (tret a) Post.
Proof. intros H1 H2 f Hf. split; [intros n; cbn; rewrite take_nil; by apply H1|]. intros g x [= <- <-]. by apply H2. Qed.
Lemma keeps_read {A} (J Pre : facade -> Prop) (r : facade -> outcome A) (Post : A -> facade -> Prop) :
  (forall f, Pre f -> J f) -> (forall f a, Pre f -> r f = Ok a -> Post a f) -> keeps J Pre (tread r) Post.
Proof.
  intros H1 H2 f Hf. split; [intros n; cbn; rewrite take_nil; by apply H1|]. intros g x H. rewrite trd2 in H.
  apply obind_ok in H as (a & Ha & [= <- <-]). by apply H2.
Qed.
Lemma keeps_write (J Pre : facade -> Prop) w (Post : unit -> facade -> Prop) :
  (forall f, Pre f -> J f) -> (forall f, Pre f -> J (put w f) /\ Post tt (put w f)) -> keeps J Pre (twrite w) Post.
Proof.
  intros H1 H2 f Hf. destruct (H2 f Hf) as [HJ HP]. split.
  - intros n. cbn [twrite fst]. destruct n as [|n]; cbn; [by apply H1|]. rewrite take_nil. exact HJ.
  - intros g x [= <- <-]. exact HP.
Qed.
Lemma keeps_bind {A B} (J Pre : facade -> Prop) (m : tr A) (k : A -> tr B) Mid Post :
  sound m -> keeps J Pre m Mid -> (forall a, keeps J (Mid a) (k a) Post) -> keeps J Pre (tbind m k) Post.
Proof.
  intros Hs Hm Hk f Hf. destruct (Hm f Hf) as [M1 M2]. split.
  - intros n. rewrite tb1, firstn_app, puts_app. destruct (m f).2 as [[g a]| |] eqn:E; [|rewrite take_nil; apply M1..]. cbn [fst snd].
    destruct (Nat.le_gt_cases n (length (m f).1)) as [Hn|Hn].
    + replace (n - length (m f).1)%nat with 0%nat by lia. cbn [take puts fold_left]. apply M1.
    + rewrite (take_ge (m f).1) by lia. rewrite <- (Hs _ _ _ E). apply Hk. by apply M2.
  - intros g b H. rewrite tb2 in H. apply obind_ok in H as ([h a] & E & H). cbn [fst snd] in H. destruct (Hk a h (M2 _ _ E)) as [_ K2]. by apply K2.
Qed.
Lemma keeps_weaken {A} (J Pre Pre' : facade -> Prop) (m : tr A) (Post Post' : A -> facade -> Prop) :
  (forall f, Pre' f -> Pre f) -> (forall a f, Post a f -> Post' a f) -> keeps J Pre m Post -> keeps J Pre' m Post'.
Proof. intros H1 H2 H f Hf. destruct (H f (H1 f Hf)) as [M1 M2]. split; [done|]. intros g a E. by apply H2, M2. Qed.

Section Relations.
Variable listing : string -> list oobject -> list oobject.
Hypothesis Hl : listing_ok listing.
Variable kind : string -> obj_kind.
Notation rg db k := (get2 db NsRelations k).
Notation row := (row kind).
Notation known := (known kind).
Notation lists := (lists kind).
Variable S : string -> Prop.
Hypothesis S_fine : forall s, S s -> fine kind s.
Hypothesis S_meta : forall s s', S s -> S s' -> s <> meta_key s'.
Variable B : bundle.
Hypothesis B_saids : saids_present B.
Hypothesis B_kinds : kinds_match kind B.
Hypothesis B_in : forall s, in_bundle B s -> S s.
Hypothesis B_one : forall s r r', has_role B s r -> has_role B s r' -> r = r'.
(** The state before the build. *)
Variable d0 : mem.
Variable D : string -> Prop.
Variable P0 : string -> string -> Prop.
Hypothesis H0 : forall s, S s -> row d0 s (D s) (P0 s).
Hypothesis P0_S : forall s t, P0 s t -> S t.

(** What a row says, read off the store. *)
Definition has_row (d : mem) (s : string) : Prop := is_Some (rg d s).
Definition in_row (d : mem) (s t : string) : Prop := exists v l, rg d s = Some v /\ rel_decode v = Ok l /\ t ∈ map oo_said l.
Lemma row_own d s (D' : Prop) P' : row d s D' P' -> (D' <-> has_row d s) /\ (forall t, P' t <-> in_row d s t).
Proof.
  intros [(HD & v & l & Hg & Hd & Hn & Hx)|(HD & Hp & H)].
  - split; [split; [intros _; by exists v|done]|]. intros t. split.
    + intros Ht. exists v, l. split; [done|]. split; [done|]. apply elem_of_list_In, in_map_iff. exists (OObj t (kind t)). split; [done|].
      apply elem_of_list_In. by apply Hx.
    + intros (v' & l' & Hg' & Hd' & Ht). rewrite Hg in Hg'. injection Hg' as <-. rewrite Hd in Hd'. injection Hd' as <-.
      apply elem_of_list_In, in_map_iff in Ht as (x & <- & Hin). apply elem_of_list_In in Hin. by apply Hx in Hin as [? _].
  - split; [split; [done|intros [v Hv]; congruence]|]. intros t. split; [intros Ht; by apply Hp in Ht|]. intros (v & l & Hg & _). congruence.
Qed.
(** During (repetitions of) the build: every row is between the old one and the finished one, the rest is untouched. *)
Definition between (s : string) (P' : string -> Prop) : Prop := (forall t, P0 s t -> P' t) /\ (forall t, P' t -> P0 s t \/ linked B s t).
Record mid (d : mem) : Prop := {
  mid_row : forall s, S s -> exists (D' : Prop) P', row d s D' P' /\ (D s -> D') /\ (D' -> D s \/ in_bundle B s) /\ between s P';
  mid_known : forall s, S s -> known d0 s -> known d s;
  mid_other : forall k, ~ S k -> (forall s, S s -> k <> meta_key s) -> rg d k = rg d0 k }.
Definition finished (d : mem) : Prop :=
  (forall s, S s -> row d s (D s \/ in_bundle B s) (fun t => P0 s t \/ linked B s t)) /\
  (forall s, in_bundle B s \/ (S s /\ known d0 s) -> known d s) /\
  (forall k, ~ S k -> (forall s, S s -> k <> meta_key s) -> rg d k = rg d0 k).
Lemma linked_S s t : linked B s t -> S t.
Proof. intros H. apply B_in. destruct H; by eexists. Qed.
Lemma between_S s P' t : between s P' -> P' t -> S t.
Proof. intros [_ H] Ht. apply H in Ht as [Ht|Ht]; [by eapply P0_S|by eapply linked_S]. Qed.
Lemma mid_start : mid d0.
Proof. split; [|done|done]. intros s Hs. exists (D s), (P0 s). split; [by apply H0|]. split; [done|]. split; [tauto|]. split; [done|tauto]. Qed.
Lemma mid_finish d : mid d -> exists d', add_relations listing B d = Ok d' /\ finished d'.
Proof.
  intros [R K O].
  assert (Own : forall s, S s -> row d s (has_row d s) (fun t => S s /\ in_row d s t) /\ (D s -> has_row d s) /\ (has_row d s -> D s \/ in_bundle B s) /\
    between s (in_row d s)).
  { intros s Hs. destruct (R s Hs) as (D' & P' & Hr & X1 & X2 & [X3 X4]). destruct (row_own _ _ _ _ Hr) as [Y1 Y2]. split; [|split; [|split]].
    - eapply row_iff; [exact Y1| |exact Hr]. intros t. rewrite Y2. tauto.
    - tauto.
    - tauto.
    - split; intros t Ht; [by apply Y2, X3|by apply X4, Y2]. }
  destruct (add_ok listing Hl kind S S_fine S_meta B d (has_row d) (fun s t => S s /\ in_row d s t) B_saids B_kinds B_in B_one) as (d' & E & R' & K' & O').
  - intros s Hs. by apply Own.
  - intros s t [Hs Ht]. destruct (Own s Hs) as (_ & _ & _ & Hb). by eapply between_S.
  - exists d'. split; [done|]. split; [|split].
    + intros s Hs. destruct (Own s Hs) as (_ & X1 & X2 & [X3 X4]). eapply row_iff; [| |exact (R' s Hs)].
      * tauto.
      * intros t. cbv beta. split; [intros [[_ Ht]|Ht]; [by apply X4|by right]|]. intros [Ht|Ht]; [left; split; [done|by apply X3]|by right].
    + intros s [Hs|[Hs Hk]]; apply K'; [by left|]. right. split; [done|]. by apply K.
    + intros k H1 H2. rewrite O' by done. by apply O.
Qed.
Lemma mid_agree d d' : (forall k, rg d' k = rg d k) -> mid d -> mid d'.
Proof.
  intros E [R K O]. split.
  - intros s Hs. destruct (R s Hs) as (D' & P' & Hr & X). exists D', P'. split; [|done]. eapply row_same; [apply E|done].
  - intros s Hs Hk. unfold Props_Relations.known. rewrite E. by apply K.
  - intros k H1 H2. rewrite E. by apply O.
Qed.
Lemma finished_agree d d' : (forall k, rg d' k = rg d k) -> finished d -> finished d'.
Proof.
  intros E (R & K & O). split; [|split].
  - intros s Hs. eapply row_same; [apply E|]. by apply R.
  - intros s Hs. unfold Props_Relations.known. rewrite E. by apply K.
  - intros k H1 H2. rewrite E. by apply O.
Qed.
(** A metadata record of the bundle. *)
Lemma mid_meta d s : mid d -> in_bundle B s -> mid (ins2 NsRelations (meta_key s) (kind_bytes (kind s)) d).
Proof.
  intros [R K O] Hs. split.
  - intros t Ht. destruct (R t Ht) as (D' & P' & Hr & X). exists D', P'. split; [|done]. apply (row_same _ d); [|done]. apply rg_ne.
    intros E. by apply (S_meta t s Ht (B_in _ Hs)).
  - intros t Ht Hk. apply known_keep. by apply K.
  - intros k H1 H2. rewrite rg_ne; [by apply O|]. intros E. by apply (H2 s (B_in _ Hs)).
Qed.
(** A relation record of the bundle. *)
Lemma encodes s l P' : lists l P' -> (forall t, P' t -> S t) -> exists v, rel_encode (listing s l) = Ok v /\ forall d, row (ins2 NsRelations s v d) s True P'.
Proof.
  intros HL HP. pose proof HL as [Hn Hx]. pose proof (Hl s l) as Hp.
  assert (Hs : Forall storable (listing s l)).
  { apply Forall_forall. intros x Hin. rewrite Hp in Hin. apply Hx in Hin as [Hin Hk]. apply HP, S_fine in Hin as [H1 H2]. split; [by rewrite Hk|done]. }
  destruct (rel_encode_ok _ Hs) as [v Hv]. exists v. split; [done|]. intros d.
  destruct (row_insert listing Hl kind d s (OObj s (kind s)) l P' HL ltac:(intros x Hx'; by apply S_fine, HP)) as (v' & E & Hr).
  unfold rel_insert in E. cbn [snd] in E. rewrite Hv in E. cbn [obind] in E. rewrite mem_ins2 in E. injection E as E.
  assert (v' = v) as ->; [|done]. apply (f_equal (fun m => rg m s)) in E. rewrite !rg_eq in E. by injection E.
Qed.
Lemma mid_rel d s v P' : mid d -> in_bundle B s -> between s P' -> (forall d, row (ins2 NsRelations s v d) s True P') -> mid (ins2 NsRelations s v d).
Proof.
  intros [R K O] Hs Hb Hr. split.
  - intros t Ht. destruct (decide (t = s)) as [->|Hne].
    + exists True, P'. split; [apply Hr|]. split; [done|]. split; [by right|done].
    + destruct (R t Ht) as (D' & P'' & Hr' & X). exists D', P''. split; [|done]. apply (row_same _ d); [|done]. by apply rg_ne.
  - intros t Ht Hk. unfold Props_Relations.known. rewrite rg_ne; [by apply K|]. apply S_meta; [by apply B_in|done].
  - intros k H1 H2. rewrite rg_ne; [by apply O|]. intros ->. apply H1. by apply B_in.
Qed.
Lemma known_rel d s v t : in_bundle B s -> in_bundle B t -> known d t -> known (ins2 NsRelations s v d) t.
Proof. intros Hs Ht Hk. unfold Props_Relations.known. rewrite rg_ne; [done|]. apply S_meta; by apply B_in. Qed.

(** ** The writes of [t_relations] *)
Definition J (f : facade) : Prop := mid (fa_db f).
Definition ready (f : facade) : Prop := J f /\ forall s, in_bundle B s -> known (fa_db f) s.
Lemma keeps_meta s k : in_bundle B s -> kind_bytes k = kind_bytes (kind s) ->
  keeps J J (twrite (WDb NsRelations (meta_key s) (kind_bytes k))) (fun _ => J).
Proof.
  intros Hs ->. apply keeps_write; [done|]. intros f Hf.
  assert (J (put (WDb NsRelations (meta_key s) (kind_bytes (kind s))) f)); [|done].
  unfold J. rewrite put_db. cbn [fa_db with_db]. by apply mid_meta.
Qed.
Lemma keeps_ovmeta ovs : (forall ov, ov ∈ ovs -> ov ∈ b_ovs B) -> keeps J J (t_ov_metadata ovs) (fun _ => J).
Proof.
  induction ovs as [|ov ovs IH]; intros Ho; cbn [t_ov_metadata]; [by apply keeps_ret|].
  destruct (ov_said ov) as [s|] eqn:Es; [|by apply keeps_read].
  assert (Hr : has_role B s (ROverlay (ot_kind (ov_type ov)))) by (right; right; exists ov; split; [apply Ho; left|done]).
  apply (keeps_bind _ _ _ _ (fun _ => J)); [apply sound_write| |intros []; apply IH; intros x Hx; apply Ho; by right].
  apply keeps_meta; [by eexists|]. rewrite (B_kinds _ _ Hr). done.
Qed.
Lemma keeps_metadata : keeps J J (t_metadata B) (fun _ => J).
Proof.
  unfold t_metadata. destruct (b_said B) as [bs|] eqn:Eb; [|by apply keeps_read]. destruct (cb_said (b_cb B)) as [cs|] eqn:Ec; [|by apply keeps_read].
  assert (Hb : has_role B bs RBundle) by by left. assert (Hc : has_role B cs RCapture) by by right; left.
  apply (keeps_bind _ _ _ _ (fun _ => J)); [apply sound_write| |intros _].
  - apply keeps_meta; [by eexists|]. by rewrite (B_kinds _ _ Hb).
  - apply (keeps_bind _ _ _ _ (fun _ => J)); [apply sound_write| |intros _; by apply keeps_ovmeta].
    apply keeps_meta; [by eexists|]. by rewrite (B_kinds _ _ Hc).
Qed.
Lemma keeps_rel s o l P' : in_bundle B s -> between s P' -> lists l P' -> keeps J ready (t_rel listing (o, l) s) (fun _ => ready).
Proof.
  intros Hs Hb HL. unfold t_rel. cbn [snd]. destruct (encodes s l P' HL ltac:(intros t; by apply between_S with (s := s))) as (v & Ev & Hr).
  eapply (keeps_bind _ _ _ _ (fun w f => ready f /\ w = v)); [apply sound_read| |].
  - apply keeps_read; [by intros f [? _]|]. intros f w Hf Ew. split; [done|congruence].
  - intros w f [Hf ->]. revert f Hf. change (keeps J ready (twrite (WDb NsRelations s v)) (fun _ => ready)). apply keeps_write; [by intros f [? _]|].
    intros f [Hf Hk]. assert (J (put (WDb NsRelations s v) f)).
    { unfold J. rewrite put_db. cbn [fa_db with_db]. by apply (mid_rel _ _ _ P'). }
    split; [done|]. split; [done|]. intros t Ht. rewrite put_db. cbn [fa_db with_db]. apply known_rel; auto.
Qed.
Lemma ready_object f s o : ready f -> in_bundle B s -> object_new (fa_db f) s = Ok o -> o = OObj s (kind s).
Proof. intros [_ Hk] Hs H. rewrite (known_type kind _ _ (Hk s Hs) (S_fine _ (B_in _ Hs))) in H. by injection H. Qed.
Lemma ready_rel f s r : ready f -> in_bundle B s -> rel_or_new (fa_db f) s = Ok r -> exists l P', r = (OObj s (kind s), l) /\ lists l P' /\ between s P'.
Proof.
  intros [[R _ _] Hk] Hs H. destruct (R s (B_in _ Hs)) as (D' & P' & Hr & _ & _ & Hb).
  destruct (row_rel kind _ _ _ _ (Hk s Hs) (S_fine _ (B_in _ Hs)) Hr) as (l & El & HL). rewrite El in H. injection H as <-. by exists l, P'.
Qed.
Lemma between_add s t P' : linked B s t -> between s P' -> between s (fun x => P' x \/ x = t).
Proof. intros Hlk [X1 X2]. split; [intros x Hx; left; by apply X1|]. intros x [Hx| ->]; [by apply X2|by right]. Qed.
(** Lists under construction for the bundle's and the capture base's records. *)
Definition growing (s : string) (r : oobject * list oobject) : Prop := exists P', r.1 = OObj s (kind s) /\ lists r.2 P' /\ between s P'.
Lemma growing_add s t r : linked B s t -> growing s r -> growing s (r.1, add_relation (OObj t (kind t)) r.2).
Proof.
  intros Hlk (P' & E & HL & Hb). exists (fun x => P' x \/ x = t). split; [done|]. split; [by apply lists_add|by apply between_add].
Qed.
Lemma keeps_read_bind {A C} (r : facade -> outcome A) (k : A -> tr C) Post (Q : A -> Prop) :
  (forall f a, ready f -> r f = Ok a -> Q a) -> (forall a, Q a -> keeps J ready (k a) Post) -> keeps J ready (tbind (tread r) k) Post.
Proof.
  intros HQ Hk. eapply (keeps_bind _ _ _ _ (fun a f => ready f /\ Q a)); [apply sound_read| |].
  - apply keeps_read; [by intros f [? _]|]. intros f a Hf Ha. split; [done|]. by eapply HQ.
  - intros a f [Hf Ha]. by apply Hk.
Qed.
Lemma keeps_relovs bs cs ovs : has_role B bs RBundle -> has_role B cs RCapture -> (forall ov, ov ∈ ovs -> ov ∈ b_ovs B) -> forall st, growing bs st.1 -> growing cs st.2 ->
  keeps J ready (t_rel_overlays listing bs cs ovs st) (fun st f => ready f /\ growing bs st.1 /\ growing cs st.2).
Proof.
  intros Hb Hc. induction ovs as [|ov ovs IH]; intros Ho st G1 G2; cbn [t_rel_overlays]; [apply keeps_ret; [by intros f [? _]|done]|].
  destruct (ov_said ov) as [s|] eqn:Es; [|apply keeps_read; [by intros f [? _]|done]].
  assert (Hr : has_role B s (ROverlay (ot_kind (ov_type ov)))) by (right; right; exists ov; split; [apply Ho; left|done]).
  assert (Is : in_bundle B s) by by eexists. assert (Ib : in_bundle B bs) by by eexists. assert (Ic : in_bundle B cs) by by eexists.
  apply (keeps_read_bind _ _ _ (fun o => o = OObj s (kind s))); [intros f a Hf; by apply ready_object|intros o ->].
  apply (keeps_read_bind _ _ _ (growing s)).
  { intros f a Hf Ha. destruct (ready_rel f s a Hf Is Ha) as (l & P' & -> & HL & Hbt). by exists P'. }
  intros [vo vl] (P' & -> & HL & Hbt). cbn [fst snd] in *.
  apply (keeps_read_bind _ _ _ (fun o => o = OObj bs (kind bs))); [intros f a Hf; by apply ready_object|intros o ->].
  apply (keeps_read_bind _ _ _ (fun o => o = OObj cs (kind cs))); [intros f a Hf; by apply ready_object|intros o ->].
  apply (keeps_bind _ _ _ _ (fun _ => ready)); [apply sound_rel| |intros _; apply IH].
  - eapply keeps_rel; [exact Is| |apply lists_add, lists_add; exact HL].
    apply (between_add _ cs); [by eapply lk_overlay_base|]. apply (between_add _ bs); [by eapply lk_overlay_bundle|done].
  - intros x Hx. apply Ho. by right.
  - apply growing_add; [by eapply lk_bundle_overlay|done].
  - apply growing_add; [by eapply lk_base_overlay|done].
Qed.
Lemma keeps_relations : keeps J J (t_relations listing B) (fun _ => J).
Proof.
  unfold t_relations. eapply (keeps_bind _ _ _ _ (fun _ => ready)).
  { unfold t_metadata. destruct (b_said B), (cb_said (b_cb B)); auto using sound_ovmeta with sound. }
  - intros f Hf. destruct (keeps_metadata f Hf) as [M1 M2]. split; [exact M1|]. intros g [] E. split; [by eapply M2|].
    rewrite runs_metadata in E. unfold lift_db in E. destruct (meta_bundle kind B (fa_db f) B_saids B_kinds) as (d' & Ed & Kd & _).
    rewrite Ed in E. cbn [obind] in E. injection E as <-. intros s Hs. cbn [fa_db with_db]. apply Kd. by right.
  - intros [].
    destruct (b_said B) as [bs|] eqn:Eb; [|apply keeps_read; [by intros f [? _]|by intros f a [? _]]].
    destruct (cb_said (b_cb B)) as [cs|] eqn:Ec; [|apply keeps_read; [by intros f [? _]|by intros f a [? _]]].
    assert (Hb : has_role B bs RBundle) by by left. assert (Hc : has_role B cs RCapture) by by right; left.
    assert (Ib : in_bundle B bs) by by eexists. assert (Ic : in_bundle B cs) by by eexists.
    apply (keeps_read_bind _ _ _ (growing bs)).
    { intros f a Hf Ha. destruct (ready_rel f bs a Hf Ib Ha) as (l & P' & -> & HL & Hbt). by exists P'. }
    intros br Gb. apply (keeps_read_bind _ _ _ (fun o => o = OObj cs (kind cs))); [intros f a Hf; by apply ready_object|intros o ->].
    apply (keeps_read_bind _ _ _ (growing cs)).
    { intros f a Hf Ha. destruct (ready_rel f cs a Hf Ic Ha) as (l & P' & -> & HL & Hbt). by exists P'. }
    intros cr Gc. apply (keeps_read_bind _ _ _ (fun o => o = OObj bs (kind bs))); [intros f a Hf; by apply ready_object|intros o ->].
    eapply keeps_bind; [apply sound_relovs| |intros [[o1 l1] [o2 l2]]].
    + apply keeps_relovs; [done|done|done|..]; apply growing_add; [by apply lk_bundle_base|done|by apply lk_base_bundle|done].
    + intros f (Hf & (P1 & E1 & L1 & B1) & (P2 & E2 & L2 & B2)). cbn [fst snd] in *. subst o1 o2. revert f Hf. 
      change (keeps J ready (tbind (t_rel listing (OObj bs (kind bs), l1) bs) (fun _ => t_rel listing (OObj cs (kind cs), l2) cs)) (fun _ => J)).
      apply (keeps_bind _ _ _ _ (fun _ => ready)); [apply sound_rel|by eapply keeps_rel|intros _]. eapply keeps_weaken; [| |by eapply keeps_rel]; [done|by intros [] f [? _]].
Qed.
End Relations.
