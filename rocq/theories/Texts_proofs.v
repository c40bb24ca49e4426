(** Texts build storable bundles. *)
From Coq Require Import Lia.
From Verif Require Import Spec_Texts Spec_Read Spec_BundleCodec Bundle Spec_Bundle Build Spec_Build Spec_Codec Facade Upd_proofs Effect_proofs Command_proofs Load_proofs Run_proofs Build_proofs Box_proofs Bundle_proofs
  Codec_proofs BundleCodec_proofs Sort_proofs Reload_proofs Stored_proofs Facade_proofs OcaForms OcaBuilds Spec_OcaFile Props_Build Props_BundleCodec Spec_Refs Props_Refs Props_Codec Spec_Facade Overlays_proofs Nesting_proofs.

(** ** Depths *)
Definition type_fine (said_ok : string -> bool) (t : nattr) : Prop := nattr_ok said_ok t /\ (nesting (nattr_json t) <= 124)%nat.
Lemma command_types k cc l n t : shallow (command_json (Command k (OCaptureBase cc))) -> cc_attrs cc = Some l -> (n, t) ∈ l -> (nesting (nattr_json t) <= 124)%nat.
Proof.
  intros H E Hin. assert (X : (nesting (capture_json cc) <= 126)%nat) by (apply (proj1 (nest_obj _ _) H "content"); right; right; left).
  assert (Y : (nesting (imap_json nattr_json l) <= 125)%nat) by (apply (proj1 (nest_obj _ _) X "attributes"); unfold opt_field; rewrite E; left).
  apply (proj1 (nest_obj _ _) Y n). apply elem_of_list_fmap. by exists (n, t).
Qed.

(** ** Increasing maps *)
Lemma increasing_cons {V} k (v : V) l : increasing ((k, v) :: l) <-> k ∉ map fst l /\ (forall k', k' ∈ map fst l -> str_le k k') /\ increasing l.
Proof.
  split.
  - intros [Hn H]. cbn [map fst] in Hn. apply NoDup_cons in Hn as [H1 H2]. split; [done|]. split.
    + intros k' Hk. apply elem_of_list_fmap in Hk as ([x w] & -> & Hin). apply elem_of_list_split in Hin as (mid & post & ->). by apply (H [] k v mid x w post).
    + split; [done|]. intros pre a b mid c d post ->. by apply (H ((k, v) :: pre) a b mid c d post).
  - intros (H1 & H2 & H3 & H4). split; [cbn; by apply NoDup_cons|]. intros pre a b mid c d post E. destruct pre as [|x pre]; cbn in E.
    + injection E as E1 E2 E3. subst. apply H2. rewrite map_app. apply elem_of_app. right. left.
    + injection E as E1 E2. subst. by eapply H4.
Qed.
Lemma increasing_nil {V} : increasing ([] : imap V).
Proof. split; [constructor|]. intros pre a b mid c d post E. by destruct pre. Qed.
Lemma increasing_of_sorted {V} (l : imap V) : NoDup (map fst l) -> sorted_k fst l -> increasing l.
Proof.
  induction l as [|[k v] l IH]; intros Hn Hs; [apply increasing_nil|]. cbn [map fst] in Hn. apply NoDup_cons in Hn as [H1 H2]. destruct Hs as [Hs1 Hs2].
  apply increasing_cons. split; [done|]. split; [|by apply IH]. intros k' Hk. apply elem_of_list_fmap in Hk as ([x w] & -> & Hin). exact (Hs1 (x, w) Hin).
Qed.
Lemma increasing_omap {V W} (f : string * V -> option (string * W)) (l : list (string * V)) : (forall kv kw, f kv = Some kw -> kw.1 = kv.1) -> increasing l -> increasing (omap (M := list) f l).
Proof.
  intros Hf. assert (Sub : forall l k, k ∈ map fst (omap (M := list) f l) -> k ∈ map fst l).
  { clear l. intros l k Hk. apply elem_of_list_fmap in Hk as (kw & -> & Hin). apply elem_of_list_omap in Hin as (kv & Hin & E). rewrite (Hf _ _ E). by apply elem_of_list_fmap_1. }
  induction l as [|[k v] l IH]; intros Hi; [apply increasing_nil|]. apply increasing_cons in Hi as (H1 & H2 & H3). cbn [omap list_omap].
  destruct (f (k, v)) as [[k' w]|] eqn:E; [|by apply IH]. pose proof (Hf _ _ E) as Ek. cbn in Ek. subst k'. apply increasing_cons. split; [intros X; by apply H1, Sub|]. split; [|by apply IH].
  intros x Hx. by apply H2, Sub.
Qed.

(** ** Attributes *)
Section Fine.
Variables said_ok lang_ok : string -> bool.
Notation reserved := ["d"; "capture_base"; "type"; "language"].
(** One attribute says nothing that could not be read back. *)
Record attr_readable (a : attribute) : Prop := {
  ar_type : forall t, at_type a = Some t -> type_fine said_ok t;
  ar_langs : forall k l d, attr_datum a (SLang k l) = Some d -> lang_ok l = true;
  ar_groups : forall l, at_ecodes a = Some (ECObj l) -> increasing l }.
Record upd_readable (u : upd) : Prop := {
  ur_lang : forall k l, upd_slot u = SLang k l -> lang_ok l = true;
  ur_groups : forall l, u = UCodes (ECObj l) -> increasing l }.
Lemma upd_keeps u a : upd_readable u -> attr_readable a -> attr_readable (upd_attr u a).
Proof.
  intros [U1 U2] [A1 A2 A3]. split.
  - intros t. destruct u; cbn; apply A1.
  - intros k l d. rewrite attr_datum_upd. case_decide as E; [|apply A2]. intros _. by eapply U1.
  - intros l. destruct u; cbn; try apply A3. intros [= ->]. by apply U2.
Qed.
Lemma codes_datum a e : at_ecodes a = Some e <-> attr_datum a (SPlain KEntryCode) = Some (DCodes e).
Proof. cbn. destruct (at_ecodes a); cbn; [split; by intros [= ->]|done]. Qed.
Lemma merge_keeps u a : upd_readable u -> attr_readable a -> attr_readable (merge_fields a (upd_attr u a)).
Proof.
  intros [U1 U2] [A1 A2 A3]. destruct (merge_upd_same u a) as (_ & T & _). split.
  - intros t. rewrite T. apply A1.
  - intros k l d. rewrite merge_upd_datum. case_decide as E; [|apply A2]. intros _. by eapply U1.
  - intros l. rewrite codes_datum, merge_upd_datum. case_decide as E; [|rewrite <- codes_datum; apply A3].
    unfold written. destruct (attr_datum a (SPlain KEntryCode)) as [x|] eqn:Ex.
    + intros [= ->]. apply codes_datum in Ex. by apply A3.
    + destruct u; try done. cbn [upd_datum]. intros [= ->]. by apply U2.
Qed.

Record fine_box (b : obox) : Prop := {
  fb_attrs : forall n a, bx_attrs b !! n = Some a -> attr_readable a;
  fb_meta : forall l k d, box_datum b (SLang KMeta l) k = Some d -> lang_ok l = true /\ k ∉ reserved;
  fb_maps : bx_maps b = None }.
Lemma fine_readable b : fine_box b -> box_readable said_ok lang_ok b.
Proof.
  intros [F1 F2 F3]. split.
  - intros n a t Ha E. by apply (F1 n a Ha).
  - intros k l n d. destruct (decide (k = KMeta)) as [->|Hk]; [intros D; by apply F2 in D as [? _]|]. rewrite box_datum_attr by congruence.
    destruct (bx_attrs b !! n) as [a|] eqn:Ha; [|done]. apply (F1 n a Ha).
  - intros l k Hk. destruct (box_datum b (SLang KMeta l) k) as [d|] eqn:D; [|done]. apply F2 in D as [_ D]. done.
  - intros n a l Ha. apply (F1 n a Ha).
  - rewrite F3. cbn. lia.
Qed.
Lemma fine_new : fine_box box_new.
Proof. split; [intros n a; cbn; by rewrite lookup_empty|intros l k d; rewrite box_datum_meta; cbn; by rewrite lookup_empty|done]. Qed.
Lemma fresh_readable n t : type_fine said_ok t -> attr_readable (set_type t (attr_new n)).
Proof. intros H. split; cbn; [by intros t' [= <-]|by intros [] l d|done]. Qed.
Lemma retyped_readable t a : type_fine said_ok t -> attr_readable a -> attr_readable (set_type t a).
Proof. intros H [A1 A2 A3]. split; cbn; [by intros t' [= <-]| |apply A3]. intros k l d E. by apply (A2 k l d). Qed.

(** ** Commands *)
Variable from1 : string -> option string.
Hypothesis Hl : forall c l, from1 c = Some l -> lang_ok l = true.
Definition good (c : command) : Prop := command_ok c /\ refs_valid said_ok c /\ json_faithful said_ok c /\ storable_command said_ok c.
Lemma lang_fine p l : lang_is from1 p l -> lang_ok l = true.
Proof. intros (s & _ & E). by eapply Hl. Qed.
Lemma value_readable t ct n v u : good (Command CAdd (OOverlay t ct)) -> has (ct_attrs ct) n v -> value_upd from1 (ot_kind t) (ct_props ct) v = Ok (Some u) -> upd_readable u.
Proof.
  intros (Hc & _ & _ & Hs) Hv E. destruct Hc as [Ha Hp]. cbn [cmd_obj] in Ha, Hp. pose proof Hv as Hv0. destruct Hv0 as (l & El & Eg).
  assert (Vok : nvalue_ok v) by (by eapply (proj2 (Ha l El))). pose proof (upd_says from1 _ _ _ _ Vok Hp E) as S. split.
  - intros k x Ex. rewrite Ex in S. inversion S; subst; by eapply lang_fine.
  - intros gs ->. cbn [upd_slot upd_datum] in S. destruct t as [k ver]. cbn [ot_kind] in *. assert (Ek : k = KEntryCode) by (by inversion S). subst k. clear S. destruct v; try discriminate E.
    cbn in E. injection E as <-. rewrite groups_of_eq by by apply nvalue_ok_obj. apply increasing_omap.
    + intros [x w] [y z]. cbn. destruct w; try done. by intros [= <- _].
    + by eapply (sc_groups _ _ Hs ver ct n).
Qed.
Lemma apply_fine st c b' : good c -> (forall b, st = Some b -> api_box b /\ fine_box b) -> apply_command from1 st c = Ok b' -> fine_box b'.
Proof.
  intros Hg Hst E. unfold apply_command in E. set (b := unwrap_or box_new st) in *. assert (Hb : api_box b /\ fine_box b).
  { unfold b. destruct st as [x|]; [by apply Hst|]. split; [constructor|apply fine_new]. }
  clearbody b. clear Hst. destruct Hb as [Hb F]. pose proof (api_box_ok b Hb) as K. destruct c as [[] [cc|bc|t ct]]; cbn [cmd_kind cmd_obj] in E; try done.
  - injection E as <-. destruct Hg as (Hc & Hr & _ & Hs). apply sc_depth in Hs. unfold add_capture.
    destruct (add_capture_attrs (unwrap_or [] (cc_attrs cc)) b) as (M1 & M2 & M3 & M4); [by apply box_ok_names|destruct Hc as [Hc _]; destruct (cc_attrs cc); [by apply Hc|constructor]|].
    set (b1 := fold_left _ (unwrap_or [] (cc_attrs cc)) b) in *. clearbody b1.
    assert (C : forall l x, let y := fold_left (fun acc (kv : string * nvalue) => match kv.2 with VVal s => if String.eqb kv.1 "classification" then add_classification s acc else acc | _ => acc end) l x in
      bx_attrs y = bx_attrs x /\ bx_maps y = bx_maps x /\ bx_meta y = bx_meta x).
    { induction l as [|[k v] l IH]; intros x; [done|]. cbn [fold_left fst snd]. cbn zeta in *. destruct v as [|v| |]; try apply IH. destruct (String.eqb k "classification"); [|apply IH].
      destruct (IH (add_classification v x)) as (-> & -> & ->). done. }
    destruct (C (unwrap_or [] (cc_props cc)) b1) as (C1 & C2 & C3). cbn zeta in *. split.
    + intros n a. rewrite C1, M4. destruct (imap_get n _) as [t|] eqn:Et.
      * assert (Ht : type_fine said_ok t). { destruct Hr as [_ Hr]. cbn [cmd_obj] in Hr. destruct (cc_attrs cc) as [l|] eqn:El; [|done]. split; [by apply (Hr l n t)|]. apply (command_types _ _ _ n t Hs El). by apply imap_get_elem. }
        destruct (bx_attrs b !! n) as [a0|] eqn:Ea; intros [= <-]; [apply retyped_readable; [done|by apply (fb_attrs b F n)]|by apply fresh_readable].
      * apply (fb_attrs b F n).
    + intros l k d. rewrite box_datum_meta, C3, M2, <- box_datum_meta. apply (fb_meta b F).
    + rewrite C2, M1. apply F.
  - destruct (decide (ot_kind t = KMeta)) as [Ek|Ek].
    + rewrite Ek in E. destruct Hg as (Hc & _ & _ & Hs). destruct Hc as [Ha Hp]. cbn [cmd_obj] in Ha, Hp.
      destruct (meta_effect from1 b b' ct Hp E) as (M1 & M2 & _ & M4 & M5). split; [intros n a; rewrite M1; apply F| |rewrite M2; apply F].
      intros l k d D.
      assert (Dec : (exists s, lang_is from1 (ct_props ct) l /\ k <> "lang" /\ has (ct_props ct) k (VVal s)) \/ ~ (lang_is from1 (ct_props ct) l /\ k <> "lang" /\ exists s, has (ct_props ct) k (VVal s))).
      { destruct (cmd_lang from1 (ct_props ct)) as [l'|] eqn:El; [apply cmd_lang_spec in El|pose proof (proj1 (cmd_lang_none _ _) El) as N; right; intros [X _]; by destruct (N l)].
        destruct (decide (l' = l)) as [->|Hne].
        2:{ right. intros [X _]. apply cmd_lang_spec in X. apply cmd_lang_spec in El. congruence. }
        destruct (decide (k = "lang")) as [->|Hk]; [right; intros (_ & X & _); done|].
        destruct (ct_props ct) as [p|] eqn:Ep; [|right; intros (_ & _ & s & p & X & _); done].
        destruct (imap_get k p) as [[]|] eqn:Eg; try (right; intros (_ & _ & s' & p' & X & Y); injection X as <-; congruence).
        left. eexists. split; [exact El|]. split; [done|]. by exists p. }
      destruct Dec as [(s & L & Hk & Hh)|N].
      * split; [by eapply lang_fine|]. intros Hin. destruct t as [kk ver]. cbn in Ek. subst kk. by apply (sc_meta _ _ Hs ver ct k (VVal s)).
      * rewrite (M5 l k N) in D. by apply (fb_meta b F l k d).
    + pose proof Hg as (Hc & _). destruct Hc as [Ha Hp]. cbn [cmd_obj] in Ha, Hp. apply overlay_effect in E as (M1 & M2 & _ & M4); [|done..]. split.
      * intros n a. rewrite M4. unfold eff_at. destruct (bx_attrs b !! n) as [a0|] eqn:Ea; [|done]. pose proof (fb_attrs b F n a0 Ea) as A0.
        case_decide as D; [|by intros [= <-]]. destruct (ct_attrs ct) as [l|] eqn:El; [|by intros [= <-]]. cbn [unwrap_or]. destruct (imap_get n l) as [v|] eqn:Ev; [|by intros [= <-]].
        intros [= <-]. unfold eff. destruct (value_upd from1 (ot_kind t) (ct_props ct) v) as [[u|]|e|] eqn:Eu; try done.
        apply merge_keeps; [|done]. eapply (value_readable t ct n v); [done| |exact Eu]. rewrite El. by exists l.
      * intros l k d. rewrite box_datum_meta, M2, <- box_datum_meta. apply (fb_meta b F).
      * rewrite M1. apply F.
  - injection E as <-. unfold remove_capture.
    destruct (remove_capture_attrs (unwrap_or [] (cc_attrs cc)) b) as (M1 & M2 & M3 & M4). set (b1 := fold_left _ (unwrap_or [] (cc_attrs cc)) b) in *. clearbody b1.
    destruct (remove_capture_class (unwrap_or [] (cc_props cc)) b1) as (C1 & C2 & C3 & _). cbn zeta in *. split.
    + intros n a. rewrite C1, M4. case_decide; [done|]. apply F.
    + intros l k d. rewrite box_datum_meta, C3, M2, <- box_datum_meta. apply (fb_meta b F).
    + rewrite C2, M1. apply F.
Qed.

(** ** Loading a stored bundle *)
Section Load.
Variable o : order.
Hypothesis Ho : order_ok o.
Variable P : attribute -> Prop.
Variable Q : upd -> Prop.
Hypothesis Pflag : forall a, P a -> P (set_flagged a).
Hypothesis Pupd : forall a u, Q u -> P a -> P (upd_attr u a).
Notation allp m := (forall n a, (m : gmap string attribute) !! n = Some a -> P a).
Lemma origin_upds us : forall m m' : gmap string attribute, Forall (fun nu : string * upd => Q nu.2) us -> allp m -> fold_left load_upd us (Some m) = Some m' -> allp m'.
Proof.
  induction us as [|[n u] us IH]; intros m m' Hq Hm; [by intros [= <-]|]. apply Forall_cons in Hq as [H1 H2]. cbn [fold_left load_upd fst snd].
  destruct (m !! n) as [a|] eqn:Ha; [|by rewrite load_upd_none]. apply IH; [done|]. intros x b Hx. apply lookup_insert_Some in Hx as [[<- <-]|[_ Hx]]; [|by eapply Hm].
  apply Pupd; [done|by eapply Hm].
Qed.
Lemma origin_overlays l : (forall i ov us, (i, ov) ∈ l -> load_ops o i ov = Some us -> Forall (fun nu : string * upd => Q nu.2) us) -> forall m m' : gmap string attribute, allp m ->
  fold_left (load_overlay o) l (Some m) = Some m' -> allp m'.
Proof.
  induction l as [|[i ov] l IH]; intros Hops m m' Hm; [by intros [= <-]|]. cbn [fold_left].
  destruct (load_overlay o (Some m) (i, ov)) as [m1|] eqn:E; [|rewrite fold_none by apply load_overlay_none; done].
  apply IH; [intros j x us Hin; apply Hops; by right|]. unfold load_overlay in E. cbn [fst snd] in E. destruct (load_ops o i ov) as [us|] eqn:Eu; [|done].
  eapply origin_upds; [|exact Hm|exact E]. apply (Hops i ov); [left|done].
Qed.
Lemma origin_attrs B m : (forall i ov us, ov ∈ b_ovs B -> load_ops o i ov = Some us -> Forall (fun nu : string * upd => Q nu.2) us) ->
  allp (typed_attrs (cb_attrs (b_cb B))) -> load_attrs o B = Some m -> allp m.
Proof.
  intros Hq Ht. unfold load_attrs. fold (typed_attrs (cb_attrs (b_cb B))).
  destruct (fold_left load_flag (cb_flagged (b_cb B)) (Some (typed_attrs (cb_attrs (b_cb B))))) as [m1|] eqn:E; [|rewrite fold_none by apply load_kind_none; done].
  apply (load_flags_inv (fun _ => P)) in E as [E _]; [|intros n a; apply Pflag|done]. clear Ht. revert m1 E. generalize load_kinds as ks. induction ks as [|k ks IH]; intros m1 E; [by intros [= <-]|].
  cbn [fold_left]. destruct (load_kind o (b_ovs B) (Some m1) k) as [m2|] eqn:Ek; [|rewrite fold_none by apply load_kind_none; done].
  apply IH. unfold load_kind in Ek. eapply origin_overlays; [|exact E|exact Ek]. intros i ov us Hin. apply elem_of_list_In, filter_In in Hin as [Hin _]. apply elem_of_list_In in Hin.
  apply Hq. apply indexed_elem in Hin. cbn [fst snd] in Hin. by eapply elem_of_list_lookup_2.
Qed.
End Load.
(** What the overlays of a bundle say can be read back. *)
Record content_readable (B : bundle) : Prop := {
  cr_types : forall n t, (n, t) ∈ cb_attrs (b_cb B) -> type_fine said_ok t;
  cr_lang : forall ov l, ov ∈ b_ovs B -> body_lang (ov_body ov) = Some l -> lang_ok l = true;
  cr_meta : forall ov l m k, ov ∈ b_ovs B -> ov_body ov = BMeta l m -> k ∈ reserved -> m !! k = None;
  cr_groups : forall ov l, ov ∈ b_ovs B -> has_groups (ov_body ov) l -> increasing l }.
Lemma metas_fine o l : order_ok o -> forall b, (forall iov lg m, iov ∈ l -> ov_body iov.2 = BMeta lg m -> lang_ok lg = true /\ forall k, k ∈ reserved -> m !! k = None) ->
  (forall lg k d, box_datum b (SLang KMeta lg) k = Some d -> lang_ok lg = true /\ k ∉ reserved) ->
  forall lg k d, box_datum (fold_left (load_meta o) l b) (SLang KMeta lg) k = Some d -> lang_ok lg = true /\ k ∉ reserved.
Proof.
  intros Ho. induction l as [|iov l IH]; intros b Hb Hm; [done|]. cbn [fold_left]. apply IH; [intros x lg m Hin; apply Hb; by right|].
  pose proof (Hb iov) as Hi. unfold load_meta. destruct (ov_body iov.2) as [| | | | | | | | | |l0 m| | | | | |] eqn:E; try done. destruct (Hi l0 m) as [H1 H2]; [left|done|].
  assert (Hk : forall kv : string * string, kv ∈ o ["load"; dec_of_nat iov.1] _ m -> kv.1 ∉ reserved).
  { intros [k v] Hin X. apply (order_elem o Ho) in Hin. cbn [fst] in X. apply H2 in X. congruence. }
  revert Hk. generalize (o ["load"; dec_of_nat iov.1] _ m) as kvs. intros kvs. clear -Hm H1. revert b Hm. induction kvs as [|[k v] kvs IH]; intros b Hm Hk; [done|].
  cbn [fold_left fst snd]. apply IH; [|intros kv Hin; apply Hk; by right]. intros lg k' d. rewrite box_datum_meta. unfold add_meta. cbn [bx_meta unwrap_or].
  destruct (decide (l0 = lg)) as [->|Hne].
  - rewrite lookup_insert. cbn [mbind option_bind]. destruct (decide (k = k')) as [->|Hk'].
    + intros _. split; [done|]. apply (Hk (k', v)). left.
    + rewrite lookup_insert_ne by done. intros D. apply (Hm lg k' d). rewrite box_datum_meta. destruct (unwrap_or ∅ (bx_meta b) !! lg) as [x|]; [exact D|cbn in D; by rewrite lookup_empty in D].
  - rewrite lookup_insert_ne by done. rewrite <- box_datum_meta. apply Hm.
Qed.
Lemma conds_readable d cs : forall us, load_conds d cs = Some us -> Forall (fun nu : string * upd => upd_readable nu.2) us.
Proof.
  induction cs as [|[n c] cs IH]; intros us; cbn [load_conds]; [intros [= <-]; constructor|]. destruct (d !! n); [|done].
  destruct (decode_condition c l); [|done]. destruct (load_conds d cs) as [r|]; [|done]. intros [= <-]. constructor; [by split|by apply IH].
Qed.
Lemma load_fine o B b : order_ok o -> content_readable B -> load o B = Some b -> fine_box b.
Proof.
  intros Ho [C1 C2 C3 C4] L. destruct (load_parts o Ho B b L) as (m & Em & Ea & Hm & _ & Emeta). split; [| |done].
  - rewrite Ea. refine (origin_attrs o attr_readable upd_readable _ _ B m _ _ Em).
    + intros a [A1 A2 A3]. split; cbn; [apply A1| |apply A3]. intros k l d E. by apply (A2 k l d).
    + intros a u. apply upd_keeps.
    + intros i ov us Hin. unfold load_ops. specialize (C2 ov). specialize (C4 ov). destruct (ov_body ov) as [| | | | | | | | | | | |meta fm| | | |] eqn:E; try (intros [= <-]; by constructor);
        try (intros [= <-]; apply Forall_forall; intros [n u] Hu; apply elem_of_list_fmap in Hu as ([n' x] & [= -> ->] & Hu); cbn [snd fst]; split;
          [intros k l' El; cbn in El; first [discriminate El|injection El as <- <-; by apply C2]|intros l' El; first [discriminate El|idtac]]).
      all: try (apply (order_elem o Ho) in Hu; injection El as ->; apply C4; [done|]; by eexists _, _).
      * apply conds_readable.
      * destruct (meta !! "frame_id") as [id|]; [|done]. intros [= <-]. apply Forall_forall. intros [n u] Hu. apply elem_of_list_fmap in Hu as ([n' x] & [= -> ->] & Hu). by split.
    + intros n a. unfold typed_attrs. assert (G : forall l (acc : gmap string attribute), (forall n t, (n, t) ∈ l -> type_fine said_ok t) -> (forall n a, acc !! n = Some a -> attr_readable a) ->
        forall n a, fold_left (fun m (kv : string * nattr) => <[kv.1 := set_type kv.2 (attr_new kv.1)]> m) l acc !! n = Some a -> attr_readable a).
      { induction l as [|[k t] l IH]; intros acc Ht Hacc; [done|]. cbn [fold_left fst snd]. apply IH; [intros x y Hin; apply (Ht x); by right|].
        intros x y Hx. apply lookup_insert_Some in Hx as [[<- <-]|[_ Hx]]; [apply fresh_readable, (Ht k); left|by eapply Hacc]. }
      apply G; [done|]. intros x y. by rewrite lookup_empty.
  - intros lg k d. rewrite box_datum_meta, Emeta, <- box_datum_meta. apply metas_fine; [done| |].
    + intros iov l0 mm Hin E. apply indexed_elem in Hin. assert (Hin' : iov.2 ∈ b_ovs B) by (by eapply elem_of_list_lookup_2). split; [apply (C2 iov.2); [done|by rewrite E]|]. intros k0. by apply (C3 iov.2 l0).
    + intros l0 k0 d0. rewrite box_datum_meta. cbn. by rewrite lookup_empty.
Qed.
Lemma stored_content digits B : bundle_readable said_ok digits lang_ok B -> shallow (bundle_json B) -> content_readable (bundle_read B).
Proof.
  intros [R1 R2 R3 R4] Hx. split; cbn [b_cb b_ovs bundle_read cb_read cb_attrs].
  - intros n t Hin. rewrite sort_by_perm in Hin. split; [by apply (R3 n)|]. by apply (proj2 (bundle_shallow B) Hx n).
  - intros ov l Hin. apply elem_of_list_fmap in Hin as (x & -> & Hin). apply written_elem in Hin. cbn [ov_body ov_read]. intros E. apply (or_lang _ _ _ _ (R4 x Hin)). by destruct (ov_body x).
  - intros ov l m k Hin. apply elem_of_list_fmap in Hin as (x & -> & Hin). apply written_elem in Hin. cbn [ov_body ov_read]. intros E. apply (or_meta _ _ _ _ (R4 x Hin) l). by destruct (ov_body x).
  - intros ov l Hin. apply elem_of_list_fmap in Hin as (x & -> & Hin). apply written_elem in Hin. cbn [ov_body ov_read]. intros (m & n & E & Em).
    destruct (ov_body x) as [| | | | | |cm| | | | | | | | | |] eqn:Eb; try done. cbn in E. injection E as <-. rewrite lookup_fmap in Em. destruct (cm !! n) as [e|] eqn:Ecm; [|done]. cbn in Em.
    injection Em as Em. destruct e as [|la|lo]; try done. cbn in Em. injection Em as <-. apply increasing_of_sorted; [|apply sort_by_sorted]. apply sort_fst_nodup.
    apply (or_groups _ _ _ _ (R4 x Hin)). rewrite Eb. by eexists _, _.
Qed.
End Fine.

(** ** Commands as read and resolved *)
Section Commands.
Variable said_ok : string -> bool.
Variable find : string -> option string.
Lemma form_ok t : type_form said_ok t -> nattr_ok said_ok t.
Proof. induction 1; cbn; done. Qed.
Lemma resolved_ok n r : resolve_name said_ok find n = Ok r -> ref_ok said_ok r.
Proof. unfold resolve_name. destruct (find n); [|done]. destruct (said_ok s) eqn:E; [|done]. by intros [= <-]. Qed.
Lemma resolved_types l : Forall (fun kv : string * nattr => nattr_ok said_ok kv.2) l -> forall l', resolve_attrs said_ok find l = Ok l' -> Forall (fun kv : string * nattr => nattr_ok said_ok kv.2) l'.
Proof.
  induction 1 as [|[k t] l Ht Hl IH]; intros l' E; cbn [resolve_attrs] in E; [injection E as <-; constructor|].
  destruct (resolve_attr said_ok find t) as [t'| |] eqn:Et; cbn [obind] in E; [|done|done]. destruct (resolve_attrs said_ok find l) as [r| |]; cbn [obind] in E; [|done|done].
  injection E as <-. constructor; [|by apply IH]. cbn [snd] in *.
  destruct t as [[]| |[[]| | |]|]; cbn [resolve_attr] in Et; try (by injection Et as <-);
    (match type of Et with context [resolve_name _ _ ?x] => destruct (resolve_name said_ok find x) as [q| |] eqn:En end; cbn [obind] in Et; [|done|done]); injection Et as <-; by apply resolved_ok in En.
Qed.
Lemma resolved_depth k ats l' p fl : resolve_attrs said_ok find ats = Ok l' -> shallow (command_json (Command k (OCaptureBase (CapContent (Some ats) p fl)))) ->
  shallow (command_json (Command k (OCaptureBase (CapContent (Some l') p fl)))).
Proof.
  intros E H. assert (X : forall ats l', resolve_attrs said_ok find ats = Ok l' -> nesting (imap_json nattr_json l') = nesting (imap_json nattr_json ats)).
  { clear. induction ats as [|[x t] l IH]; intros l' E; cbn [resolve_attrs] in E; [by injection E as <-|].
    destruct (resolve_attr said_ok find t) as [t'| |] eqn:Et; cbn [obind] in E; [|done|done]. destruct (resolve_attrs said_ok find l) as [r| |]; cbn [obind] in E; [|done|done].
    injection E as <-. specialize (IH r eq_refl). unfold imap_json in *. cbn [nesting map fold_right fst snd] in *. injection IH as IH. rewrite IH. f_equal. f_equal.
    destruct t as [[]| |[[]| | |]|]; cbn [resolve_attr] in Et; try (by injection Et as <-);
    (match type of Et with context [resolve_name _ _ ?x] => destruct (resolve_name said_ok find x) as [q| |] end; cbn [obind] in Et; [|done|done]); injection Et as <-; done. }
  specialize (X _ _ E). unfold shallow in *. unfold command_json, obj_content_json, capture_json, opt_field in *. cbn [cmd_obj cmd_kind cc_attrs cc_props cc_flagged app] in *.
  cbn [nesting fold_right snd] in *. unfold imap_json in X. cbn [nesting] in X. unfold imap_json. cbn [nesting]. rewrite X. exact H.
Qed.
Lemma get_types l n t : Forall (fun kv : string * nattr => nattr_ok said_ok kv.2) l -> imap_get n l = Some t -> nattr_ok said_ok t.
Proof. induction 1 as [|[k x] l Hx Hl IH]; cbn [imap_get]; [done|]. destruct (String.eqb n k); [|exact IH]. by intros [= <-]. Qed.
(** No references in the values of a read command, but for the target of a link. *)
Lemma no_ref_plain v r : plain_form v -> ~ ref_in v r.
Proof. intros [s ->] H. by inversion H. Qed.
Lemma no_ref_list l r : Forall plain_form l -> ~ ref_in (VArr l) r.
Proof. intros Hl H. inversion H as [| |v l' r' Hin Hr]; subst. rewrite Forall_forall in Hl. by apply (no_ref_plain v r (Hl v Hin)). Qed.
Lemma no_ref_codes v r : codes_form v -> ~ ref_in v r.
Proof.
  intros [H|[(l & -> & H)|(m & -> & Hn & H)]]; [by apply no_ref_plain|by apply no_ref_list|]. intros R. inversion R as [|k v l r' Hin Hr|]; subst.
  rewrite Forall_forall in H. destruct (H _ Hin) as [_ (l & E & Hl)]. cbn in E. subst v. by apply no_ref_list in Hr.
Qed.
Lemma no_ref_entries v r : entries_form v -> ~ ref_in v r.
Proof.
  intros [H|(m & -> & Hn & H)]; [by apply no_ref_plain|]. intros R. inversion R as [|k v l r' Hin Hr|]; subst.
  rewrite Forall_forall in H. destruct (H _ Hin) as [_ Hp]. cbn in Hp. by apply no_ref_plain in Hr.
Qed.
Lemma no_ref_json r : forall v, json_form v -> ~ ref_in v r.
Proof.
  intros v J R. revert J. induction R as [r|k v l r Hin Hr IH|v l r Hin Hr IH]; intros J; inversion J; subst.
  rewrite Forall_forall in H1. apply IH. exact (proj2 (H1 _ Hin)).
Qed.
Lemma map_in (K : string -> Prop) (F : nvalue -> Prop) m n v : map_form K F m -> has (Some m) n v -> F v.
Proof.
  intros [_ H] (l & E & Hg). injection E as <-. apply imap_get_elem in Hg. rewrite Forall_forall in H. by destruct (H _ Hg).
Qed.
Lemma one_in k w n v : has (Some [(k, w)]) n v -> v = w.
Proof. intros (l & E & Hg). injection E as <-. cbn in Hg. destruct (String.eqb n k); [by injection Hg|done]. Qed.
Lemma none_in n v : ~ has (Some []) n v.
Proof. intros (l & E & Hg). injection E as <-. done. Qed.
Lemma no_map_in n v : ~ has None n v.
Proof. intros (l & E & _). done. Qed.
Lemma readable_refs cont c : readable cont said_ok c -> refs_valid said_ok c.
Proof.
  intros Hr. destruct Hr; (split; [intros v0 r0 Hv R; cbn [value_in cmd_obj add_capture_command add_overlay_command cc_props ct_attrs ct_props] in Hv|cbn [cmd_obj add_capture_command add_overlay_command cc_attrs bc_said]; try done]);
    try (destruct Hv as [x Hv]; by apply no_map_in in Hv); try done; try (destruct Hv as [x Hv]; try (destruct Hv as [Hv|Hv]);
    repeat match goal with
    | H : has (Some []) _ _ |- _ => exfalso; exact (none_in _ _ H)
    | H : has None _ _ |- _ => exfalso; exact (no_map_in _ _ H)
    | H : has (Some [(_, VVal _)]) _ _ |- _ => apply one_in in H; subst; inversion R
    end).
  all: try match goal with H : map_form _ plain_form ?m, Hv : has (Some ?m) _ _ |- _ => exfalso; exact (no_ref_plain _ _ (map_in _ _ _ _ _ H Hv) R) end.
  all: try match goal with H : map_form _ entries_form ?m, Hv : has (Some ?m) _ _ |- _ => exfalso; exact (no_ref_entries _ _ (map_in _ _ _ _ _ H Hv) R) end.
  all: try match goal with H : map_form _ codes_form ?m, Hv : has (Some ?m) _ _ |- _ => exfalso; exact (no_ref_codes _ _ (map_in _ _ _ _ _ H Hv) R) end.
  all: try match goal with H : map_form _ json_form ?m, Hv : has (Some ?m) _ _ |- _ => exfalso; exact (no_ref_json _ _ (map_in _ _ _ _ _ H Hv) R) end.
  - intros l0 n t [= <-] Hg. apply form_ok. destruct H as [_ H]. apply imap_get_elem in Hg. rewrite Forall_forall in H. by destruct (H _ Hg).
  - apply one_in in Hv. subst v0. inversion R; subst. by destruct r0.
  - intros l0 n t [= <-] Hg. destruct H as [_ H]. apply imap_get_elem in Hg. rewrite Forall_forall in H. destruct (H _ Hg) as [_ Ht]. cbn in Ht. by subst t.
Qed.
Lemma readable_good cont c : readable cont said_ok c -> storable_command said_ok c -> good said_ok c.
Proof.
  intros Hr Hs. split; [by eapply readable_ok|]. split; [by eapply readable_refs|]. split; [|done]. split; [apply Hs|]. intros t ct.
  destruct Hr; cbn [cmd_obj add_capture_command add_overlay_command]; intros [= <- <-]; cbn [ot_ver ot_kind]; try done.
  - destruct H as [-> | ->]; done.
  - split; [done|]. intros ->. apply elem_of_list_In in H. cbn in H. naive_solver.
Qed.
Lemma resolved_good cont c c' : readable cont said_ok c -> storable_command said_ok c -> resolve_cmd said_ok find c = Ok c' -> good said_ok c'.
Proof.
  intros Hr Hs E. pose proof (readable_good _ _ Hr Hs) as G. destruct c as [[] [[[ats|] p fl]|bc|[k ver] [a ps]]]; cbn [resolve_cmd] in E; try (injection E as <-; exact G).
  - destruct (resolve_attrs said_ok find ats) as [l'| |] eqn:El; cbn [obind] in E; [|done|done]. injection E as <-. destruct G as (G1 & G2 & G3 & G4).
    split; [|split; [|split]].
    + destruct G1 as [G1 G1']. split; [|exact G1']. intros l [= <-]. rewrite (resolve_keys _ _ _ _ El). by apply G1.
    + destruct G2 as [G2 G2']. split; [exact G2|]. cbn [cmd_obj cc_attrs]. intros l n t [= <-]. apply get_types. eapply resolved_types; [|exact El].
      apply Forall_forall. intros [x y] Hin. destruct G1 as [G1 _]. apply (G2' ats x y eq_refl). apply imap_get_nodup; [by apply G1|done].
    + destruct G3 as [G3 G3']. split; [exact G3|]. by intros t ct.
    + destruct G4 as [S1 S2 S3 S4]. split; [exact S1|done|done|]. by eapply resolved_depth.
  - destruct k; try (injection E as <-; exact G). destruct ps as [ps|]; [|injection E as <-; exact G].
    destruct (imap_get "target" ps) as [w|] eqn:Et; [|injection E as <-; exact G]. destruct w as [[s|n]| | |]; try (injection E as <-; exact G).
    destruct (resolve_name said_ok find n) as [r| |] eqn:En; cbn [obind] in E; [|done|done]. injection E as <-.
    assert (Ep : ps = [("target", VRef (RName n))]). { inversion Hr; subst; try done. cbn in Et. by injection Et as ->. }
    subst ps. change (imap_insert "target" (VRef r) [("target", VRef (RName n))]) with [("target", VRef r)]. destruct G as (G1 & G2 & G3 & G4). split; [|split; [|split]].
    + destruct G1 as [G1 _]. split; [exact G1|]. by apply one_value.
    + destruct G2 as [G2 _]. split; [|done]. intros v q (x & [Hv|Hv]) R; [by apply (G2 v q); [exists x; left|]|]. cbn [ct_props] in Hv. apply one_in in Hv. subst v. inversion R; subst. by eapply resolved_ok.
    + destruct G3 as [G3 G3']. split; [|intros t ct; cbn; intros [= <- <-]; by apply (G3' (OType KLink ver) _ eq_refl)].
      intros v q (x & [Hv|Hv]) R; [by apply (G3 v q); [exists x; left|]|]. cbn [ct_props] in Hv. apply one_in in Hv. subst v. inversion R.
    + destruct G4 as [S1 S2 S3 S4]. split; [|done|done|destruct a; exact S4]. intros v q (x & [Hv|Hv]) R; [by apply (S1 v q); [exists x; left|]|]. cbn [ct_props] in Hv. apply one_in in Hv. subst v. inversion R.
Qed.
Lemma resolved_all cont cs : Forall (readable cont said_ok) cs -> Forall (storable_command said_ok) cs -> forall cs', resolve said_ok find cs = Ok cs' -> Forall (good said_ok) cs'.
Proof.
  induction 1 as [|c cs Hr Hl IH]; intros Hs cs' E; cbn [resolve] in E; [injection E as <-; constructor|]. apply Forall_cons in Hs as [H1 H2].
  destruct (resolve_cmd said_ok find c) as [c1| |] eqn:E1; cbn [obind] in E; [|done|done]. destruct (resolve said_ok find cs) as [r| |] eqn:E2; cbn [obind] in E; [|done|done].
  injection E as <-. constructor; [by eapply resolved_good|by apply IH].
Qed.
End Commands.
