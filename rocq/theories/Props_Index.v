(** C43: objects, listings and search after a history of builds. *)
From Verif Require Import Spec_Index Index_proofs Props_Storage Facade_proofs Props_Facade Props_Codec Props_BundleCodec BundleCodec_proofs Sort_proofs Props_Relations Spec_Crash Props_Crash Nesting_proofs.
Local Open Scope list_scope.

Section Read.
Variables from1 to1 : string -> option string.
Variable listing : string -> list oobject -> list oobject.
Variables said_ok digits lang_ok : string -> bool.
Variable standard_read : string -> option string.
Variable to_text : json -> string.
Variable of_text : string -> option json.
Variable hash : string -> string.
Hypothesis Ht : text_ok to_text of_text.
Hypothesis Hd : digits_class digits.
Hypothesis Hl : listing_ok listing.
Variable h : list (bundle * list bstep).
Variable f : facade.
Hypothesis Hs : sound said_ok digits lang_ok h.
Hypothesis Hb : builds from1 to1 listing to_text hash h f.
Notation held := (builds_held from1 to1 listing to_text hash h f Hb).
Notation obj := (get_object said_ok digits lang_ok standard_read of_text).

Lemma finals_map B : B ∈ map fst h <-> final h B.
Proof.
  split.
  - intros Hin. apply elem_of_list_In, in_map_iff in Hin as ([X st] & <- & Hin). exists st. by apply elem_of_list_In.
  - intros (st & Hin). apply elem_of_list_In, in_map_iff. exists (B, st). split; [done|by apply elem_of_list_In].
Qed.
Lemma object_role B s o : object_in B s o -> has_role B s (match o with FCapture _ => RCapture | FOverlay ov => ROverlay (ot_kind (ov_type ov)) end).
Proof. intros [[H -> ]|(ov & Hin & H & -> )]; right; [by left|right; by exists ov]. Qed.
Lemma type_known B s r : final h B -> has_role B s r -> object_type (fa_db f) s = Ok (shown r).
Proof.
  intros HB Hr. destruct (he_relations _ _ _ _ held) as (d & Ed & Hdb). pose proof (so_sane _ _ _ _ Hs) as Hsane.
  destruct (history_rows listing (map fst h) (map fst h) Hl (so_present _ _ _ _ Hs) Hsane) as (d' & Ed' & _ & K & _); [by apply Forall_forall|].
  unfold history in Ed'. rewrite Ed in Ed'. injection Ed' as <-. apply finals_map in HB. specialize (K B s HB (ex_intro _ r Hr)).
  assert (K' : known (kind_in (map fst h)) (fa_db f) s) by (unfold known in *; rewrite <- entry_get2, Hdb; exact K).
  apply known_type in K'; [|split; [rewrite (kind_in_role _ B s r) by done; apply shown_byte|by eapply Hsane]].
  unfold object_new in K'. apply obind_ok in K' as (k & -> & E). injection E as ->. by rewrite (kind_in_role _ B s r).
Qed.
Lemma type_unknown s : (forall B r, final h B -> ~ has_role B s r) -> (forall B t r, final h B -> has_role B t r -> t <> (s +:+ ".metadata")%string) ->
  object_type (fa_db f) s = Panic.
Proof.
  intros Hn Hm. destruct (he_relations _ _ _ _ held) as (d & Ed & Hdb). pose proof (so_sane _ _ _ _ Hs) as Hsane.
  destruct (history_rows listing (map fst h) (map fst h) Hl (so_present _ _ _ _ Hs) Hsane) as (d' & Ed' & _ & _ & O); [by apply Forall_forall|].
  unfold history in Ed'. rewrite Ed in Ed'. injection Ed' as <-. unfold object_type. rewrite get_entry, Hdb.
  rewrite entry_get2. rewrite (O (meta_key s)); [done| |].
  - intros (B & r & HB & Hr). apply finals_map in HB. by apply (Hm B (meta_key s) r).
  - intros t (B & r & HB & Hr) E. apply finals_map in HB. apply meta_inj in E as ->. by apply (Hn B r).
Qed.
Lemma read_capture cb B : bundle_readable said_ok digits lang_ok B -> shallow (bundle_json B) -> cb_json (b_cb B) = cb_json cb ->
  exists cb', parse_text of_text (cb_parse said_ok) "Failed to parse OCA object" (to_text (cb_json cb)) = Ok cb' /\ cb_json cb' = cb_json cb.
Proof.
  intros Hr Hx <-. exists (cb_read (b_cb B)). unfold parse_text. rewrite Ht by by apply base_shallow. rewrite cb_round; [|intros s E; apply (re_said _ _ _ _ Hr); by right|apply (re_names _ _ _ _ Hr)|apply (re_types _ _ _ _ Hr)].
  split; [done|]. unfold cb_json, cb_json_d, cb_read. cbn. by rewrite !sort_by_idem.
Qed.
Lemma read_overlay ov ov0 B : bundle_readable said_ok digits lang_ok B -> groups_sorted B -> ov0 ∈ b_ovs B -> overlay_json ov0 = overlay_json ov ->
  exists ov', parse_text of_text (overlay_parse said_ok digits lang_ok standard_read) "Failed to parse OCA object" (to_text (overlay_json ov)) = Ok ov' /\ overlay_json ov' = overlay_json ov.
Proof.
  intros Hr Hg Hin <-. exists (ov_read ov0). unfold parse_text. rewrite Ht by apply overlay_shallow. rewrite overlay_round; [|done|by apply (re_overlays _ _ _ _ Hr)].
  split; [done|]. apply overlay_read_json. intros l. by apply Hg.
Qed.
Lemma one_object s B o : final h B -> object_in B s o -> exists o', obj f s = Ok [o'] /\ same_object o' o.
Proof.
  intros HB Ho. destruct (so_readable _ _ _ _ Hs B) as (Hr & Hg & Hx); [by left|].
  destruct (so_result _ _ _ _ Hs _ HB) as (x & HX & _ & _ & Hall). destruct (Hall s o Ho) as (o1 & Ho1 & _). unfold get_object. rewrite get_entry.
  destruct (he_objects _ _ _ _ held s) as [(Y & o2 & HY & Ho2 & -> )|[Hn _]]; [|exfalso; by apply (Hn _ _ HX Ho1)].
  destruct (so_objects _ _ _ _ Hs B Y s o o2) as [J K]; [by left|by right|done|done|]. rewrite (type_known B s _ HB (object_role _ _ _ Ho)). cbn [obind].
  destruct Ho as [[E -> ]|(ov & Hov & E & -> )]; destruct o2 as [cb2|ov2]; try done; cbn [shown object_json] in *.
  - destruct (read_capture cb2 B Hr Hx J) as (cb' & -> & J'). cbn [obind]. eexists. split; [done|]. split; [cbn; congruence|done].
  - destruct (read_overlay ov2 ov B Hr Hg Hov J) as (ov' & -> & J'). cbn [obind]. eexists. split; [done|]. split; [cbn; congruence|done].
Qed.
End Read.

(** The SAIDs of capture bases and overlays of built bundles fetch those objects, one each, in the order asked for. *)
Theorem C43_objects : forall from1 to1 listing said_ok digits lang_ok standard_read to_text of_text hash h f,
  text_ok to_text of_text -> digits_class digits -> listing_ok listing -> sound said_ok digits lang_ok h -> builds from1 to1 listing to_text hash h f ->
  forall l, Forall (fun s => exists B o, final h B /\ object_in B s o) l ->
  exists os, get_objects said_ok digits lang_ok standard_read of_text f l = Ok os /\
    Forall2 (fun s o => forall B o0, final h B -> object_in B s o0 -> same_object o o0) l os.
Proof.
  intros f1 t1 ls so dg lo sr tt ot hs h f Ht Hd Hl Hs Hb l. induction 1 as [|s l (B & o & HB & Ho) _ (os & E & IH)]; [by exists []|].
  destruct (one_object f1 t1 ls so dg lo sr tt ot hs Ht Hd Hl h f Hs Hb s B o HB Ho) as (o' & Eo & S1). exists (o' :: os). cbn [get_objects]. rewrite Eo. cbn [obind]. rewrite E.
  cbn [obind app]. split; [done|]. constructor; [|done]. intros B' o0 HB' Ho0. destruct (so_objects _ _ _ _ Hs B B' s o o0) as [J K]; [by left|by left|done|done|].
  destruct S1 as [J' K']. split; [congruence|]. by destruct o', o, o0.
Qed.
Print Assumptions C43_objects.
(** A SAID that no built bundle has is reported. *)
Theorem C43_unknown_object : forall from1 to1 listing said_ok digits lang_ok standard_read to_text of_text hash h f l s l',
  text_ok to_text of_text -> digits_class digits -> listing_ok listing -> sound said_ok digits lang_ok h -> builds from1 to1 listing to_text hash h f ->
  Forall (fun s => exists B o, final h B /\ object_in B s o) l -> (forall B o, stepped h B -> ~ object_in B s o) ->
  get_objects said_ok digits lang_ok standard_read of_text f (l ++ s :: l') = Err [("No OCA Object found for said: " +:+ s)%string].
Proof.
  intros f1 t1 ls so dg lo sr tt ot hs h f l s l' Ht Hd Hl Hs Hb HF Hn. induction HF as [|x l (B & o & HB & Ho) _ IH].
  - cbn. unfold get_object. rewrite get_entry. destruct (he_objects _ _ _ _ (builds_held _ _ _ _ _ _ _ Hb) s) as [(Y & o2 & HY & Ho2 & _)|[_ -> ]]; [exfalso; by apply (Hn Y o2)|done].
  - destruct (one_object f1 t1 ls so dg lo sr tt ot hs Ht Hd Hl h f Hs Hb x B o HB Ho) as (o' & Eo & _). cbn [app get_objects]. rewrite Eo. cbn [obind]. by rewrite IH.
Qed.
Print Assumptions C43_unknown_object.
(** An object of a step that is in no built bundle is stored, but asking for it panics. *)
Theorem C43_step_object_panics : forall from1 to1 listing said_ok digits lang_ok standard_read to_text of_text hash h f B s o,
  listing_ok listing -> sound said_ok digits lang_ok h -> builds from1 to1 listing to_text hash h f ->
  stepped h B -> object_in B s o -> (forall B r, final h B -> ~ has_role B s r) ->
  (forall B t r, final h B -> has_role B t r -> t <> (s +:+ ".metadata")%string) ->
  is_some_b (entry (fa_cache f) NsObjects s) = true /\ get_objects said_ok digits lang_ok standard_read of_text f [s] = Panic.
Proof.
  intros f1 t1 ls so dg lo sr tt ot hs h f B s o Hl Hs Hb HB Ho Hn Hm. cbn [get_objects]. unfold get_object. rewrite get_entry.
  destruct (he_objects _ _ _ _ (builds_held _ _ _ _ _ _ _ Hb) s) as [(Y & o2 & HY & Ho2 & -> )|[N _]]; [|exfalso; by apply (N B o)].
  split; [done|]. by rewrite (type_unknown f1 t1 ls so dg lo tt hs Hl h f Hs Hb s Hn Hm).
Qed.
Print Assumptions C43_step_object_panics.

(** ** Listings *)
Lemma walk_table {A} (parse : string -> outcome A) what limit (ws : list (string * string)) (good : string -> string -> A -> Prop) :
  (forall k x, (k, x) ∈ ws -> exists a, parse x = Ok a /\ good k x a) -> (1 <= limit)%nat ->
  exists (all : list A) (pages : nat -> list A),
    (forall p, (1 <= p)%nat -> fetch_all parse what limit p (inserts ws []) = Ok (pages p, length all)) /\
    (forall n, (length all <= n * limit)%nat -> concat (map pages (seq 1 n)) ≡ₚ all) /\
    (exists ks, NoDup ks /\ Forall2 (fun k a => exists x, first_written ws k x /\ parse x = Ok a /\ good k x a) ks all /\ forall k x, (k, x) ∈ ws -> k ∈ ks).
Proof.
  intros Hp Hl. destruct (C29_contents ws) as [Hn Hc]. set (t := inserts ws []) in *.
  assert (Hin : forall k x, first_written ws k x -> (k, x) ∈ ws) by (intros k x (pre & post & -> & _); apply elem_of_app; right; left).
  assert (HF : exists all, Forall2 (fun r a => first_written ws r.1 r.2 /\ parse r.2 = Ok a /\ good r.1 r.2 a) t all).
  { assert (HA : forall k x, (k, x) ∈ t -> exists a, first_written ws k x /\ parse x = Ok a /\ good k x a).
    { intros k x Hx. apply Hc in Hx. destruct (Hp k x (Hin _ _ Hx)) as (a & E). by exists a. }
    clear -HA. induction t as [|[k x] t IH]; [by exists []|]. destruct IH as [all IH]; [intros k' x' H; apply (HA k' x'); by right|].
    destruct (HA k x) as (a & E1 & E2); [left|]. exists (a :: all). by constructor. }
  destruct HF as [all HF].
  assert (HK : forall k x, (k, x) ∈ ws -> k ∈ map fst t).
  { intros k x Hx. assert (exists v, first_written ws k v) as [v Hv].
    { clear -Hx. induction ws as [|[k' x'] l IH]; [by apply elem_of_nil in Hx|]. destruct (decide (k' = k)) as [ -> |N].
      - exists x', [], l. split; [done|]. intros v Hv. by apply elem_of_nil in Hv.
      - apply elem_of_cons in Hx as [E|Hx]; [congruence|]. destruct (IH Hx) as (v & pre & post & -> & Hp). exists v, ((k', x') :: pre), post. split; [done|].
        intros v' Hv. apply elem_of_cons in Hv as [E|Hv]; [congruence|by apply (Hp v')]. }
    apply Hc in Hv. apply elem_of_list_In. apply elem_of_list_In in Hv. apply (in_map fst) in Hv. exact Hv. }
  assert (HX : exists ks, NoDup ks /\ Forall2 (fun k a => exists x, first_written ws k x /\ parse x = Ok a /\ good k x a) ks all /\ forall k x, (k, x) ∈ ws -> k ∈ ks).
  { exists (map fst t). split; [done|]. split; [|done]. apply Forall2_fmap_l. eapply Forall2_impl; [exact HF|]. intros [k x] a H. by exists x. }
  assert (HD : all = [] \/ exists a0 : A, True) by (destruct all as [|a0 all0]; [by left|right; by exists a0]). destruct HD as [ -> |[a0 _]].
  - inversion HF as [E|]. exists [], (fun _ => []). split; [|split; [|exact HX]].
    + intros [|p] Hp0; [lia|]. done.
    + intros n _. induction (seq 1 n); done.
  - set (val := fun x => match parse x with Ok a => a | _ => a0 end).
    assert (Hv : forall s x, (s, x) ∈ t -> parse x = Ok (val x)).
    { intros s x Hx. apply Hc, Hin in Hx. destruct (Hp s x Hx) as (a & E & _). unfold val. by rewrite E. }
    assert (Ea : all = map (fun r => val r.2) t).
    { clear -HF. revert all HF. induction t as [|r t IH]; intros all HF; inversion HF as [|? a ? all' [_ [E _]] HF']; subst; [done|]. cbn. rewrite (IH _ HF'). unfold val. by rewrite E. }
    destruct (C28_walk A parse val what limit t Hv Hl) as (pages & P1 & P2 & _). exists all, pages.
    assert (Elen : length t = length all) by (rewrite Ea; symmetry; apply map_length). rewrite <- Elen. split; [done|]. split; [by rewrite Ea|exact HX].
Qed.
(** The listing gives every built bundle once, page by page, as it was first built; each of them is fetched by its SAID. *)
Theorem C43_listing : forall from1 to1 listing said_ok digits lang_ok standard_read to_text of_text hash h f limit,
  text_ok to_text of_text -> digits_class digits -> sound said_ok digits lang_ok h -> builds from1 to1 listing to_text hash h f -> (1 <= limit)%nat ->
  exists (all : list bundle) (pages : nat -> list bundle),
    (forall p, (1 <= p)%nat -> list_bundles said_ok digits lang_ok standard_read of_text limit p f = Ok (pages p, length all)) /\
    (forall n, (length all <= n * limit)%nat -> concat (map pages (seq 1 n)) ≡ₚ all) /\
    NoDup (map b_said all) /\
    (forall B, B ∈ all -> exists B0, final h B0 /\ b_said B = b_said B0 /\ bundle_json B = bundle_json B0) /\
    (forall B0, final h B0 -> exists B, B ∈ all /\ b_said B = b_said B0 /\ bundle_json B = bundle_json B0) /\
    (forall B, B ∈ all -> exists k B', b_said B = Some k /\ get_bundle said_ok digits lang_ok standard_read of_text (fa_cache f) k = Ok B' /\
       b_said B' = Some k /\ bundle_json B' = bundle_json B).
Proof.
  intros f1 t1 ls so dg lo sr tt ot hs h f limit Ht Hd Hs Hb Hl. pose proof (builds_held f1 t1 ls tt hs h f Hb) as Hh. unfold list_bundles. rewrite (he_listed _ _ _ _ Hh).
  assert (Hw : forall k x, (k, x) ∈ listed tt h -> exists B0, final h B0 /\ b_said B0 = Some k /\ x = tt (bundle_json B0)).
  { intros k x Hx. apply elem_of_list_In, in_map_iff in Hx as ([B st] & E & Hin). cbn [fst] in E. injection E as <- <-. assert (HB : final h B) by (exists st; by apply elem_of_list_In).
    destruct (he_saids _ _ _ _ Hh B HB) as [[k Ek] _]. exists B. by rewrite Ek. }
  destruct (walk_table (read_bundle so dg lo sr ot) "oca bundle" limit (listed tt h)
    (fun k x B => exists B0, final h B0 /\ b_said B0 = Some k /\ b_said B = Some k /\ bundle_json B = bundle_json B0)) as (all & pages & P1 & P2 & ks & Hn & HF & Hk); [|done|].
  - intros k x Hx. destruct (Hw k x Hx) as (B0 & HB & Ek & -> ). destruct (so_readable _ _ _ _ Hs B0) as (Hr & Hg & Hsh); [by left|].
    destruct (C06_round_trip so dg lo sr B0 Hd Hr Hg) as (B' & P & J & S & _). exists B'. unfold read_bundle, parse_text. rewrite Ht by done. rewrite P. split; [done|]. exists B0. by rewrite S.
  - exists all, pages. split; [done|]. split; [done|].
    assert (HA : forall B, B ∈ all -> exists k B0, k ∈ ks /\ final h B0 /\ b_said B0 = Some k /\ b_said B = Some k /\ bundle_json B = bundle_json B0).
    { intros B HB. apply elem_of_list_lookup in HB as [i Hi]. destruct (Forall2_lookup_r _ _ _ _ _ HF Hi) as (k & Hki & x & _ & _ & B0 & H). exists k, B0. split; [by apply elem_of_list_lookup_2 in Hki|done]. }
    assert (Em : map b_said all = map Some ks).
    { clear -HF. induction HF as [|k a ks all (x & _ & _ & B0 & _ & _ & E & _) _ IH]; [done|]. cbn. by rewrite E, IH. }
    split; [rewrite Em; apply NoDup_fmap_2; [intros x y [= ->]; done|done]|]. split; [|split].
    + intros B HB. destruct (HA B HB) as (k & B0 & _ & HB0 & E0 & E & J). exists B0. rewrite E, E0. done.
    + intros B0 HB0. destruct (he_saids _ _ _ _ Hh B0 HB0) as [[k Ek] _]. assert (Hin : k ∈ ks).
      { destruct HB0 as [st Hin]. apply (Hk k (tt (bundle_json B0))). apply elem_of_list_In, in_map_iff. exists (B0, st). cbn [fst]. rewrite Ek. split; [done|by apply elem_of_list_In]. }
      apply elem_of_list_lookup in Hin as [i Hi]. destruct (Forall2_lookup_l _ _ _ _ _ HF Hi) as (B & HBi & x & _ & _ & B1 & HB1 & E1 & E & J).
      exists B. split; [by apply elem_of_list_lookup_2 in HBi|]. rewrite E, Ek. split; [done|]. rewrite J. apply (so_bundles _ _ _ _ Hs); [by left|by left|congruence].
    + intros B HB. destruct (HA B HB) as (k & B0 & _ & HB0 & E0 & E & J). exists k. destruct (so_result _ _ _ _ Hs _ HB0) as (x & HX & Ex & _).
      destruct (he_bundles _ _ _ _ Hh k) as [(Y & HY & EY & He)|[N _]]; [|exfalso; apply (N _ HX); congruence].
      destruct (so_readable _ _ _ _ Hs Y) as (Hr & Hg & Hx); [by right|]. destruct (fetch_written so dg lo sr tt ot Ht Hd _ _ _ Hr Hg Hx He) as (B' & F & J' & S' & _).
      exists B'. split; [done|]. split; [done|]. split; [congruence|]. rewrite J', J. apply (so_bundles _ _ _ _ Hs); [by right|by left|congruence].
Qed.
Print Assumptions C43_listing.
(** The same for capture bases; each is fetched as an object. *)
Theorem C43_capture_listing : forall from1 to1 listing said_ok digits lang_ok standard_read to_text of_text hash h f limit,
  text_ok to_text of_text -> digits_class digits -> listing_ok listing -> sound said_ok digits lang_ok h -> builds from1 to1 listing to_text hash h f -> (1 <= limit)%nat ->
  exists (all : list capture_base) (pages : nat -> list capture_base),
    (forall p, (1 <= p)%nat -> list_captures said_ok of_text limit p f = Ok (pages p, length all)) /\
    (forall n, (length all <= n * limit)%nat -> concat (map pages (seq 1 n)) ≡ₚ all) /\
    NoDup (map cb_said all) /\
    (forall cb, cb ∈ all -> exists B0, final h B0 /\ cb_said cb = cb_said (b_cb B0) /\ cb_json cb = cb_json (b_cb B0)) /\
    (forall B0, final h B0 -> exists cb, cb ∈ all /\ cb_said cb = cb_said (b_cb B0) /\ cb_json cb = cb_json (b_cb B0)) /\
    (forall cb, cb ∈ all -> exists k cb', cb_said cb = Some k /\ get_objects said_ok digits lang_ok standard_read of_text f [k] = Ok [FCapture cb'] /\ cb_json cb' = cb_json cb).
Proof.
  intros f1 t1 ls so dg lo sr tt ot hs h f limit Ht Hd Hlo Hs Hb Hl. pose proof (builds_held f1 t1 ls tt hs h f Hb) as Hh. unfold list_captures. rewrite (he_bases _ _ _ _ Hh).
  assert (Hw : forall k x, (k, x) ∈ listed_bases tt h -> exists B0, final h B0 /\ cb_said (b_cb B0) = Some k /\ x = tt (cb_json (b_cb B0))).
  { intros k x Hx. apply elem_of_list_In, in_map_iff in Hx as ([B st] & E & Hin). cbn [fst] in E. injection E as <- <-. assert (HB : final h B) by (exists st; by apply elem_of_list_In).
    destruct (he_saids _ _ _ _ Hh B HB) as [_ [k Ek]]. exists B. by rewrite Ek. }
  assert (SO : forall B B' k, final h B -> final h B' -> cb_said (b_cb B) = Some k -> cb_said (b_cb B') = Some k -> cb_json (b_cb B) = cb_json (b_cb B')).
  { intros B B' k HB HB' E E'. destruct (so_objects _ _ _ _ Hs B B' k (FCapture (b_cb B)) (FCapture (b_cb B'))) as [J _]; [by left|by left|by left|by left|exact J]. }
  destruct (walk_table (parse_text ot (cb_parse so) "Failed to parse capture base") "capture base" limit (listed_bases tt h)
    (fun k x cb => exists B0, final h B0 /\ cb_said (b_cb B0) = Some k /\ cb_said cb = Some k /\ cb_json cb = cb_json (b_cb B0))) as (all & pages & P1 & P2 & ks & Hn & HF & Hk); [|done|].
  - intros k x Hx. destruct (Hw k x Hx) as (B0 & HB & Ek & -> ). destruct (so_readable _ _ _ _ Hs B0) as (Hr & Hg & Hsh); [by left|].
    exists (cb_read (b_cb B0)). unfold parse_text. rewrite Ht by by apply base_shallow. rewrite cb_round; [|intros s E; apply (re_said _ _ _ _ Hr); by right|apply (re_names _ _ _ _ Hr)|apply (re_types _ _ _ _ Hr)].
    split; [done|]. exists B0. split; [done|]. split; [done|]. split; [done|]. unfold cb_json, cb_json_d, cb_read. cbn. by rewrite !sort_by_idem.
  - exists all, pages. split; [done|]. split; [done|].
    assert (HA : forall B, B ∈ all -> exists k B0, k ∈ ks /\ final h B0 /\ cb_said (b_cb B0) = Some k /\ cb_said B = Some k /\ cb_json B = cb_json (b_cb B0)).
    { intros B HB. apply elem_of_list_lookup in HB as [i Hi]. destruct (Forall2_lookup_r _ _ _ _ _ HF Hi) as (k & Hki & x & _ & _ & B0 & H). exists k, B0. split; [by apply elem_of_list_lookup_2 in Hki|done]. }
    assert (Em : map cb_said all = map Some ks).
    { clear -HF. induction HF as [|k a ks all (x & _ & _ & B0 & _ & _ & E & _) _ IH]; [done|]. cbn. by rewrite E, IH. }
    split; [rewrite Em; apply NoDup_fmap_2; [intros x y [= ->]; done|done]|]. split; [|split].
    + intros B HB. destruct (HA B HB) as (k & B0 & _ & HB0 & E0 & E & J). exists B0. rewrite E, E0. done.
    + intros B0 HB0. destruct (he_saids _ _ _ _ Hh B0 HB0) as [_ [k Ek]]. assert (Hin : k ∈ ks).
      { destruct HB0 as [st Hin]. apply (Hk k (tt (cb_json (b_cb B0)))). apply elem_of_list_In, in_map_iff. exists (B0, st). cbn [fst]. rewrite Ek. split; [done|by apply elem_of_list_In]. }
      apply elem_of_list_lookup in Hin as [i Hi]. destruct (Forall2_lookup_l _ _ _ _ _ HF Hi) as (B & HBi & x & _ & _ & B1 & HB1 & E1 & E & J).
      exists B. split; [by apply elem_of_list_lookup_2 in HBi|]. rewrite E, Ek. split; [done|]. rewrite J. by apply (SO _ _ k).
    + intros B HB. destruct (HA B HB) as (k & B0 & _ & HB0 & E0 & E & J). exists k.
      destruct (one_object f1 t1 ls so dg lo sr tt ot hs Ht Hd Hlo h f Hs Hb k B0 (FCapture (b_cb B0)) HB0) as (o & Eo & J' & K); [by left|].
      destruct o as [cb'|]; [|done]. exists cb'. split; [done|]. cbn [get_objects]. rewrite Eo. cbn [obind app]. split; [done|]. cbn in J'. congruence.
Qed.
Print Assumptions C43_capture_listing.

(** ** Search *)
(** The full text index never leads to a bundle that is not there: each hit is fetched, and is a built bundle that says
    the name and description found.  Only SQLite's matching and the scope of the snippet can fail. *)
Theorem C43_search : forall from1 to1 listing said_ok digits lang_ok standard_read to_text of_text hash hits snippet scope h f lang q limit page hs,
  text_ok to_text of_text -> digits_class digits -> sound said_ok digits lang_ok h -> builds from1 to1 listing to_text hash h f ->
  hits_ok hits -> hits lang q (fa_fts f) = Ok hs -> (forall r, r ∈ hs -> is_ok (scope (snippet q r) r) = true) -> (1 <= page)%nat ->
  exists l, search said_ok digits lang_ok standard_read of_text hits snippet scope lang q limit page f = Ok (l, length hs) /\
    NoDup (map (fun x => b_said (fd_bundle x)) l) /\
    Forall2 (fun r x => exists B, final h B /\ b_said B = Some (ft_said r) /\ b_said (fd_bundle x) = Some (ft_said r) /\ bundle_json (fd_bundle x) = bundle_json B /\
      speaks_of B r /\ fd_phrase x = snippet q r /\ Ok (fd_scope x) = scope (snippet q r) r) (take limit (drop ((page - 1) * limit) hs)) l.
Proof.
  intros f1 t1 ls so dg lo sr tt ot hs0 hits snippet scope h f lang q limit page hs Ht Hd Hs Hb Hh0 Eh Hsc Hp. pose proof (builds_held f1 t1 ls tt hs0 h f Hb) as Hh.
  destruct page as [|p]; [lia|]. cbn [search]. rewrite Eh. cbn [obind]. replace (S p - 1)%nat with p by lia. destruct (Hh0 _ _ _ _ Eh) as [Hin Hn].
  assert (HI : forall r, r ∈ take limit (drop (p * limit) hs) -> r ∈ hs).
  { intros r Hr. apply elem_of_take in Hr as (i & Hi & _). rewrite lookup_drop in Hi. by apply elem_of_list_lookup_2 in Hi. }
  assert (HN : NoDup (map ft_said (take limit (drop (p * limit) hs)))).
  { rewrite <- (take_drop (p * limit) hs), map_app in Hn. apply NoDup_app in Hn as (_ & _ & Hn).
    rewrite <- (take_drop limit (drop (p * limit) hs)), map_app in Hn. by apply NoDup_app in Hn as (Hn & _). }
  assert (HF : exists l, found_rows so dg lo sr ot snippet scope q f (take limit (drop (p * limit) hs)) = Ok l /\
    Forall2 (fun r x => exists B, final h B /\ b_said B = Some (ft_said r) /\ b_said (fd_bundle x) = Some (ft_said r) /\ bundle_json (fd_bundle x) = bundle_json B /\
      speaks_of B r /\ fd_phrase x = snippet q r /\ Ok (fd_scope x) = scope (snippet q r) r) (take limit (drop (p * limit) hs)) l).
  { clear HN. induction (take limit (drop (p * limit) hs)) as [|r rs IH]; [by exists []|]. destruct IH as (l & El & HF); [intros r' Hr'; apply HI; by right|].
    assert (Hr : r ∈ hs) by (apply HI; left). cbn [found_rows]. specialize (Hsc r Hr). destruct (scope (snippet q r) r) as [sc| |] eqn:Esc; try done. cbn [obind].
    destruct (he_rows _ _ _ _ Hh r (Hin _ Hr)) as (B & HB & Hm). unfold meta_rows in Hm. apply elem_of_list_omap in Hm as (ov & Hov & Em).
    destruct (he_saids _ _ _ _ Hh B HB) as [[k Ek] _]. rewrite Ek in Em. cbn [unwrap_or] in Em. unfold meta_row in Em.
    destruct (ov_body ov) as [| | | | | | | | | |lg m| | | | | |] eqn:Eb; try discriminate. injection Em as <-. cbn [ft_said]. destruct (so_readable _ _ _ _ Hs B) as (HrB & HgB & HxB); [by left|].
    rewrite (re_said _ _ _ _ HrB k) by (by left). cbn [negb]. destruct (so_result _ _ _ _ Hs _ HB) as (x & HX & Ex & _).
    destruct (he_bundles _ _ _ _ Hh k) as [(Y & HY & EY & He)|[N _]]; [|exfalso; apply (N _ HX); congruence].
    destruct (so_readable _ _ _ _ Hs Y) as (Hr' & Hg' & Hx'); [by right|]. destruct (fetch_written so dg lo sr tt ot Ht Hd _ _ _ Hr' Hg' Hx' He) as (B' & F & J' & S' & _).
    rewrite F, El. cbn [obind]. eexists. split; [done|]. constructor; [|done]. exists B. cbn [fd_bundle fd_phrase fd_scope ft_said]. split; [done|]. split; [done|]. split; [congruence|].
    split; [rewrite J'; apply (so_bundles _ _ _ _ Hs); [by right|by left|congruence]|]. split; [|done]. exists ov, m. done. }
  destruct HF as (l & -> & HF). cbn [obind]. exists l. split; [done|]. split; [|done].
  assert (Em : map (fun x => b_said (fd_bundle x)) l = map Some (map ft_said (take limit (drop (p * limit) hs)))).
  { clear -HF. induction HF as [|r x rs l (B & _ & _ & E & _) _ IH]; [done|]. cbn. by rewrite E, IH. }
  rewrite Em. apply NoDup_fmap_2; [intros x y [= ->]; done|done].
Qed.
Print Assumptions C43_search.
(** Every language a built bundle has a meta overlay in is in the index. *)
Theorem C43_indexed : forall from1 to1 listing to_text hash h f B ov l m,
  builds from1 to1 listing to_text hash h f -> final h B -> ov ∈ b_ovs B -> ov_body ov = BMeta l m ->
  exists r, r ∈ fa_fts f /\ b_said B = Some (ft_said r) /\ ft_lang r = l.
Proof.
  intros f1 t1 ls tt hs h f B ov l m Hb HB Hov Eb. pose proof (builds_held f1 t1 ls tt hs h f Hb) as Hh. destruct (he_saids _ _ _ _ Hh B HB) as [[k Ek] _].
  destruct (he_spoken _ _ _ _ Hh B (FtsRow (unwrap_or "" (m !! "name")) (unwrap_or "" (m !! "description")) l k) HB) as (r & Hr & E1 & E2).
  - unfold meta_rows. apply elem_of_list_omap. exists ov. split; [done|]. unfold meta_row. rewrite Eb, Ek. done.
  - exists r. cbn in E1, E2. by rewrite Ek, E1.
Qed.
Print Assumptions C43_indexed.
