From Verif Require Export Spec_BundleCodec Codec_proofs Determinism_proofs Tamper_proofs Sort_proofs Upd_proofs.
From Coq Require Import Lia.

(** ** Maps *)
Lemma imap_get_sorted {V} (m : gmap string V) k : imap_get k (sorted_pairs m) = m !! k.
Proof.
  pose proof (sorted_pairs_nodup m) as Hn. destruct (m !! k) as [v|] eqn:E.
  - apply imap_get_nodup; [done|]. by apply sorted_pairs_elem.
  - apply imap_get_none. intros Hin. apply elem_of_list_fmap in Hin as ([k' v] & -> & Hin). apply sorted_pairs_elem in Hin. cbn in E. congruence.
Qed.
Lemma map_of_app {V} (l : list (string * V)) : forall (m : gmap string V) k, NoDup (map fst l) ->
  fold_left (fun m kv => <[kv.1 := kv.2]> m) l m !! k = match imap_get k l with Some v => Some v | None => m !! k end.
Proof.
  induction l as [|[k' v'] l IH]; intros m k Hn; [done|]. cbn in Hn. apply NoDup_cons in Hn as [H1 H2]. cbn. rewrite IH by done.
  destruct (String.eqb k k') eqn:E.
  - apply String.eqb_eq in E as ->. rewrite lookup_insert. destruct (imap_get k' l) as [v|] eqn:G; [|done].
    exfalso. apply H1. apply imap_get_elem in G. apply elem_of_list_fmap. by exists (k', v).
  - rewrite lookup_insert_ne; [done|]. intros ->. by rewrite String.eqb_refl in E.
Qed.
Lemma map_of_lookup {V} (l : list (string * V)) k : NoDup (map fst l) -> map_of l !! k = imap_get k l.
Proof. intros Hn. unfold map_of. rewrite map_of_app by done. rewrite lookup_empty. by destruct (imap_get k l). Qed.
Lemma map_of_sorted {V} (m : gmap string V) : map_of (sorted_pairs m) = m.
Proof. apply map_eq. intros k. rewrite map_of_lookup by apply sorted_pairs_nodup. apply imap_get_sorted. Qed.
Lemma imap_get_map {V W} (f : V -> W) (l : imap V) k : imap_get k (map (fun kv => (kv.1, f kv.2)) l) = f <$> imap_get k l.
Proof. induction l as [|[k' v] l IH]; [done|]. cbn. by destruct (String.eqb k k'). Qed.
Lemma map_fst_map {V W} (f : V -> W) (l : imap V) : map fst (map (fun kv => (kv.1, f kv.2)) l) = map fst l.
Proof. rewrite map_map. done. Qed.
Lemma canon_get l k : NoDup (map fst l) -> imap_get k (sorted_pairs (map_of (map (fun kv => (kv.1, canon kv.2)) l))) = canon <$> imap_get k l.
Proof. intros Hn. rewrite imap_get_sorted, map_of_lookup by (by rewrite map_fst_map). apply imap_get_map. Qed.
Lemma canon_jmap {V} (f : V -> json) (m : gmap string V) : canon (jmap f m) = jmap (fun v => canon (f v)) m.
Proof.
  unfold jmap. cbn [canon]. f_equal. rewrite sorted_pairs_fmap, sorted_pairs_fmap, map_of_sorted.
  change (map (λ kv : string * V, (kv.1, canon (f kv.2))) (sorted_pairs m)) with (map (λ kv : string * V, (kv.1, (λ v, canon (f v)) kv.2)) (sorted_pairs m)).
  rewrite sorted_pairs_fmap. f_equal. by rewrite <- map_fmap_compose.
Qed.
Lemma jmap_funext {V} (f g : V -> json) (m : gmap string V) : (forall v, f v = g v) -> jmap f m = jmap g m.
Proof. intros H. unfold jmap. f_equal. apply map_ext. intros [k v]. by rewrite H. Qed.
Lemma canon_strs l : canon (jstrs l) = jstrs l.
Proof. unfold jstrs. cbn. f_equal. rewrite map_map. by apply map_ext. Qed.
Lemma canon_texts (m : gmap string string) : canon (jmap JStr m) = jmap JStr m.
Proof. rewrite canon_jmap. by apply jmap_funext. Qed.
Lemma parse_pairs_ok {V W} (p : json -> outcome W) (f : V -> json) (g : V -> W) (l : imap V) :
  (forall k v, (k, v) ∈ l -> p (f v) = Ok (g v)) -> parse_pairs p (map (fun kv => (kv.1, f kv.2)) l) = Ok (map (fun kv => (kv.1, g kv.2)) l).
Proof.
  induction l as [|[k v] l IH]; intros H; [done|]. cbn. rewrite (H k v) by left. cbn. rewrite IH; [done|]. intros k' v' Hin. apply (H k'). by right.
Qed.
Lemma map_parse_ok {V W} (p : json -> outcome W) (f : V -> json) (g : V -> W) (m : gmap string V) :
  (forall k v, m !! k = Some v -> p (f v) = Ok (g v)) -> map_parse p (jmap f m) = Ok (g <$> m).
Proof.
  intros H. unfold map_parse, jmap. rewrite (parse_pairs_ok p f g); [|intros k v Hin; apply (H k); by apply sorted_pairs_elem]. cbn [obind]. f_equal.
  rewrite sorted_pairs_fmap. apply map_of_sorted.
Qed.
Lemma texts_ok (m : gmap string string) : map_parse str_parse (jmap JStr m) = Ok m.
Proof. rewrite (map_parse_ok _ _ id) by done. by rewrite map_fmap_id. Qed.
Lemma strs_ok l : strs_json_parse (jstrs l) = Ok l.
Proof. exact (strs_round l). Qed.

(** ** Overlays *)
Definition codes_read (e : ecodes) : ecodes :=
  match e with ECSai s => ECSai s | ECArr l => ECArr (sort_by id l) | ECObj l => ECObj (sort_by fst l) end.
Definition body_read (b : body) : body :=
  match b with
  | BEntryCode m => BEntryCode (codes_read <$> m)
  | BLabel l c m cl => BLabel l (sort_by id c) m cl
  | BFraming meta m => BFraming meta (erase_frame <$> m)
  | _ => b
  end.
Definition ov_read (ov : overlay) : overlay := Overlay (ov_said ov) (ov_cb ov) (ov_ver ov) (body_read (ov_body ov)).
Lemma body_kind_read b : body_kind (body_read b) = body_kind b. Proof. by destruct b. Qed.

Lemma canon_groups (l : imap (list string)) : NoDup (map fst l) ->
  canon (JObj (map (fun kv => (kv.1, jstrs kv.2)) l)) = JObj (map (fun kv => (kv.1, jstrs kv.2)) (sort_by fst l)).
Proof.
  intros Hn. cbn [canon]. f_equal. rewrite map_map. cbn [fst snd].
  assert (E : map (fun x : string * list string => (x.1, canon (jstrs x.2))) l = map (fun kv => (kv.1, jstrs kv.2)) l) by (apply map_ext; intros []; by rewrite canon_strs).
  rewrite E. symmetry. rewrite (sort_by_map fst fst) by done. apply sort_fst_of_map. apply NoDup_Permutation.
  - apply (NoDup_fmap_1 fst). change (NoDup (map fst (map (fun kv => (kv.1, jstrs kv.2)) l))). by rewrite map_fst_map.
  - apply NoDup_map_to_list.
  - intros [k v]. rewrite elem_of_map_to_list, map_of_lookup by by rewrite map_fst_map. symmetry. split.
    + apply imap_get_elem.
    + apply imap_get_nodup. by rewrite map_fst_map.
Qed.
Lemma sort_fst_nodup {V} (l : imap V) : NoDup (map fst l) -> NoDup (map fst (sort_by fst l)).
Proof. intros H. change (NoDup (sort_by fst l).*1). by rewrite sort_by_perm. Qed.
Lemma codes_round e : (forall l, e = ECObj l -> NoDup (map fst l)) -> ecodes_parse (canon (ecodes_json e)) = Ok (codes_read e).
Proof.
  intros H. destruct e as [s|l|l]; [done| |].
  - cbn [ecodes_json]. rewrite canon_strs. unfold jstrs. cbn [ecodes_parse]. pose proof (strs_ok (sort_by id l)) as E. unfold strs_json_parse, jstrs in E. by rewrite E.
  - cbn [ecodes_json]. rewrite canon_groups by by apply H. cbn [ecodes_parse codes_read].
    change (JObj (map (fun kv => (kv.1, jstrs kv.2)) (sort_by fst l))) with (imap_json jstrs (sort_by fst l)).
    rewrite (parse_pairs_round _ _ id); [|by intros; apply strs_ok|by apply sort_fst_nodup, H]. cbn [obind]. do 2 f_equal.
    transitivity (map (fun x : string * list string => x) (sort_by fst l)); [|apply map_id]. apply map_ext. by intros [].
Qed.
Lemma entries_round e : entries_parse (canon (entries_json e)) = Ok e.
Proof.
  destruct e as [s|m]; [done|]. cbn [entries_json]. rewrite canon_texts. unfold jmap. cbn [entries_parse].
  pose proof (texts_ok m) as E. unfold jmap in E. rewrite E. done.
Qed.
Lemma scope_round s : fscope_parse (canon (fscope_json s)) = Ok (erase_scope s).
Proof.
  destruct s as [p q m]. unfold fscope_json, erase_scope. cbn [fs_pred fs_just].
  pose proof (canon_get [("predicate_id", JStr p); ("framing_justification", JStr q)]) as G.
  assert (Hn : NoDup (map fst [("predicate_id", JStr p); ("framing_justification", JStr q)])) by (cbn; repeat constructor; set_solver).
  cbn [canon]. set (L := sorted_pairs _) in *. unfold fscope_parse, need. rewrite (G "predicate_id" Hn), (G "framing_justification" Hn). done.
Qed.
Section Round.
Variables said_ok digits lang_ok : string -> bool.
Variable standard_read : string -> option string.
Hypothesis Hd : forall s, digits s = true -> all_chars (fun c => negb (Ascii.eqb "." c)) s = true.

Definition head_fields (ov : overlay) : list (string * json) :=
  match ov_body ov with
  | BMapping _ => [("d", jopt (ov_said ov)); ("type", JStr (otype_text (ov_type ov))); ("capture_base", jopt (ov_cb ov))]
  | _ => [("d", jopt (ov_said ov)); ("capture_base", jopt (ov_cb ov)); ("type", JStr (otype_text (ov_type ov)))]
  end.
Definition fields (ov : overlay) : list (string * json) := head_fields ov ++ body_fields (ov_body ov).
Lemma overlay_json_fields ov : overlay_json ov = JObj (fields ov).
Proof. unfold overlay_json, overlay_json_d, fields, head_fields. by destruct (ov_body ov). Qed.
Lemma fields_nodup ov : overlay_readable said_ok digits lang_ok ov -> NoDup (map fst (fields ov)).
Proof.
  intros [_ _ _ Hm _ _]. unfold fields, head_fields. destruct (ov_body ov) as [| | | | | | | | | |l m| | | | | |] eqn:E;
    try (cbn; repeat (apply NoDup_cons; split; [set_solver|]); by apply NoDup_nil).
  change (NoDup (["d"; "capture_base"; "type"; "language"] ++ map fst (map (fun kv => (kv.1, JStr kv.2)) (sorted_pairs m)))).
  rewrite map_fst_map. apply NoDup_app. split; [repeat (apply NoDup_cons; split; [set_solver|]); by apply NoDup_nil|]. split; [|apply sorted_pairs_nodup].
  intros k Hk Hin. apply elem_of_list_fmap in Hin as ([k' v] & -> & Hin). apply sorted_pairs_elem in Hin. cbn in Hk. by rewrite (Hm l m k' eq_refl Hk) in Hin.
Qed.
Lemma jopt_round (s : option string) : (forall x, s = Some x -> said_ok x = true) -> opt_parse (said_parse said_ok) (Some (jopt s)) = Ok s.
Proof. intros H. destruct s as [x|]; [|done]. cbn. by rewrite (H x). Qed.
Lemma canon_jopt s : canon (jopt s) = jopt s. Proof. by destruct s. Qed.
Lemma head_get ov k x : (k, x) ∈ [("d", jopt (ov_said ov)); ("capture_base", jopt (ov_cb ov)); ("type", JStr (otype_text (ov_type ov)))] ->
  imap_get k (fields ov) = Some x.
Proof.
  intros Hin. unfold fields, head_fields. generalize dependent (otype_text (ov_type ov)). intros t Hin. apply elem_of_list_In in Hin. cbn in Hin.
  destruct Hin as [[= <- <-]|[[= <- <-]|[[= <- <-]|[]]]]; destruct (ov_body ov); reflexivity.
Qed.
Lemma body_round ov : overlay_readable said_ok digits lang_ok ov ->
  body_parse lang_ok standard_read (body_kind (ov_body ov)) (sorted_pairs (map_of (map (fun kv => (kv.1, canon kv.2)) (fields ov)))) = Ok (body_read (ov_body ov)).
Proof.
  intros Hr. pose proof (fields_nodup ov Hr) as Hn. pose proof (canon_get (fields ov)) as G.
  assert (N : forall k x W (f : json -> outcome W), imap_get k (fields ov) = Some x ->
    need k f (sorted_pairs (map_of (map (fun kv => (kv.1, canon kv.2)) (fields ov)))) = f (canon x)).
  { intros k x W f E. unfold need. by rewrite (G k Hn), E. }
  destruct Hr as [_ _ Hl Hm Hg Hs].
  assert (GL : forall l, body_lang (ov_body ov) = Some l -> lang_parse lang_ok (JStr l) = Ok l) by (intros l E; cbn; by rewrite (Hl l E)).
  destruct (ov_body ov) as [m|m|m|m|m|c d|m|l m|l c m cl|l m|l m|t m|me m|m|a|s|m] eqn:E; cbn [body_kind body_parse body_read body_lang] in *;
    repeat match goal with |- context [need ?k ?f _] => 
      erewrite (N k _ _ f) by (unfold fields, head_fields; rewrite E; cbn; reflexivity) end; cbn [canon];
    rewrite ?canon_texts, ?canon_strs, ?texts_ok, ?strs_ok; cbn [obind]; try done.
  - rewrite canon_jmap. rewrite (map_parse_ok _ _ id); [by rewrite map_fmap_id|]. intros k [] _; done.
  - rewrite canon_jmap. rewrite (map_parse_ok _ _ id); [by rewrite map_fmap_id|]. intros k v _. rewrite canon_strs. apply strs_ok.
  - rewrite canon_jmap. rewrite (map_parse_ok _ _ codes_read); [done|]. intros k v Hk. apply codes_round. intros l ->. apply Hg. by exists m, k.
  - rewrite GL by done. cbn [obind]. rewrite canon_jmap. rewrite (map_parse_ok _ _ id); [by rewrite map_fmap_id|]. intros k v _. apply entries_round.
  - rewrite GL by done. done.
  - rewrite GL by done. done.
  - rewrite GL by done. cbn [obind].
    assert (X : map_parse str_parse (JObj (meta_rest (sorted_pairs (map_of (map (fun kv => (kv.1, canon kv.2)) (fields ov)))))) = Ok m); [|by rewrite X].
    set (L := sorted_pairs _). assert (HL : NoDup (map fst (meta_rest L))).
    { assert (HN : NoDup (map fst L)) by apply sorted_pairs_nodup. clearbody L. clear - HN. unfold meta_rest. induction L as [|[k v] L IH]; [exact HN|].
      cbn in HN. apply NoDup_cons in HN as [H1 H2]. cbn. destruct (negb _); cbn; [|by apply IH]. apply NoDup_cons. split; [|by apply IH].
      intros Hin. apply H1. apply elem_of_list_fmap in Hin as ([k' v'] & -> & Hin). apply elem_of_list_fmap. exists (k', v'). split; [done|].
      apply elem_of_list_In in Hin. apply filter_In in Hin as [Hin _]. by apply elem_of_list_In. }
    assert (HE : forall k x, (k, x) ∈ meta_rest L <-> exists v, m !! k = Some v /\ x = JStr v).
    { intros k x. unfold meta_rest. rewrite elem_of_list_In, filter_In, <- elem_of_list_In. subst L. rewrite sorted_pairs_elem. cbn [fst].
      rewrite map_of_lookup by by rewrite map_fst_map. rewrite imap_get_map. unfold fields, head_fields. rewrite E. cbn [app body_fields].
      assert (HM : imap_get k (map (fun kv => (kv.1, JStr kv.2)) (sorted_pairs m)) = JStr <$> m !! k) by (rewrite imap_get_map; by rewrite imap_get_sorted).
      unfold meta_reserved. cbn [existsb imap_get].
      assert (HR : existsb (String.eqb k) ["d"; "capture_base"; "type"; "language"] = true <-> k ∈ ["d"; "capture_base"; "type"; "language"]).
      { rewrite existsb_exists. setoid_rewrite String.eqb_eq. split; [intros (y & Hy & ->); by apply elem_of_list_In|]. intros Hk. exists k. split; [by apply elem_of_list_In|done]. }
      cbn [existsb] in HR.
      destruct (String.eqb k "d"), (String.eqb k "capture_base"), (String.eqb k "type"), (String.eqb k "language"); cbn [orb negb] in *;
        try (split; [intros [_ [=]]|]; intros (v & Hv & _); rewrite (Hm l m k eq_refl) in Hv; [done|by apply HR]).
      rewrite HM. split.
      - intros [Hx _]. destruct (m !! k) as [v|]; cbn in Hx; [|done]. exists v. by injection Hx as <-.
      - intros (v & Hv & ->). by rewrite Hv. }
    clearbody L. set (R := meta_rest L) in *. clearbody R. unfold map_parse.
    assert (HP : exists L', parse_pairs str_parse R = Ok L' /\ R = map (fun kv => (kv.1, JStr kv.2)) L').
    { assert (HQ : forall k x, (k, x) ∈ R -> exists v, x = JStr v) by (intros k x Hx; apply HE in Hx as (v & _ & ->); by exists v).
      clear - HQ. induction R as [|[k x] R IH]; [by exists []|]. destruct (HQ k x) as [v ->]; [left|]. destruct IH as (L' & E1 & E2).
      - intros k' x' Hx. apply (HQ k'). by right.
      - exists ((k, v) :: L'). cbn. rewrite E1. cbn. by rewrite E2. }
    destruct HP as (L' & HP & ER). rewrite HP. cbn [obind]. f_equal. rewrite ER, map_fst_map in HL. apply map_eq. intros k. rewrite map_of_lookup by done.
    destruct (m !! k) as [v|] eqn:Ek.
    + assert (Hin : (k, JStr v) ∈ R) by (apply HE; by exists v). rewrite ER in Hin. apply elem_of_list_fmap in Hin as ([k' v'] & [= -> ->] & Hin).
      by apply imap_get_nodup.
    + apply imap_get_none. intros Hin. apply elem_of_list_fmap in Hin as ([k' v] & -> & Hin). cbn in Ek. assert (HX : (k', JStr v) ∈ R).
      { rewrite ER. apply elem_of_list_fmap. by exists (k', v). } apply HE in HX as (v' & Hv & _). congruence.
  - rewrite canon_jmap. rewrite (map_parse_ok _ _ erase_frame); [done|]. intros k v _. rewrite canon_jmap. apply map_parse_ok. intros k' s _. apply scope_round.
  - rewrite canon_jmap. rewrite (map_parse_ok _ _ id); [by rewrite map_fmap_id|]. intros k v _. rewrite canon_strs. apply strs_ok.
Qed.
Lemma overlay_round ov : overlay_readable said_ok digits lang_ok ov ->
  overlay_parse said_ok digits lang_ok standard_read (overlay_json ov) = Ok (ov_read ov).
Proof.
  intros Hr. unfold overlay_parse. rewrite overlay_json_fields. cbn [canon]. pose proof (fields_nodup ov Hr) as Hn. pose proof (canon_get (fields ov)) as G.
  pose proof (body_round ov Hr) as B. set (L := sorted_pairs _) in *. unfold overlay_fields_parse.
  assert (T : need "type" (otype_json_parse digits) L = Ok (ov_type ov)).
  { unfold need. rewrite (G "type" Hn), (head_get ov "type" (JStr (otype_text (ov_type ov)))) by (right; right; left).
    cbn [fmap option_fmap option_map canon otype_json_parse].
    destruct (or_version _ _ _ _ Hr) as (a & b & Ev & Ha & Hb).
    assert (P : otype_parse digits (otype_text (ov_type ov)) = Some (ov_type ov)); [|by rewrite P]. apply otype_parse_spec. split; [done|]. exists a, b. repeat split; try done. by apply Hd. }
  rewrite T. cbn [obind]. rewrite (G "d" Hn), (head_get ov "d" (jopt (ov_said ov))) by left. cbn [fmap option_fmap option_map]. rewrite canon_jopt, jopt_round.
  2: { intros x Hx. apply (or_said _ _ _ _ Hr). by left. }
  cbn [obind]. rewrite (G "capture_base" Hn), (head_get ov "capture_base" (jopt (ov_cb ov))) by (right; left). cbn [fmap option_fmap option_map]. rewrite canon_jopt, jopt_round.
  2: { intros x Hx. apply (or_said _ _ _ _ Hr). by right. }
  cbn [obind ov_type ot_kind ot_ver]. rewrite B. done.
Qed.

(** ** Lists of overlays *)
Definition vals (v : oval) : list overlay := match v with OVArr l => sort_by said_key l | OVObj ov => [ov] end.
Lemma list_parse_ok l : (forall ov, ov ∈ l -> overlay_readable said_ok digits lang_ok ov) ->
  list_parse (fun j => unwrap (overlay_parse said_ok digits lang_ok standard_read j)) (map overlay_json l) = Ok (map ov_read l).
Proof.
  induction l as [|x l IH]; intros H; [done|]. cbn [map list_parse]. rewrite overlay_round by (apply H; left). cbn [unwrap obind]. rewrite IH; [done|].
  intros ov Hin. apply H. by right.
Qed.
Lemma overlays_parse_ok (L : imap oval) : (forall s v ov, (s, v) ∈ L -> ov ∈ vals v -> overlay_readable said_ok digits lang_ok ov) ->
  overlays_parse said_ok digits lang_ok standard_read (map (fun kv => (kv.1, oval_json kv.2)) L) = Ok (map ov_read (concat (map (fun kv => vals kv.2) L))).
Proof.
  induction L as [|[s v] L IH]; intros H; [done|].
  assert (IH' := IH (fun s' v' ov Hin => H s' v' ov (elem_of_list_further _ _ _ Hin))). clear IH. cbn [map fst snd concat].
  assert (Hv : forall ov, ov ∈ vals v -> overlay_readable said_ok digits lang_ok ov) by (intros ov Hin; apply (H s v ov); [left|done]).
  destruct v as [l|ov]; cbn [oval_json vals] in *.
  - cbn [overlays_parse]. rewrite list_parse_ok by done. cbn [obind]. rewrite IH'. cbn [obind]. by rewrite map_app.
  - rewrite overlay_json_fields. cbn [overlays_parse]. rewrite <- overlay_json_fields, overlay_round by (apply Hv; left). cbn [unwrap obind]. rewrite IH'. done.
Qed.
End Round.
Lemma of_kind_app k l1 l2 : of_kind k (l1 ++ l2) = of_kind k l1 ++ of_kind k l2.
Proof. unfold of_kind. apply List.filter_app. Qed.
Lemma of_kind_all k l : (forall x, x ∈ l -> body_kind (ov_body x) = k) -> of_kind k l = l.
Proof.
  intros H. unfold of_kind. induction l as [|x l IH]; [done|]. cbn. rewrite bool_decide_eq_true_2 by (apply H; left). f_equal. apply IH. intros y Hy. apply H. by right.
Qed.
Lemma of_kind_none k l : (forall x, x ∈ l -> body_kind (ov_body x) <> k) -> of_kind k l = [].
Proof.
  intros H. unfold of_kind. induction l as [|x l IH]; [done|]. cbn. rewrite bool_decide_eq_false_2 by (apply H; left). apply IH. intros y Hy. apply H. by right.
Qed.
Lemma of_kind_elem k l x : x ∈ of_kind k l <-> x ∈ l /\ body_kind (ov_body x) = k.
Proof. unfold of_kind. rewrite elem_of_list_In, filter_In, <- elem_of_list_In, bool_decide_eq_true. done. Qed.
Lemma vals_elem ovs s v x : group_overlays ovs !! s = Some v -> x ∈ vals v -> x ∈ ovs /\ s = okind_snake (body_kind (ov_body x)).
Proof.
  intros Hs Hx. destruct (group_overlays_key _ _ _ Hs) as [k ->]. rewrite group_overlays_lookup in Hs. unfold group_val in Hs.
  destruct (overlays_many k).
  - destruct (of_kind k ovs) as [|y l] eqn:E; [done|]. injection Hs as <-. unfold vals in Hx. rewrite <- E, sort_by_perm, of_kind_elem in Hx. destruct Hx as [? <-]. done.
  - destruct (last (of_kind k ovs)) as [y|] eqn:E; [|done]. injection Hs as <-. cbn in Hx. apply elem_of_list_singleton in Hx as ->.
    apply last_Some_elem_of, of_kind_elem in E as [? <-]. done.
Qed.
Lemma concat_kind (L : imap oval) k : NoDup (map fst L) ->
  (forall s v x, (s, v) ∈ L -> x ∈ vals v -> s = okind_snake (body_kind (ov_body x))) ->
  of_kind k (concat (map (fun kv => vals kv.2) L)) = match imap_get (okind_snake k) L with Some v => vals v | None => [] end.
Proof.
  induction L as [|[s v] L IH]; intros Hn H; [done|]. cbn in Hn. apply NoDup_cons in Hn as [H1 H2]. cbn [map concat imap_get fst snd]. rewrite of_kind_app.
  rewrite IH; [|done|intros s' v' x Hin; apply H; by right].
  destruct (String.eqb (okind_snake k) s) eqn:E.
  - apply String.eqb_eq in E as <-. rewrite of_kind_all.
    + rewrite (proj2 (imap_get_none _ _)) by done. by rewrite app_nil_r.
    + intros x Hx. symmetry. apply (inj okind_snake). apply (H _ v); [left|done].
  - rewrite of_kind_none; [done|]. intros x Hx <-. assert (X : s = okind_snake (body_kind (ov_body x))) by (apply (H _ v); [left|done]). subst s. by rewrite String.eqb_refl in E.
Qed.
(** The overlays in the order they are written. *)
Definition written_order (ovs : list overlay) : list overlay := concat (map (fun kv => vals kv.2) (sorted_pairs (group_overlays ovs))).
Lemma written_kind ovs k : of_kind k (written_order ovs) = if overlays_many k then sort_by said_key (of_kind k ovs) else visible k ovs.
Proof.
  unfold written_order. rewrite concat_kind.
  - rewrite imap_get_sorted, group_overlays_lookup. unfold group_val, visible. destruct (overlays_many k); [by destruct (of_kind k ovs)|]. by destruct (last _).
  - apply sorted_pairs_nodup.
  - intros s v x Hin Hx. apply sorted_pairs_elem in Hin. by eapply vals_elem.
Qed.
Lemma written_elem ovs x : x ∈ written_order ovs -> x ∈ ovs.
Proof.
  unfold written_order. rewrite elem_of_list_In, in_concat. intros (l & Hl & Hx). apply in_map_iff in Hl as ([s v] & <- & Hl).
  apply elem_of_list_In in Hx, Hl. apply sorted_pairs_elem in Hl. by apply (vals_elem _ _ _ _ Hl Hx).
Qed.

(** ** JSON of what was read *)
Lemma increasing_sorted {V} (l : imap V) : increasing l -> sorted_k fst l.
Proof.
  intros [_ H]. induction l as [|[k v] l IH]; cbn; [done|]. split.
  - intros [k' v'] Hin. apply elem_of_list_split in Hin as (l1 & l2 & ->). apply (H [] k v l1 k' v' l2). done.
  - apply IH. intros pre a b mid a' b' post ->. apply (H ((k, v) :: pre) a b mid a' b' post). done.
Qed.
Lemma body_read_fields b : (forall l, has_groups b l -> increasing l) -> body_fields (body_read b) = body_fields b.
Proof.
  intros H. destruct b as [m|m|m|m|m|c d|m|l m|l c m cl|l m|l m|t m|me m|m|a|s|m]; try done.
  - cbn. do 2 f_equal. rewrite jmap_fmap. apply jmap_ext. intros k v Hk. destruct v as [s|l|l]; cbn; [done|by rewrite sort_by_idem|].
    f_equal. f_equal. apply sort_by_sorted_id, increasing_sorted, H. by exists m, k.
  - cbn. by rewrite sort_by_idem.
  - exact (body_fields_erase (BFraming me m)).
Qed.
Lemma overlay_read_json ov : (forall l, has_groups (ov_body ov) l -> increasing l) -> overlay_json (ov_read ov) = overlay_json ov.
Proof.
  intros H. rewrite !overlay_json_fields. f_equal. unfold fields, head_fields. cbn [ov_body ov_read ov_said ov_cb]. rewrite body_read_fields by done. f_equal.
  unfold ov_type. cbn [ov_body ov_read ov_ver]. rewrite body_kind_read. by destruct (ov_body ov).
Qed.
Lemma overlays_read_json ovs : (forall ov l, ov ∈ ovs -> has_groups (ov_body ov) l -> increasing l) ->
  overlays_json (map ov_read (written_order ovs)) = overlays_json ovs.
Proof.
  intros H. assert (Hk : forall x, body_kind (ov_body (ov_read x)) = body_kind (ov_body x)) by (intros x; apply body_kind_read).
  unfold overlays_json. rewrite (jmap_id _ (group_overlays _)), (jmap_id _ (group_overlays ovs)).
  f_equal. apply map_eq. intros s. rewrite !lookup_fmap.
  assert (Hdec : (exists k, s = okind_snake k) \/ (group_overlays (map ov_read (written_order ovs)) !! s = None /\ group_overlays ovs !! s = None)).
  { destruct (group_overlays (map ov_read (written_order ovs)) !! s) eqn:E1; [left; by eapply group_overlays_key|].
    destruct (group_overlays ovs !! s) eqn:E2; [left; by eapply group_overlays_key|]. by right. }
  destruct Hdec as [[k ->]|[-> ->]]; [|done]. rewrite !group_overlays_lookup, of_kind_map, written_kind by done. unfold group_val, visible.
  destruct (overlays_many k).
  - assert (Hj : forall x, x ∈ of_kind k ovs -> overlay_json (ov_read x) = overlay_json x).
    { intros x Hx. apply overlay_read_json. intros l. apply H. by apply of_kind_elem in Hx as [? _]. }
    set (l := of_kind k ovs) in *. clearbody l. assert (E : match map ov_read (sort_by said_key l) with [] => None | _ => Some (OVArr (map ov_read (sort_by said_key l))) end
       = match l with [] => None | _ => Some (OVArr (map ov_read (sort_by said_key l))) end).
    { destruct l as [|x l]; [done|]. destruct (sort_by said_key (x :: l)) eqn:E; [|done]. pose proof (sort_by_perm said_key (x :: l)) as P. rewrite E in P. by apply Permutation_nil_l in P. }
    rewrite E. destruct l as [|x l]; [done|]. cbn [fmap option_fmap option_map oval_json]. f_equal. f_equal.
    rewrite <- (sort_by_map said_key said_key ov_read) by done. rewrite sort_by_idem, map_map. apply map_ext_in. intros y Hy. apply Hj.
    apply elem_of_list_In in Hy. by rewrite sort_by_perm in Hy.
  - destruct (last (of_kind k ovs)) as [x|] eqn:E; [|done]. cbn. f_equal. apply overlay_read_json. intros l. apply H.
    apply last_Some_elem_of, of_kind_elem in E. by destruct E.
Qed.

Section Bundle.
Variables said_ok digits lang_ok : string -> bool.
Variable standard_read : string -> option string.
Hypothesis Hd : forall s, digits s = true -> all_chars (fun c => negb (Ascii.eqb "." c)) s = true.
Definition cb_read (cb : capture_base) : capture_base :=
  CaptureBase (cb_said cb) (cb_stype cb) (sort_by fst (cb_attrs cb)) (cb_class cb) (sort_by id (cb_flagged cb)).
Definition bundle_read (B : bundle) : bundle := Bundle (b_said B) (cb_read (b_cb B)) (map ov_read (written_order (b_ovs B))).
Lemma cb_round cb : (forall s, cb_said cb = Some s -> said_ok s = true) -> NoDup (map fst (cb_attrs cb)) ->
  (forall n t, (n, t) ∈ cb_attrs cb -> nattr_ok said_ok t) -> cb_parse said_ok (cb_json cb) = Ok (cb_read cb).
Proof.
  intros Hs Hn Ht. unfold cb_json, cb_json_d, cb_parse, optional, required, field. cbn -[opt_parse imap_parse strs_json_parse jstrs sort_by].
  rewrite jopt_round by done. cbn [obind].
  change (JObj (map (fun kv : string * nattr => (kv.1, nattr_json kv.2)) (sort_by fst (cb_attrs cb)))) with (imap_json nattr_json (sort_by fst (cb_attrs cb))).
  rewrite (parse_pairs_round _ _ id); [|intros k v Hin; apply nattr_round, (Ht k); by rewrite sort_by_perm in Hin|by apply sort_fst_nodup].
  cbn [obind]. rewrite strs_ok. cbn [obind]. unfold cb_read. do 2 f_equal.
  transitivity (map (fun x : string * nattr => x) (sort_by fst (cb_attrs cb))); [|apply map_id]. apply map_ext. by intros [].
Qed.
Lemma bundle_round B : bundle_readable said_ok digits lang_ok B ->
  bundle_parse said_ok digits lang_ok standard_read (bundle_json B) = Ok (bundle_read B).
Proof.
  intros [Hs Hn Ht Ho]. unfold bundle_json, bundle_json_d, bundle_parse, optional, required, field. cbn -[opt_parse cb_parse cb_json overlays_json overlays_json_parse].
  rewrite jopt_round by (intros x Hx; apply Hs; by left). cbn [obind]. rewrite cb_round; [|intros x Hx; apply Hs; by right|done..]. cbn [obind].
  unfold overlays_json_parse, overlays_json, jmap. rewrite overlays_parse_ok; [done|done|]. intros s v ov Hin Hx. apply Ho. apply sorted_pairs_elem in Hin. by apply (vals_elem _ _ _ _ Hin Hx).
Qed.
Lemma bundle_read_json B : groups_sorted B -> bundle_json (bundle_read B) = bundle_json B.
Proof.
  intros H. unfold bundle_json, bundle_json_d. cbn [b_said b_cb b_ovs bundle_read]. f_equal. f_equal. f_equal.
  - f_equal. unfold cb_json, cb_json_d, cb_read. cbn. by rewrite !sort_by_idem.
  - f_equal. f_equal. apply overlays_read_json. exact H.
Qed.
End Bundle.
