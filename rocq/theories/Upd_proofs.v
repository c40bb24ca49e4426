(** What one setter call, merged back into the box, does to an attribute; which setter call a value means. *)
From Verif Require Import Spec_Build Bundle_proofs Box_proofs.

Definition upd_slot (u : upd) : slot :=
  match u with
  | UEnc _ => SPlain KCharacterEncoding | UConf _ => SPlain KConformance | UCond _ => SPlain KConditional
  | UCard _ => SPlain KCardinality | UFormat _ => SPlain KFormat | UUnit _ => SPlain KUnit
  | UCodes _ => SPlain KEntryCode | UEntry l _ => SLang KEntry l | ULabel l _ => SLang KLabel l
  | UInfo l _ => SLang KInformation l | ULink t _ => SLink t | UFrame id _ => SFrame id
  end.
Definition upd_datum (u : upd) : datum :=
  match u with
  | UEnc e => DEncoding e | UConf s => DText s | UCond s => DCondition (encode_condition s).1 (Some (encode_condition s).2)
  | UCard s => DText s | UFormat s => DText s | UUnit s => DText s | UCodes e => DCodes e | UEntry _ e => DEntries e
  | ULabel _ s => DLabel s None | UInfo _ s => DText s | ULink _ s => DText s | UFrame _ f => DFraming f
  end.
#[global] Instance slot_dec : EqDecision slot.
Proof. intros x y. unfold Decision. decide equality; try apply string_dec; apply okind_dec. Defined.

Lemma merge_map_self {V} (m : option (gmap string V)) : merge_map m m = m.
Proof. destruct m as [m|]; [|done]. simpl. f_equal. apply map_eq. intros k. rewrite lookup_union. by destruct (m !! k). Qed.
Lemma newer_self {V} (x : option V) : newer x x = x. Proof. by destruct x. Qed.
Lemma older_self {V} (x : option V) : older x x = x. Proof. by destruct x. Qed.
Lemma merge_deps_self (c : option string) (d : option (list string)) :
  match c with Some _ => d | None => d end = d.
Proof. by destruct c. Qed.
Lemma merge_self a : merge_fields a a = a.
Proof. unfold merge_fields. rewrite !merge_map_self, !newer_self, !older_self, merge_deps_self. by destruct a. Qed.
Lemma merge_map_insert {V} k (v : V) (m : option (gmap string V)) : merge_map m (insert_opt k v m) = insert_opt k v m.
Proof.
  destruct m as [m|]; [|done]. unfold merge_map, insert_opt. apply f_equal. apply map_eq. intros j. cbn [unwrap_or]. rewrite lookup_union.
  destruct (decide (j = k)) as [->|]; [rewrite lookup_insert; by destruct (m !! k)|].
  rewrite lookup_insert_ne by done. by destruct (m !! j).
Qed.
Lemma merge_upd u a : merge_fields a (upd_attr u a) =
  match u with
  | UUnit _ => if at_unit a then a else upd_attr u a
  | UCodes _ => if at_ecodes a then a else upd_attr u a
  | _ => upd_attr u a
  end.
Proof.
  destruct u; unfold merge_fields, upd_attr; cbn;
    rewrite ?merge_map_self, ?merge_map_insert, ?newer_self, ?older_self, ?merge_deps_self;
    try (destruct (at_unit a) eqn:E; cbn; rewrite ?E; destruct a; cbn in *; by subst);
    try (destruct (at_ecodes a) eqn:E; cbn; rewrite ?E; destruct a; cbn in *; by subst); done.
Qed.
Lemma lookup_insert_opt {V} k (v : V) m j : lookup_opt j (insert_opt k v m) = if decide (j = k) then Some v else lookup_opt j m.
Proof.
  unfold insert_opt, lookup_opt. destruct (decide (j = k)) as [->|]; [by rewrite lookup_insert|].
  rewrite lookup_insert_ne by done. destruct m; [done|]. cbn. apply lookup_empty.
Qed.
Lemma lookup_frames_insert id f fs j : lookup_opt j (Some (frames_insert id f fs)) =
  if decide (j = id) then Some (match lookup_opt id fs with Some g => f ∪ g | None => f end) else lookup_opt j fs.
Proof.
  unfold frames_insert, lookup_opt.
  assert (Hm : forall j, (unwrap_or ∅ fs : gmap string framing) !! j = match fs with Some m => m !! j | None => None end).
  { intros x. destruct fs; [done|]. cbn. apply lookup_empty. }
  rewrite Hm. destruct (match fs with Some m => m !! id | None => None end) as [g|]; (destruct (decide (j = id)) as [->|];
    [by rewrite lookup_insert|by rewrite lookup_insert_ne, Hm]).
Qed.
Lemma attr_datum_upd u a s : attr_datum (upd_attr u a) s =
  if decide (s = upd_slot u) then
    Some (match u with
          | ULabel l t => DLabel t (lookup_opt l (at_catlabels a))
          | UFrame id f => DFraming (match lookup_opt id (at_frames a) with Some g => f ∪ g | None => f end)
          | _ => upd_datum u end)
  else attr_datum a s.
Proof.
  destruct u; cbn [upd_slot upd_datum upd_attr];
    (destruct s as [k|k lng|t'|f']; [destruct k|destruct k| |]);
    cbn -[insert_opt lookup_opt frames_insert decide]; rewrite ?lookup_insert_opt, ?lookup_frames_insert;
    repeat (case_decide; simplify_eq); done.
Qed.
Definition cat_of (s : slot) (a : attribute) : option string :=
  match s with SLang KLabel l => lookup_opt l (at_catlabels a) | _ => None end.
Lemma merge_upd_datum u a s : attr_datum (merge_fields a (upd_attr u a)) s =
  if decide (s = upd_slot u) then Some (written s (attr_datum a s) (cat_of s a) (upd_datum u)) else attr_datum a s.
Proof.
  rewrite merge_upd.
  destruct u; try (rewrite attr_datum_upd; case_decide as E; [subst s|done]; cbn; try done).
  - destruct (at_unit a) eqn:E.
    + case_decide as E'; [subst s; cbn; by rewrite E|done].
    + rewrite attr_datum_upd. case_decide as E'; [subst s; cbn; by rewrite E|done].
  - destruct (at_ecodes a) eqn:E.
    + case_decide as E'; [subst s; cbn; by rewrite E|done].
    + rewrite attr_datum_upd. case_decide as E'; [subst s; cbn; by rewrite E|done].
  - by destruct (lookup_opt id (at_frames a)).
Qed.
Lemma upd_attr_same u a : at_name (upd_attr u a) = at_name a /\ at_type (upd_attr u a) = at_type a /\ at_flag (upd_attr u a) = at_flag a
  /\ at_catlabels (upd_attr u a) = at_catlabels a.
Proof. by destruct u. Qed.
Lemma merge_upd_same u a : let a' := merge_fields a (upd_attr u a) in
  at_name a' = at_name a /\ at_type a' = at_type a /\ at_flag a' = at_flag a /\ at_catlabels a' = at_catlabels a /\
  at_mapping a' = at_mapping a /\ at_ecmap a' = at_ecmap a /\ at_stds a' = at_stds a.
Proof. cbn zeta. rewrite merge_upd. destruct u; try done; [by destruct (at_unit a)|by destruct (at_ecodes a)]. Qed.

(** ** Values *)
Lemma imap_get_elem {V} k (v : V) m : imap_get k m = Some v -> (k, v) ∈ m.
Proof.
  induction m as [|[j w] m IH]; [done|]. simpl. destruct (String.eqb_spec k j) as [->|]; [intros [= ->]; left|right; auto].
Qed.
Lemma imap_get_nodup {V} k (v : V) m : NoDup (map fst m) -> (k, v) ∈ m -> imap_get k m = Some v.
Proof.
  induction m as [|[j w] m IH]; [by intros _ ?%elem_of_nil|]. simpl. intros [Hj Hm]%NoDup_cons Hin.
  apply elem_of_cons in Hin as [[= -> ->]|Hin]; [by rewrite String.eqb_refl|].
  destruct (String.eqb_spec k j) as [->|]; [|by apply IH]. exfalso. apply Hj. apply elem_of_list_fmap. by exists (j, v).
Qed.
Lemma imap_get_none {V} k (m : imap V) : imap_get k m = None <-> k ∉ map fst m.
Proof.
  induction m as [|[j w] m IH]; simpl; [split; [by intros _ ?%elem_of_nil|done]|].
  destruct (String.eqb_spec k j) as [->|Hn]; [split; [done|intros H; exfalso; apply H; left]|].
  rewrite IH. split; [intros H [->|H']%elem_of_cons; done|intros H H'; apply H; by right].
Qed.
Lemma cmd_lang_spec from1 p l : cmd_lang from1 p = Some l <-> lang_is from1 p l.
Proof.
  unfold cmd_lang, lang_is, has. split.
  - destruct p as [p|]; [|done]. destruct (imap_get "lang" p) as [[| s| |]|] eqn:E; try done. intros H. eauto 8.
  - intros (s & (q & -> & ->) & H). done.
Qed.
Lemma cmd_lang_none from1 p : cmd_lang from1 p = None <-> forall l, ~ lang_is from1 p l.
Proof.
  split.
  - intros E l H. apply cmd_lang_spec in H. congruence.
  - intros H. destruct (cmd_lang from1 p) as [l|] eqn:E; [|done]. apply cmd_lang_spec in E. by destruct (H l).
Qed.
Lemma link_target_spec p t : link_target p = Some t <-> target_is p t.
Proof.
  unfold link_target, target_is, has. split.
  - destruct p as [p|]; [|done]. destruct (imap_get "target" p) as [[[s|s]| | |]|] eqn:E; try done. intros [= ->]. eauto.
  - intros (q & -> & ->). done.
Qed.
Lemma link_target_none p : link_target p = None <-> forall t, ~ target_is p t.
Proof.
  split.
  - intros E l H. apply link_target_spec in H. congruence.
  - intros H. destruct (link_target p) as [l|] eqn:E; [|done]. apply link_target_spec in E. by destruct (H l).
Qed.
(** Folds that keep the last match, over a list with unique keys. *)
Lemma frame_id_fold l : forall acc, NoDup (map fst l) -> fold_left (fun acc (kv : string * nvalue) => match kv.2 with VVal s => if String.eqb kv.1 "id" then Some s else acc | _ => acc end) l acc =
  match imap_get "id" l with Some (VVal s) => Some s | _ => acc end.
Proof.
  induction l as [|[k v] l IH]; intros acc Hnd; [done|]. cbn [map fst] in Hnd. apply NoDup_cons in Hnd as [Hk Hnd].
  cbn [fold_left imap_get fst snd]. rewrite IH by done. destruct (String.eqb_spec "id" k) as [<-|Hne].
  - assert (E : imap_get "id" l = None) by by apply imap_get_none. rewrite E. destruct v; done.
  - rewrite (proj2 (String.eqb_neq k "id")) by congruence. by destruct v.
Qed.
Lemma frame_id_spec p id : values_ok p -> frame_id_of p = Some id <-> frame_is p id.
Proof.
  intros Hp. unfold frame_id_of, frame_is, has. destruct p as [p|]; cbn.
  - rewrite frame_id_fold by apply (Hp p eq_refl). split.
    + destruct (imap_get "id" p) as [[| s| |]|] eqn:E; try done. intros [= ->]. eauto.
    + intros (q & [= <-] & ->). done.
  - split; [done|]. by intros (q & ? & _).
Qed.
Lemma frame_id_none p : values_ok p -> frame_id_of p = None <-> forall id, ~ frame_is p id.
Proof.
  intros Hp. split.
  - intros E l H. apply frame_id_spec in H; [congruence|done].
  - intros H. destruct (frame_id_of p) as [l|] eqn:E; [|done]. apply frame_id_spec in E; [by destruct (H l)|done].
Qed.
(** The map folds. *)
Lemma fold_map_spec {V W} (g : string -> string) (f : string -> V -> option W) (l : imap V) :
  (forall x y, g x = g y -> x = y) -> NoDup (map fst l) -> forall (acc : gmap string W) k,
  fold_left (fun acc (kv : string * V) => match f kv.1 kv.2 with Some w => <[g kv.1 := w]> acc | None => acc end) l acc !! k =
  match List.find (fun kv => String.eqb (g kv.1) k && is_some_b (f kv.1 kv.2)) l with
  | Some kv => f kv.1 kv.2
  | None => acc !! k
  end.
Proof.
  intros Hg. induction l as [|[j v] l IH]; intros Hnd acc k; [done|].
  cbn [map fst] in Hnd. apply NoDup_cons in Hnd as [Hj Hnd]. cbn [fold_left List.find fst snd]. rewrite IH by done.
  destruct (f j v) as [w|] eqn:Ef; [|by rewrite andb_false_r].
  cbn [is_some_b]. rewrite andb_true_r. destruct (String.eqb_spec (g j) k) as [<-|Hne].
  - destruct (List.find (fun kv => String.eqb (g kv.1) (g j) && is_some_b (f kv.1 kv.2)) l) as [kv|] eqn:E.
    + exfalso. apply find_some in E as [Hin E]. apply andb_true_iff in E as [E _]. apply String.eqb_eq in E. apply Hg in E.
      apply Hj. rewrite <- E. apply elem_of_list_fmap. exists kv. split; [done|by apply elem_of_list_In].
    + by rewrite lookup_insert.
  - destruct (List.find (fun kv => String.eqb (g kv.1) k && is_some_b (f kv.1 kv.2)) l); [done|]. by rewrite lookup_insert_ne.
Qed.
Lemma fold_map_lookup {V W} (g : string -> string) (f : string -> V -> option W) (l : imap V) k w :
  (forall x y, g x = g y -> x = y) -> NoDup (map fst l) ->
  fold_left (fun acc (kv : string * V) => match f kv.1 kv.2 with Some w => <[g kv.1 := w]> acc | None => acc end) l (∅ : gmap string W) !! k = Some w <->
  exists j v, k = g j /\ imap_get j l = Some v /\ f j v = Some w.
Proof.
  intros Hg Hnd. rewrite (fold_map_spec g f l Hg Hnd). split.
  - destruct (List.find _ l) as [[j v]|] eqn:E; [|by rewrite lookup_empty].
    apply find_some in E as [Hin E]. apply andb_true_iff in E as [E _]. apply String.eqb_eq in E. cbn in *.
    intros Hf. exists j, v. split; [done|]. split; [|done]. apply imap_get_nodup; [done|]. by apply elem_of_list_In.
  - intros (j & v & -> & Hget & Hf).
    destruct (List.find _ l) as [[j' v']|] eqn:E.
    + apply find_some in E as [Hin E]. apply andb_true_iff in E as [E _]. apply String.eqb_eq in E. cbn in *. apply Hg in E as ->.
      assert (imap_get j l = Some v') by (apply imap_get_nodup; [done|by apply elem_of_list_In]). congruence.
    + exfalso. apply find_none with (x := (j, v)) in E; [|apply elem_of_list_In; by apply imap_get_elem].
      cbn in E. by rewrite String.eqb_refl, Hf in E.
Qed.
Lemma fold_left_ext {A B} (f g : A -> B -> A) l : (forall a b, f a b = g a b) -> forall a, fold_left f l a = fold_left g l a.
Proof. intros H. induction l as [|x l IH]; intros a; [done|]. cbn. by rewrite H, IH. Qed.
Lemma entries_of_spec e k t : NoDup (map fst e) -> entries_of e !! k = Some t <-> imap_get k e = Some (VVal t).
Proof.
  intros Hnd. unfold entries_of.
  rewrite (fold_left_ext _ (fun acc (kv : string * nvalue) => match (match kv.2 with VVal s => Some s | _ => None end) with Some w => <[kv.1 := w]> acc | None => acc end))
    by (intros a [? []]; done).
  rewrite (fold_map_lookup (fun x => x) (fun _ v => match v with VVal s => Some s | _ => None end)) by done. split.
  - intros (j & v & -> & H & Hv). destruct v; try done. by injection Hv as ->.
  - intros H. exists k, (VVal t). done.
Qed.
Lemma frame_prefix_inj x y : ("frame_" +:+ x)%string = ("frame_" +:+ y)%string -> x = y.
Proof. by intros [= ->]. Qed.
Lemma frame_meta_spec p k v : values_ok p -> frame_meta_props p !! k = Some v <->
  exists k', k = ("frame_" +:+ k')%string /\ k' <> "id" /\ has p k' (VVal v).
Proof.
  intros Hp. unfold frame_meta_props.
  rewrite (fold_left_ext _ (fun acc (kv : string * nvalue) =>
    match (match kv.2 with VVal s => if String.eqb kv.1 "id" then None else Some s | _ => None end) with Some w => <[("frame_" +:+ kv.1)%string := w]> acc | None => acc end))
    by (intros a [? []]; cbn; try done; by destruct (String.eqb _ _)).
  rewrite (fold_map_lookup (fun x => ("frame_" +:+ x)%string) (fun j v => match v with VVal s => if String.eqb j "id" then None else Some s | _ => None end)).
  2: exact frame_prefix_inj.
  2: { destruct p as [p|]; cbn; [apply (Hp p eq_refl)|constructor]. }
  unfold has. split.
  - intros (j & x & -> & H & Hv). destruct x; try done. destruct (String.eqb_spec j "id"); [done|]. injection Hv as ->.
    exists j. split; [done|]. split; [done|]. destruct p; [eauto|done].
  - intros (j & -> & Hne & l & -> & Hg). exists j, (VVal v). split; [done|]. split; [done|]. by rewrite (proj2 (String.eqb_neq j "id")).
Qed.
Lemma framing_of_spec meta l sc x : NoDup (map fst l) -> framing_of meta l !! sc = Some x <->
  exists o pr j, imap_get sc l = Some (VObj o) /\ imap_get "predicate_id" o = Some (VVal pr) /\
    imap_get "framing_justification" o = Some (VVal j) /\ x = FScope pr j meta.
Proof.
  intros Hnd. unfold framing_of.
  set (f := fun (_ : string) v => match v with
    | VObj f => match imap_get "predicate_id" f, imap_get "framing_justification" f with
                | Some (VVal p), Some (VVal j) => Some (FScope p j meta) | _, _ => None end
    | _ => None end).
  rewrite (fold_left_ext _ (fun acc (kv : string * nvalue) => match f kv.1 kv.2 with Some w => <[kv.1 := w]> acc | None => acc end)).
  2: { intros a [? []]; try done. cbn. destruct (imap_get "predicate_id" l0) as [[]|]; try done. by destruct (imap_get "framing_justification" l0) as [[]|]. }
  rewrite (fold_map_lookup (fun x => x) f) by done. split.
  - intros (j & v & -> & H & Hv). destruct v as [| |o|]; try done. cbn in Hv.
    destruct (imap_get "predicate_id" o) as [[| p| |]|] eqn:E1; try done.
    destruct (imap_get "framing_justification" o) as [[| q| |]|] eqn:E2; try done. injection Hv as <-. eauto 10.
  - intros (o & pr & j & H & H1 & H2 & ->). exists sc, (VObj o). split; [done|]. split; [done|]. cbn. by rewrite H1, H2.
Qed.
Lemma groups_fun l r : groups l r -> r = omap (fun kv => match kv.2 with VArr vs => Some (kv.1, strings_of vs) | _ => None end) l.
Proof.
  induction 1 as [|k vs ts l r Ht Hg IH|k v l r Hv Hg IH]; [done| |].
  - cbn. rewrite Ht, <- IH. done.
  - cbn. destruct v; try done. by destruct (Hv l0).
Qed.
Lemma groups_of_eq l : NoDup (map fst l) ->
  groups_of l = omap (fun kv => match kv.2 with VArr vs => Some (kv.1, strings_of vs) | _ => None end) l.
Proof.
  intros Hnd. unfold groups_of.
  enough (G : forall acc, (forall k, k ∈ map fst l -> k ∉ map fst acc) ->
    fold_left (fun acc (kv : string * nvalue) => match kv.2 with VArr vs => imap_insert kv.1 (strings_of vs) acc | _ => acc end) l acc =
    acc ++ omap (fun kv => match kv.2 with VArr vs => Some (kv.1, strings_of vs) | _ => None end) l).
  { rewrite G; [done|]. intros k _ H. by apply elem_of_nil in H. }
  induction l as [|[k v] l IH]; intros acc Hd; [cbn; by rewrite app_nil_r|].
  cbn [map fst] in Hnd. apply NoDup_cons in Hnd as [Hk Hnd]. cbn [fold_left fst snd].
  destruct v as [r|s|o|vs]; try (cbn; apply IH; [done|]; intros j Hj; apply Hd; by right).
  rewrite IH; [|done|].
  - rewrite imap_insert_fresh by (apply Hd; left). cbn. by rewrite <- app_assoc.
  - intros j Hj. rewrite imap_insert_fresh by (apply Hd; left). rewrite map_app. intros [H|H]%elem_of_app.
    + revert H. apply Hd. by right.
    + apply elem_of_list_singleton in H as ->. done.
Qed.
Lemma groups_exists l : groups l (omap (fun kv => match kv.2 with VArr vs => Some (kv.1, strings_of vs) | _ => None end) l).
Proof.
  induction l as [|[k v] l IH]; [constructor|]. destruct v; cbn; try (apply g_skip; [done|exact IH]). constructor; done.
Qed.
Lemma nvalue_ok_obj l : nvalue_ok (VObj l) -> NoDup (map fst l). Proof. by intros [? _]. Qed.
Lemma encoding_str_inv e : encoding_of_str (encoding_str e) = Some e. Proof. by destruct e. Qed.
Lemma encoding_of_inv s e : encoding_of_str s = Some e -> s = encoding_str e.
Proof.
  unfold encoding_of_str. repeat (match goal with |- context[String.eqb ?a ?b] => destruct (String.eqb_spec a b) as [->|] end; [by intros [= <-]|]). done.
Qed.

Section Values.
Variable from1 : string -> option string.
Lemma upd_says k p v u : nvalue_ok v -> values_ok p -> value_upd from1 k p v = Ok (Some u) -> says from1 k p v (upd_slot u) (upd_datum u).
Proof.
  intros Hv Hp. unfold value_upd, need. destruct k; destruct v as [r|s|o|vs]; try done;
    try (destruct (cmd_lang from1 p) as [l|] eqn:E; [apply cmd_lang_spec in E|done]); try (intros [= <-]).
  all: try by constructor.
  - destruct (encoding_of_str s) as [e|] eqn:E; [|done]. intros [= <-]. apply encoding_of_inv in E as ->. apply says_enc.
  - cbn. apply says_code_obj. rewrite groups_of_eq by by apply nvalue_ok_obj. apply groups_exists.
  - cbn. apply says_entry_obj; [done|]. intros k t. apply entries_of_spec. by apply nvalue_ok_obj.
  - destruct (link_target p) as [t|] eqn:E; [|done]. intros [= <-]. apply link_target_spec in E. by constructor.
  - destruct (frame_id_of p) as [t|] eqn:E; [|done]. intros [= <-]. apply frame_id_spec in E; [|done].
    cbn. eapply says_frame; [done| |].
    + intros k w. by apply frame_meta_spec.
    + intros sc x. apply framing_of_spec. by apply nvalue_ok_obj.
Qed.
Lemma says_upd k p v s d : nvalue_ok v -> values_ok p -> says from1 k p v s d ->
  exists u, value_upd from1 k p v = Ok (Some u) /\ upd_slot u = s /\ upd_datum u = d.
Proof.
  intros Hv Hp H. destruct H as [p l s H|p l s H|p e|p s|p s|p s|p s|p s|p s|p l ts H|p l gs H|p l s H|p l e m H Hm|p t s H|p id l meta f H Hm Hf];
    cbn [value_upd]; try (apply cmd_lang_spec in H; rewrite H); try (eexists; split; [reflexivity|done]).
  - rewrite encoding_str_inv. by eexists.
  - eexists. split; [reflexivity|]. unfold texts in H. subst. done.
  - eexists. split; [reflexivity|]. rewrite groups_of_eq by by apply nvalue_ok_obj. apply groups_fun in H as ->. done.
  - eexists. split; [reflexivity|]. split; [done|]. cbn. repeat f_equal. apply map_eq. intros k. apply option_eq. intros t.
    rewrite Hm. apply entries_of_spec. by apply nvalue_ok_obj.
  - apply link_target_spec in H. rewrite H. by eexists.
  - apply frame_id_spec in H; [|done]. rewrite H. eexists. split; [reflexivity|]. split; [done|]. cbn. f_equal.
    assert (E : frame_meta_props p = meta). { apply map_eq. intros k. apply option_eq. intros w. rewrite Hm. by apply frame_meta_spec. }
    unfold framing in *. apply map_eq. intros sc. apply option_eq. intros x. rewrite Hf, E. apply framing_of_spec. by apply nvalue_ok_obj.
Qed.
Lemma value_lacks k p v : values_ok p -> value_upd from1 k p v = Panic <-> lacks from1 k p v.
Proof.
  intros Hp. split.
  - unfold value_upd, need. destruct k; destruct v as [r|s|o|vs]; try done;
      try (destruct (cmd_lang from1 p) as [l|] eqn:E; [done|pose proof (proj1 (cmd_lang_none _ _) E) as E0; intros _; apply lacks_lang; [repeat (first [by left | right])|done]]).
    + by destruct (encoding_of_str s).
    + destruct (cmd_lang from1 p) as [l|] eqn:E; [done|pose proof (proj1 (cmd_lang_none _ _) E) as E0; intros _; by apply lacks_lang_obj].
    + destruct (link_target p) as [t|] eqn:E; [done|]. intros _. pose proof (proj1 (link_target_none _) E) as E0. by constructor.
    + destruct (frame_id_of p) as [t|] eqn:E; [done|]. intros _. pose proof (proj1 (frame_id_none _ Hp) E) as E0. by constructor.
  - intros Hl. revert Hp. destruct Hl as [k' p' s Hk H|p' e H|p' s H|p' l H]; intros Hp'.
    + apply (proj2 (cmd_lang_none _ _)) in H. assert (k' = KLabel \/ k' = KInformation \/ k' = KEntry) as [ -> |[ -> | -> ]] by set_solver; cbn; by rewrite H.
    + apply (proj2 (cmd_lang_none _ _)) in H. cbn. by rewrite H.
    + apply (proj2 (link_target_none _)) in H. cbn. by rewrite H.
    + apply (proj2 (frame_id_none _ Hp')) in H. cbn. by rewrite H.
Qed.
Lemma value_err k p v es : value_upd from1 k p v = Err es <->
  k = KCharacterEncoding /\ exists s, v = VVal s /\ (forall e, s <> encoding_str e) /\ es = [("Unknown encoding: " +:+ s)%string].
Proof.
  split.
  - unfold value_upd, need. destruct k; destruct v as [r|s|o|vs]; try done;
      try (by destruct (cmd_lang from1 p)); try (by destruct (link_target p)); try (by destruct (frame_id_of p)).
    destruct (encoding_of_str s) as [e|] eqn:E; [done|]. intros [= <-]. split; [done|]. exists s. split; [done|]. split; [|done].
    intros e ->. by rewrite encoding_str_inv in E.
  - intros (-> & s & -> & H & ->). cbn. destruct (encoding_of_str s) as [e|] eqn:E; [|done]. apply encoding_of_inv in E. by destruct (H e).
Qed.
Lemma value_none k p v : nvalue_ok v -> values_ok p -> value_upd from1 k p v = Ok None -> forall s d, ~ says from1 k p v s d.
Proof. intros Hv Hp E s d H. destruct (says_upd _ _ _ _ _ Hv Hp H) as (u & E' & _). congruence. Qed.
End Values.
