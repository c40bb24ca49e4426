(** Proofs for C60. *)
From Verif Require Import Base Ast Bundle Spec_Bundle Build Spec_Build Upd_proofs Effect_proofs Command_proofs Bundle_proofs Box_proofs Load_proofs Equality_proofs Spec_Independent.
From Verif Require Run_proofs Build_proofs.
Local Open Scope list_scope.

(** What an accepted command does to each part of a box. *)
Definition attr_step from1 (c : command) (n : string) (o : option attribute) : option attribute :=
  match cmd_kind c, cmd_obj c with
  | CAdd, OCaptureBase cc => match imap_get n (unwrap_or [] (cc_attrs cc)) with
      | Some t => Some (match o with Some a => set_type t a | None => set_type t (attr_new n) end) | None => o end
  | CRemove, OCaptureBase cc => if decide (n ∈ map fst (unwrap_or [] (cc_attrs cc))) then None else o
  | CAdd, OOverlay t ct => if loops (ot_kind t) then match o, imap_get n (unwrap_or [] (ct_attrs ct)) with Some a, Some v => Some (eff from1 (ot_kind t) (ct_props ct) v a) | x, _ => x end else o
  | _, _ => o
  end.
Definition class_step (c : command) (o : option string) : option string :=
  match cmd_kind c, cmd_obj c with
  | CAdd, OCaptureBase cc => match imap_get "classification" (unwrap_or [] (cc_props cc)) with Some (VVal s) => Some s | _ => o end
  | CRemove, OCaptureBase cc => if imap_mem "classification" (unwrap_or [] (cc_props cc)) then None else o
  | _, _ => o
  end.
Definition metas_of from1 (c : command) : option (string * list (string * nvalue)) :=
  match cmd_kind c, cmd_obj c with
  | CAdd, OOverlay t ct => match ot_kind t, ct_props ct with KMeta, Some p => match cmd_lang from1 (ct_props ct) with Some x => Some (x, imap_remove "lang" p) | None => None end | _, _ => None end
  | _, _ => None
  end.
Definition meta_step from1 (c : command) (b : obox) : obox :=
  match metas_of from1 c with
  | Some (x, l) => fold_left (fun b (kv : string * nvalue) => match kv.2 with VVal s => add_meta x kv.1 s b | _ => b end) l b
  | None => b
  end.
(** Whether it is accepted, and what it reports. *)
Definition verdict {A} (r : outcome A) : outcome unit := match r with Ok _ => Ok tt | Err es => Err es | Panic => Panic end.
Lemma fold_meta_same x l : forall b b', bx_meta b = bx_meta b' ->
  bx_meta (fold_left (fun b (kv : string * nvalue) => match kv.2 with VVal s => add_meta x kv.1 s b | _ => b end) l b) =
  bx_meta (fold_left (fun b (kv : string * nvalue) => match kv.2 with VVal s => add_meta x kv.1 s b | _ => b end) l b').
Proof. induction l as [|[k v] l IH]; intros b b' E; [done|]. cbn [fold_left fst snd]. apply IH. destruct v; try done. unfold add_meta. cbn. by rewrite E. Qed.
Lemma fold_meta_frame x l : forall b, let b' := fold_left (fun b (kv : string * nvalue) => match kv.2 with VVal s => add_meta x kv.1 s b | _ => b end) l b in
  bx_attrs b' = bx_attrs b /\ bx_maps b' = bx_maps b /\ bx_class b' = bx_class b.
Proof. induction l as [|[k v] l IH]; intros b; [done|]. cbn [fold_left fst snd]. cbv zeta in *. destruct (IH match v with VVal s => add_meta x k s b | _ => b end) as (-> & -> & ->). by destruct v. Qed.
Lemma meta_step_frame from1 c b : bx_attrs (meta_step from1 c b) = bx_attrs b /\ bx_maps (meta_step from1 c b) = bx_maps b /\ bx_class (meta_step from1 c b) = bx_class b.
Proof. unfold meta_step. destruct (metas_of from1 c) as [[x l]|]; [apply fold_meta_frame|done]. Qed.
Lemma meta_step_same from1 c b b' : bx_meta b = bx_meta b' -> bx_meta (meta_step from1 c b) = bx_meta (meta_step from1 c b').
Proof. intros E. unfold meta_step. destruct (metas_of from1 c) as [[x l]|]; [by apply fold_meta_same|done]. Qed.

Lemma nodup_opt {V} (m : option (list (string * V))) : (forall l, m = Some l -> NoDup (map fst l)) -> NoDup (map fst (unwrap_or [] m)).
Proof. intros H. destruct m as [l|]; [by apply H|constructor]. Qed.
Lemma apply_parts from1 b c b' : names_ok b -> command_ok c -> apply_command from1 (Some b) c = Ok b' ->
  (forall n, bx_attrs b' !! n = attr_step from1 c n (bx_attrs b !! n)) /\ bx_maps b' = bx_maps b /\
  bx_meta b' = bx_meta (meta_step from1 c b) /\ bx_class b' = class_step c (bx_class b).
Proof.
  intros Hb Hc. unfold apply_command, attr_step, meta_step, metas_of, class_step, command_ok in *. cbn [unwrap_or]. destruct (cmd_kind c); try done.
  - destruct (cmd_obj c) as [a|a|t a]; try done.
    + intros [= <-]. unfold add_capture. destruct Hc as [Ha Hp]. set (b1 := fold_left _ (unwrap_or [] (cc_attrs a)) b).
      destruct (add_capture_attrs (unwrap_or [] (cc_attrs a)) b Hb (nodup_opt _ Ha)) as (A1 & A2 & A3 & A4). fold b1 in A1, A2, A3, A4.
      destruct (add_capture_class (unwrap_or [] (cc_props a)) b1) as (B1 & B2 & B3 & B4); [apply nodup_opt; intros l E; by apply (Hp l)|].
      split; [intros n; rewrite B1; apply A4|]. rewrite B2, B3, B4, A1, A2, A3. done.
    + destruct Hc as [Ha Hp]. destruct (decide (ot_kind t = KMeta)) as [E|Hm].
      * rewrite E. unfold add_overlay. cbn [loops]. destruct (ct_props a) as [p|] eqn:Ep; [|by intros [= <-]]. destruct (cmd_lang from1 (Some p)) as [x|].
        -- rewrite add_metas_some. intros [= <-]. destruct (fold_meta_frame x (imap_remove "lang" p) b) as (A1 & A2 & A3). split; [intros n; by rewrite A1|done].
        -- rewrite add_metas_none. destruct (forallb _ _); [|done]. by intros [= <-].
      * assert (E : add_overlay from1 (ot_kind t) a b = if loops (ot_kind t) then upd_attrs from1 (pre_errors (ot_kind t) (ct_props a)) (ot_kind t) (ct_props a) (unwrap_or [] (ct_attrs a)) b else Ok b) by (by destruct (ot_kind t)).
        rewrite E. match goal with |- context [bx_meta match ?X with Some _ => _ | None => _ end] => assert (M : X = None) by (by destruct (ot_kind t)); rewrite M end. destruct (loops (ot_kind t)); [|by intros [= <-]]. intros H. assert (N : NoDup (map fst (unwrap_or [] (ct_attrs a)))) by (apply nodup_opt; intros l El; by apply (Ha l)).
        destruct (upd_attrs_effect from1 _ _ _ _ b b' Hb N H) as (A1 & A2 & A3 & A4). split; [|done]. intros n. rewrite A4. unfold eff_at. destruct (bx_attrs b !! n); [|done]. by destruct (imap_get n _).
  - destruct (cmd_obj c) as [a|a|t a]; try done. intros [= <-]. unfold remove_capture. set (b1 := fold_left _ (unwrap_or [] (cc_attrs a)) b).
    destruct (remove_capture_attrs (unwrap_or [] (cc_attrs a)) b) as (A1 & A2 & A3 & A4). fold b1 in A1, A2, A3, A4.
    destruct (remove_capture_class (unwrap_or [] (cc_props a)) b1) as (B1 & B2 & B3 & B4). split; [intros n; rewrite B1; apply A4|]. rewrite B2, B3, B4, A1, A2, A3. done.
Qed.
(** The verdict depends only on which of the named attributes exist. *)
Lemma upd_attrs_verdict from1 k p l : forall errs b b', names_ok b -> names_ok b' -> (forall n v, (n, v) ∈ l -> is_Some (bx_attrs b !! n) <-> is_Some (bx_attrs b' !! n)) ->
  verdict (upd_attrs from1 errs k p l b) = verdict (upd_attrs from1 errs k p l b').
Proof.
  induction l as [|[n v] l IH]; intros errs b b' Hb Hb' H; [cbn [upd_attrs]; by destruct errs|]. rewrite !upd_attrs_step by done. specialize (H n v ltac:(left)) as Hn.
  destruct (bx_attrs b !! n) as [a|] eqn:E, (bx_attrs b' !! n) as [a'|] eqn:E'; [|destruct Hn as [Hn _]; by destruct (Hn ltac:(eauto))|destruct Hn as [_ Hn]; by destruct (Hn ltac:(eauto))|done].
  assert (G : forall x x', at_name x = n -> at_name x' = n -> verdict (upd_attrs from1 errs k p l (put_attr n x b)) = verdict (upd_attrs from1 errs k p l (put_attr n x' b'))).
  { intros x x' Hx Hx'. apply IH; [by apply put_names..|]. intros m w Hin. cbn. destruct (decide (m = n)) as [->|Hne]; [by rewrite !lookup_insert|]. rewrite !lookup_insert_ne by done. apply (H m w). by right. }
  destruct (value_upd from1 k p v) as [[u|]|e|]; try done; apply G; rewrite ?eff_name; try (by apply Hb); by apply Hb'.
Qed.

Lemma apply_verdict from1 b b' c : names_ok b -> names_ok b' ->
  (forall n v, touches from1 c (Named n) -> has (match cmd_obj c with OOverlay _ ct => ct_attrs ct | _ => None end) n v -> is_Some (bx_attrs b !! n) <-> is_Some (bx_attrs b' !! n)) -> command_ok c ->
  verdict (apply_command from1 (Some b) c) = verdict (apply_command from1 (Some b') c).
Proof.
  intros Hb Hb' H Hc. unfold apply_command, command_ok in *. cbn [unwrap_or]. destruct c as [ck ob]. cbn [cmd_kind cmd_obj] in *. destruct ck, ob as [a|a|t a]; try done.
  destruct Hc as [Ha _]. destruct (decide (ot_kind t = KMeta)) as [E|Hm].
  - rewrite E. unfold add_overlay. destruct (ct_props a) as [p|] eqn:Ep; [|done]. destruct (cmd_lang from1 (Some p)) as [x|]; [by rewrite !add_metas_some|]. rewrite !add_metas_none. by destruct (forallb _ _).
  - assert (E : forall b, add_overlay from1 (ot_kind t) a b = if loops (ot_kind t) then upd_attrs from1 (pre_errors (ot_kind t) (ct_props a)) (ot_kind t) (ct_props a) (unwrap_or [] (ct_attrs a)) b else Ok b) by (intros ?; by destruct (ot_kind t)).
    rewrite !E. destruct (loops (ot_kind t)) eqn:El; [|done]. apply upd_attrs_verdict; [done..|]. intros n v Hin. destruct (ct_attrs a) as [l|] eqn:Ea; [|by apply elem_of_nil in Hin]. cbn in Hin.
    destruct (Ha l eq_refl) as [Hn _]. assert (Hh : has (ct_attrs a) n v). { exists l. split; [done|]. by apply imap_get_nodup. }
    apply (H n v); [|by rewrite <- Ea]. apply (t_names from1 CAdd t a n v); [by apply loops_kinds|done].
Qed.

(** Different slots of an attribute are set in either order. *)
Lemma frames_comm id f id' f' fs : id <> id' -> frames_insert id' f' (Some (frames_insert id f fs)) = frames_insert id f (Some (frames_insert id' f' fs)).
Proof.
  intros H. assert (L : forall i g m j, frames_insert i g m !! j = if decide (j = i) then Some (match lookup_opt i m with Some h => g ∪ h | None => g end) else lookup_opt j m).
  { intros i g m j. exact (lookup_frames_insert i g m j). }
  apply map_eq. intros j. rewrite !L. unfold lookup_opt at 1 2 3 4. rewrite !L. destruct (decide (j = id')) as [E|N], (decide (j = id)) as [E'|N']; subst; try done; rewrite ?decide_False by congruence; try done.
Qed.
Lemma upd_comm u u' a : upd_slot u <> upd_slot u' -> merge_fields (merge_fields a (upd_attr u a)) (upd_attr u' (merge_fields a (upd_attr u a))) =
  merge_fields (merge_fields a (upd_attr u' a)) (upd_attr u (merge_fields a (upd_attr u' a))).
Proof.
  intros H. rewrite !merge_upd. destruct (at_unit a) eqn:Eu, (at_ecodes a) eqn:Ee; destruct u, u'; cbn [upd_slot] in H; try done; cbn [upd_attr];
  unfold set_encoding, set_conformance, set_condition, set_cardinality, set_format, set_unit, set_ecodes, set_label, set_info, set_entry, set_link, set_framing; cbn;
  rewrite ?Eu, ?Ee; cbn; rewrite ?Eu, ?Ee; try reflexivity.
  all: f_equal; unfold insert_opt; cbn; f_equal; first [apply insert_commute; congruence|apply frames_comm; congruence].
Qed.

Section Commute.
Variable from1 : string -> option string.
(** At each attribute a command does nothing, or touches it, or names it and updates a slot it touches. *)
Lemma attr_step_cases c n : command_ok c -> (forall o, attr_step from1 c n o = o) \/ touches from1 c (TheAttr n) \/
  (touches from1 c (Named n) /\ exists u, touches from1 c (TheSlot n (upd_slot u)) /\ forall o, attr_step from1 c n o = (fun a => merge_fields a (upd_attr u a)) <$> o).
Proof.
  intros Hc. destruct c as [ck ob]. unfold attr_step, command_ok in *. cbn [cmd_kind cmd_obj] in *. destruct ck, ob as [a|a|t a]; try (by left).
  - destruct (cc_attrs a) as [l|] eqn:E; [|by left]. cbn. destruct (imap_get n l) as [v|] eqn:G; [|by left]. right. left. apply (t_declares from1 CAdd a l n E).
    apply imap_get_elem in G. apply elem_of_list_fmap. by exists (n, v).
  - destruct Hc as [Ha Hp]. destruct (loops (ot_kind t)) eqn:El; [|by left]. destruct (ct_attrs a) as [l|] eqn:E; [|by left; intros [x|]]. cbn. destruct (imap_get n l) as [v|] eqn:G; [|by left; intros [x|]].
    assert (Hh : has (ct_attrs a) n v) by (exists l; by rewrite E). destruct (Ha l eq_refl) as [_ Hv]. specialize (Hv n v G). unfold eff.
    destruct (value_upd from1 (ot_kind t) (ct_props a) v) as [[u|]|e|] eqn:Ev; [|by left; intros [x|]..]. right. right.
    split; [apply (t_names from1 CAdd t a n v); [by apply loops_kinds|done]|]. exists u. split; [|by intros [x|]].
    apply (t_slot from1 CAdd t a n v _ (upd_datum u) Hh). by apply upd_says.
  - destruct (decide _) as [Hi|]; [|by left]. right. left. destruct (cc_attrs a) as [l|] eqn:E; [|by apply elem_of_nil in Hi]. by apply (t_declares from1 CRemove a l n).
Qed.
Lemma attr_step_comm c c' n o : command_ok c -> command_ok c' -> independent from1 c c' -> attr_step from1 c' n (attr_step from1 c n o) = attr_step from1 c n (attr_step from1 c' n o).
Proof.
  intros Hc Hc' Hi. destruct (attr_step_cases c n Hc) as [E|[T|(T & u & S & E)]]; [by rewrite !E| |].
  - destruct (attr_step_cases c' n Hc') as [E'|[T'|(T' & _)]]; [by rewrite !E'| |]; exfalso; exact (Hi _ _ T T' ltac:(constructor)).
  - destruct (attr_step_cases c' n Hc') as [E'|[T'|(T' & u' & S' & E')]]; [by rewrite !E'|exfalso; exact (Hi _ _ T T' ltac:(constructor))|].
    rewrite !E, !E'. destruct o as [a|]; [|done]. cbn. f_equal. apply upd_comm. intros X. rewrite X in S. exact (Hi _ _ S S' ltac:(constructor)).
Qed.
Lemma attr_step_some c n o : command_ok c -> ~ touches from1 c (TheAttr n) -> is_Some (attr_step from1 c n o) <-> is_Some o.
Proof. intros Hc Ht. destruct (attr_step_cases c n Hc) as [->|[T|(_ & u & _ & ->)]]; [done|done|]. by rewrite fmap_is_Some. Qed.
Lemma class_step_cases c : (forall o, class_step c o = o) \/ touches from1 c TheClass.
Proof.
  destruct c as [ck ob]. unfold class_step. cbn [cmd_kind cmd_obj]. destruct ck, ob as [a|a|t a]; try (by left).
  - destruct (imap_get "classification" (unwrap_or [] (cc_props a))) as [v|] eqn:E; [|by left]. right. destruct (cc_props a) as [l|] eqn:Ep; [|done]. apply (t_class from1 CAdd a v). by exists l.
  - rewrite imap_mem_get. destruct (imap_get "classification" (unwrap_or [] (cc_props a))) as [v|] eqn:E; [|by left]. right. destruct (cc_props a) as [l|] eqn:Ep; [|done]. apply (t_class from1 CRemove a v). by exists l.
Qed.
Lemma class_step_comm c c' o : independent from1 c c' -> class_step c' (class_step c o) = class_step c (class_step c' o).
Proof.
  intros Hi. destruct (class_step_cases c) as [E|T]; [by rewrite !E|]. destruct (class_step_cases c') as [E'|T']; [by rewrite !E'|]. exfalso. exact (Hi _ _ T T' ltac:(constructor)).
Qed.
Lemma add_meta_comm' x k s x' k' s' b : (x, k) <> (x', k') -> add_meta x' k' s' (add_meta x k s b) = add_meta x k s (add_meta x' k' s' b).
Proof.
  intros Hne. destruct (decide (x = x')) as [->|Hx]; [apply add_meta_comm; congruence|]. unfold add_meta. cbn. f_equal. f_equal.
  rewrite !lookup_insert_ne by congruence. by apply insert_commute.
Qed.
Lemma metas_touch c x l k s : command_ok c -> metas_of from1 c = Some (x, l) -> (k, VVal s) ∈ l -> touches from1 c (TheMeta x k).
Proof.
  intros Hc. destruct c as [ck ob]. unfold metas_of, command_ok in *. cbn [cmd_kind cmd_obj] in *. destruct ck, ob as [a|a|t a]; try done. destruct Hc as [_ Hp].
  destruct (ot_kind t) eqn:Ek; try done. destruct (ct_props a) as [p|] eqn:Ep; [|done]. destruct (cmd_lang from1 (Some p)) as [y|] eqn:El; [|done]. intros [= <- <-] Hin.
  apply elem_of_list_In, filter_In in Hin as [Hin Hk]. apply elem_of_list_In in Hin. cbn in Hk. apply negb_true_iff, String.eqb_neq in Hk. destruct (Hp p eq_refl) as [Hn _].
  apply (t_meta from1 CAdd t a y k s Ek); [rewrite Ep; by apply cmd_lang_spec|congruence|]. exists p. split; [done|]. by apply imap_get_nodup.
Qed.
Lemma meta_step_comm c c' b : command_ok c -> command_ok c' -> independent from1 c c' -> meta_step from1 c' (meta_step from1 c b) = meta_step from1 c (meta_step from1 c' b).
Proof.
  intros Hc Hc' Hi. unfold meta_step. destruct (metas_of from1 c) as [[x l]|] eqn:E; [|done]. destruct (metas_of from1 c') as [[x' l']|] eqn:E'; [|done].
  assert (H : forall k s k' s', (k, VVal s) ∈ l -> (k', VVal s') ∈ l' -> (x, k) <> (x', k')).
  { intros k s k' s' H1 H2 X. injection X as <- <-. exact (Hi _ _ (metas_touch _ _ _ _ _ Hc E H1) (metas_touch _ _ _ _ _ Hc' E' H2) ltac:(constructor)). }
  clear -H. set (f := fun y (b : obox) (kv : string * nvalue) => match kv.2 with VVal s => add_meta y kv.1 s b | _ => b end).
  change (fold_left (f x') l' (fold_left (f x) l b) = fold_left (f x) l (fold_left (f x') l' b)).
  assert (G : forall l' k v, (forall s k' s', v = VVal s -> (k', VVal s') ∈ l' -> (x, k) <> (x', k')) -> forall b, fold_left (f x') l' (f x b (k, v)) = f x (fold_left (f x') l' b) (k, v)).
  { clear. induction l' as [|[k' v'] l' IH]; intros k v H b; [done|]. cbn [fold_left]. rewrite <- IH; [|intros s k0 s0 E Hin; apply (H s k0 s0 E); by right]. f_equal. unfold f. cbn [fst snd].
    destruct v as [| s| |], v' as [|s'| |]; try done. apply add_meta_comm'. apply (H s k' s'); [done|left]. }
  revert b. revert H. induction l as [|[k v] l IH]; intros H b; [done|]. cbn [fold_left]. rewrite IH; [|intros k0 s k' s' H1 H2; eapply H; [right; exact H1|exact H2]].
  f_equal. apply G. intros s k' s' -> Hin. apply (H k s k' s'); [left|done].
Qed.
(** Exchanging two independent commands. *)
Lemma apply_some st c : apply_command from1 st c = apply_command from1 (Some (unwrap_or box_new st)) c. Proof. by destruct st. Qed.
Lemma independent_sym c c' : independent from1 c c' -> independent from1 c' c.
Proof. intros H t t' Ht Ht' X. apply (H t' t Ht' Ht). by destruct X; constructor. Qed.
Lemma api_names b : api_box b -> names_ok b. Proof. intros H. by apply box_ok_names, api_box_ok. Qed.
Lemma verdict_after b c c' : api_box b -> command_ok c -> command_ok c' -> independent from1 c c' -> forall b1, apply_command from1 (Some b) c = Ok b1 ->
  verdict (apply_command from1 (Some b1) c') = verdict (apply_command from1 (Some b) c').
Proof.
  intros Hb Hc Hc' Hi b1 E. assert (Hb1 : api_box b1). { apply (apply_api from1 (Some b) b1 c Hc); [by intros x [= <-]|done]. }
  apply apply_verdict; [by apply api_names..| |done]. intros n v T _. destruct (apply_parts from1 b c b1 (api_names _ Hb) Hc E) as (A & _). rewrite A. apply attr_step_some; [done|].
  intros T'. exact (Hi _ _ T' T ltac:(constructor)).
Qed.
Lemma swap_ok b c c' b1 b2 : api_box b -> command_ok c -> command_ok c' -> independent from1 c c' -> apply_command from1 (Some b) c = Ok b1 -> apply_command from1 (Some b1) c' = Ok b2 ->
  exists b1', apply_command from1 (Some b) c' = Ok b1' /\ apply_command from1 (Some b1') c = Ok b2.
Proof.
  intros Hb Hc Hc' Hi E1 E2. pose proof (verdict_after b c c' Hb Hc Hc' Hi b1 E1) as V. rewrite E2 in V. destruct (apply_command from1 (Some b) c') as [b1'|es|] eqn:E1'; [|done..].
  pose proof (verdict_after b c' c Hb Hc' Hc (independent_sym _ _ Hi) b1' E1') as V'. rewrite E1 in V'. destruct (apply_command from1 (Some b1') c) as [b2'|es|] eqn:E2'; [|done..].
  exists b1'. split; [done|]. rewrite E2'. f_equal.
  assert (Hb1 : api_box b1). { apply (apply_api from1 (Some b) b1 c Hc); [by intros x [= <-]|done]. }
  assert (Hb1' : api_box b1'). { apply (apply_api from1 (Some b) b1' c' Hc'); [by intros x [= <-]|done]. }
  destruct (apply_parts from1 b c b1 (api_names _ Hb) Hc E1) as (A1 & A2 & A3 & A4). destruct (apply_parts from1 b1 c' b2 (api_names _ Hb1) Hc' E2) as (B1 & B2 & B3 & B4).
  destruct (apply_parts from1 b c' b1' (api_names _ Hb) Hc' E1') as (C1 & C2 & C3 & C4). destruct (apply_parts from1 b1' c b2' (api_names _ Hb1') Hc E2') as (D1 & D2 & D3 & D4).
  apply box_eq.
  - intros n. rewrite D1, C1, B1, A1. symmetry. by apply attr_step_comm.
  - congruence.
  - rewrite D3, B3. rewrite (meta_step_same from1 c b1' (meta_step from1 c' b)), (meta_step_same from1 c' b1 (meta_step from1 c b)) by done. f_equal. symmetry. by apply meta_step_comm.
  - rewrite D4, C4, B4, A4. symmetry. by apply class_step_comm.
Qed.
Lemma swap st c c' : (forall b, st = Some b -> api_box b) -> command_ok c -> command_ok c' -> independent from1 c c' ->
  let st1 := after st (apply_command from1 st c) in let st1' := after st (apply_command from1 st c') in
  verdict (apply_command from1 st1 c') = verdict (apply_command from1 st c') /\ verdict (apply_command from1 st1' c) = verdict (apply_command from1 st c) /\
  after st1 (apply_command from1 st1 c') = after st1' (apply_command from1 st1' c).
Proof.
  intros Hst Hc Hc' Hi. cbv zeta. set (b := unwrap_or box_new st). assert (Hb : api_box b). { destruct st as [x|]; [by apply Hst|constructor]. }
  rewrite !(apply_some st). fold b. destruct (apply_command from1 (Some b) c) as [b1|es|] eqn:E1; cbn [after].
  - pose proof (verdict_after b c c' Hb Hc Hc' Hi b1 E1) as V. destruct (apply_command from1 (Some b) c') as [b1'|es'|] eqn:E1'; cbn [after].
    + pose proof (verdict_after b c' c Hb Hc' Hc (independent_sym _ _ Hi) b1' E1') as V'. rewrite E1 in V'. split; [done|]. split; [done|].
      destruct (apply_command from1 (Some b1) c') as [b2|es|] eqn:E2; [|done..]. destruct (swap_ok b c c' b1 b2 Hb Hc Hc' Hi E1 E2) as (x & Ex & E2'). rewrite E1' in Ex. injection Ex as <-. by rewrite E2'.
    + rewrite (apply_some st). fold b. rewrite E1. split; [done|]. split; [done|]. by destruct (apply_command from1 (Some b1) c').
    + rewrite (apply_some st). fold b. rewrite E1. split; [done|]. split; [done|]. by destruct (apply_command from1 (Some b1) c').
  - rewrite (apply_some st). fold b. destruct (apply_command from1 (Some b) c') as [b1'|es'|] eqn:E1'; cbn [after].
    + pose proof (verdict_after b c' c Hb Hc' Hc (independent_sym _ _ Hi) b1' E1') as V'. rewrite E1 in V'. split; [done|]. split; [done|]. by destruct (apply_command from1 (Some b1') c).
    + rewrite (apply_some st). fold b. by rewrite E1.
    + rewrite (apply_some st). fold b. by rewrite E1.
  - rewrite (apply_some st). fold b. destruct (apply_command from1 (Some b) c') as [b1'|es'|] eqn:E1'; cbn [after].
    + pose proof (verdict_after b c' c Hb Hc' Hc (independent_sym _ _ Hi) b1' E1') as V'. rewrite E1 in V'. split; [done|]. split; [done|]. by destruct (apply_command from1 (Some b1') c).
    + rewrite (apply_some st). fold b. by rewrite E1.
    + rewrite (apply_some st). fold b. by rewrite E1.
Qed.
(** Lists of commands. *)
Lemma state_after_app p q : forall st, state_after from1 st (p ++ q) = state_after from1 (state_after from1 st p) q.
Proof. intros st. unfold state_after. by rewrite fold_left_app. Qed.
Lemma outcomes_app p q : forall st, outcomes from1 st (p ++ q) = outcomes from1 st p ++ outcomes from1 (state_after from1 st p) q.
Proof. induction p as [|c p IH]; intros st; [done|]. cbn [app outcomes]. by rewrite IH. Qed.
Lemma rearranged_run l l' : rearranged from1 l l' -> Forall command_ok l -> forall st, (forall b, st = Some b -> api_box b) ->
  map verdict (outcomes from1 st l) ≡ₚ map verdict (outcomes from1 st l') /\ state_after from1 st l = state_after from1 st l' /\ l ≡ₚ l'.
Proof.
  induction 1 as [l|p c c' q l Hi H IH]; intros Hc st Hst; [done|].
  assert (P : p ++ c :: c' :: q ≡ₚ p ++ c' :: c :: q) by (apply Permutation_app_head; constructor).
  assert (Hc2 : Forall command_ok (p ++ c' :: c :: q)) by (by rewrite <- P). destruct (IH Hc2 st Hst) as (I1 & I2 & I3).
  apply Forall_app in Hc as [Hp Hc]. apply Forall_cons in Hc as [H1 Hc]. apply Forall_cons in Hc as [H2 Hq].
  pose proof (Run_proofs.state_after_ok from1 p st Hp Hst) as Hst'. rewrite !outcomes_app, !state_after_app in *. set (s := state_after from1 st p) in *.
  destruct (swap s c c' Hst' H1 H2 Hi) as (V1 & V2 & V3). cbn [outcomes] in *. cbv zeta in *. rewrite !map_app in *. cbn [map] in *.
  split; [|split; [|by rewrite P]].
  - rewrite <- I1. apply Permutation_app_head. rewrite V1, V2, V3. constructor.
  - rewrite <- I2. unfold state_after. cbn [fold_left]. by rewrite V3.
Qed.
Lemma rearranged_cons c l l' : rearranged from1 l l' -> rearranged from1 (c :: l) (c :: l').
Proof. induction 1 as [l|p a b q l Hi H IH]; [constructor|]. apply (ra_swap from1 (c :: p) a b q _ Hi IH). Qed.
Lemma rearranged_trans l l' l'' : rearranged from1 l l' -> rearranged from1 l' l'' -> rearranged from1 l l''.
Proof. induction 1 as [l|p a b q l Hi H IH]; [done|]. intros X. by apply (ra_swap from1 p a b q _ Hi), IH. Qed.
Lemma all_independent_perm l l' : l ≡ₚ l' -> all_independent from1 l -> all_independent from1 l'.
Proof.
  induction 1 as [|c l l' H IH|c c' l|l m n H1 IH1 H2 IH2]; intros A; [done| | |by apply IH2, IH1].
  - inversion A as [|? ? A1 A2]; subst. constructor; [|by apply IH]. intros x Hx. apply A1. by rewrite H.
  - inversion A as [|? ? A1 A2]; subst. inversion A2 as [|? ? A3 A4]; subst. constructor.
    + intros x [->|Hx]%elem_of_cons; [apply independent_sym, A1; left|by apply A3].
    + constructor; [|done]. intros x Hx. apply A1. by right.
Qed.
Lemma perm_rearranged l l' : l ≡ₚ l' -> all_independent from1 l -> rearranged from1 l l'.
Proof.
  induction 1 as [|c l l' H IH|c c' l|l m n H1 IH1 H2 IH2]; intros A; [constructor| | |].
  - inversion A as [|? ? A1 A2]; subst. by apply rearranged_cons, IH.
  - inversion A as [|? ? A1 A2]; subst. apply (ra_swap from1 [] c' c l); [|constructor]. apply A1. left.
  - eapply rearranged_trans; [by apply IH1|]. apply IH2. by apply (all_independent_perm l).
Qed.
End Commute.

(** ** Builds *)
Section Builds.
Variable digest : json -> string.
Variable from1 : string -> option string.
Variable os : nat -> order.
Hypothesis Ho : forall i, order_ok (os i).
Definition messages (l : list (outcome unit)) : list string := concat (map (fun r => match r with Err es => es | _ => [] end) l).
Lemma report_messages cm l : forall i, map be_msg (report cm i l) = messages (map verdict l).
Proof.
  induction l as [|r l IH]; intros i; [done|]. cbn [report map]. rewrite map_app, IH. unfold messages. cbn [map concat]. f_equal. destruct r; [done| |done]. cbn. rewrite map_map. cbn. apply map_id.
Qed.
Lemma messages_perm l l' : l ≡ₚ l' -> messages l ≡ₚ messages l'.
Proof.
  unfold messages. induction 1 as [|r l l' H IH|r r' l|l m n H1 IH1 H2 IH2]; cbn; [done|by rewrite IH| |by etrans]. rewrite !app_assoc. apply Permutation_app_tail, Permutation_app_comm.
Qed.
Lemma verdict_fine (P : outcome unit -> bool) (Q : outcome obox -> bool) l l' : (forall r, Q r = P (verdict r)) -> map verdict l ≡ₚ map verdict l' ->
  (forall r, r ∈ l -> Q r = true) -> forall r, r ∈ l' -> Q r = true.
Proof.
  intros E H A r Hr. rewrite E. assert (X : verdict r ∈ map verdict l). { rewrite H. apply elem_of_list_fmap. by exists r. } apply elem_of_list_fmap in X as (r' & -> & Hr'). rewrite <- E. by apply A.
Qed.
Lemma all_ok (l l' : list (outcome obox)) : map verdict l ≡ₚ map verdict l' -> (forall r, r ∈ l -> is_ok r = true) -> forall r, r ∈ l' -> is_ok r = true.
Proof. apply (verdict_fine (fun r => match r with Ok _ => true | _ => false end)). by intros []. Qed.
Lemma none_panics (l l' : list (outcome obox)) : map verdict l ≡ₚ map verdict l' -> (forall r, r ∈ l -> is_panic r = false) -> forall r, r ∈ l' -> is_panic r = false.
Proof.
  intros V H r Hr. apply negb_true_iff. revert r Hr. apply (verdict_fine (fun r => match r with Panic => false | _ => true end) (fun r => negb (is_panic r)) l l'); [by intros []|done|].
  intros r Hr. apply negb_true_iff. by apply H.
Qed.
Lemma from_ast_rearranged from a a' : rearranged from1 (ast_commands a) (ast_commands a') -> Forall command_ok (ast_commands a) ->
  match from_ast digest from1 os from a with
  | BuildOk B _ => exists steps, from_ast digest from1 os from a' = BuildOk B steps
  | BuildErr es => exists es', from_ast digest from1 os from a' = BuildErr es' /\ map be_msg es ≡ₚ map be_msg es'
  | BuildPanic => from_ast digest from1 os from a' = BuildPanic
  end.
Proof.
  intros R Hc.
  assert (Hp : ast_commands a ≡ₚ ast_commands a'). { destruct (rearranged_run from1 _ _ R Hc None) as (_ & _ & X); [done|done]. }
  assert (Hc' : Forall command_ok (ast_commands a')) by (by rewrite <- Hp). assert (L : length (ast_commands a) = length (ast_commands a')) by (by rewrite Hp).
  destruct (from_ast digest from1 os from a) as [B steps|es|] eqn:E.
  - destruct (Build_proofs.base_of_some digest from1 os from a _ E) as (st & Hs); [done|]. pose proof (Build_proofs.base_of_ok os Ho from a st Hs) as Hok. pose proof Hs as Hs'. rewrite L in Hs'.
    destruct (rearranged_run from1 _ _ R Hc st Hok) as (V & S & _).
    pose proof (proj1 (Build_proofs.C12_ok digest from1 os Ho from a st Hs Hc) (ex_intro _ B (ex_intro _ steps E))) as [O1 O2].
    destruct (proj2 (Build_proofs.C12_ok digest from1 os Ho from a' st Hs' Hc')) as (B' & steps' & E').
    { split; [exact (all_ok _ _ V O1)|]. destruct O2 as [O2|O2]; [by left|right]. intros X. rewrite X in L. by destruct (ast_commands a). }
    rewrite E'. exists steps'. f_equal. rewrite (Build_proofs.from_ast_base_of digest from1 os from a st Hs) in E. rewrite (Build_proofs.from_ast_base_of digest from1 os from a' st Hs') in E'.
    apply Run_proofs.base_ok in E as (_ & _ & b & Eb & Eg). apply Run_proofs.base_ok in E' as (_ & _ & b' & Eb' & Eg'). rewrite <- S, Eb in Eb'. injection Eb' as <-. rewrite <- L in Eg'. congruence.
  - destruct (Build_proofs.base_of_some digest from1 os from a _ E) as (st & Hs); [done|]. pose proof (Build_proofs.base_of_ok os Ho from a st Hs) as Hok. pose proof Hs as Hs'. rewrite L in Hs'.
    destruct (rearranged_run from1 _ _ R Hc st Hok) as (V & S & _). destruct (proj1 (Build_proofs.C12_err digest from1 os Ho from a st es Hs Hc) E) as (HP & Hne & Ees). rewrite Ees in Hne. rewrite Ees. clear Ees.
    exists (report (command_line from a') 0 (outcomes from1 st (ast_commands a'))). assert (M : map be_msg (report (command_line from a) 0 (outcomes from1 st (ast_commands a))) ≡ₚ map be_msg (report (command_line from a') 0 (outcomes from1 st (ast_commands a')))).
    { rewrite !report_messages. by apply messages_perm. }
    split; [|done]. apply (Build_proofs.C12_err digest from1 os Ho from a' st _ Hs' Hc'). split; [|split; [|done]].
    + exact (none_panics _ _ V HP).
    + intros X. rewrite X in M. cbn in M. symmetry in M. apply Permutation_nil in M. apply map_eq_nil in M. done.
  - destruct (from_ast digest from1 os from a') as [B' steps'|es'|] eqn:E'; [exfalso..|done].
    all: destruct (Build_proofs.base_of_some digest from1 os from a' _ E') as (st & Hs); [done|]; pose proof (Build_proofs.base_of_ok os Ho from a' st Hs) as Hok; pose proof Hs as Hs'; rewrite <- L in Hs'.
    all: destruct (rearranged_run from1 _ _ R Hc st Hok) as (V & S & _); symmetry in V.
    + pose proof (proj1 (Build_proofs.C12_ok digest from1 os Ho from a' st Hs Hc') (ex_intro _ B' (ex_intro _ steps' E'))) as [O1 O2].
      destruct (proj2 (Build_proofs.C12_ok digest from1 os Ho from a st Hs' Hc)) as (B & steps & X); [|congruence].
      split; [exact (all_ok _ _ V O1)|]. destruct O2 as [O2|O2]; [by left|right]. intros X. rewrite X in L. by destruct (ast_commands a').
    + destruct (proj1 (Build_proofs.C12_err digest from1 os Ho from a' st es' Hs Hc') E') as (HP & Hne & Ees). rewrite Ees in Hne.
      assert (M : map be_msg (report (command_line from a) 0 (outcomes from1 st (ast_commands a))) ≡ₚ map be_msg (report (command_line from a') 0 (outcomes from1 st (ast_commands a')))).
      { rewrite !report_messages. symmetry. by apply messages_perm. }
      assert (X : from_ast digest from1 os from a = BuildErr (report (command_line from a) 0 (outcomes from1 st (ast_commands a)))); [|congruence].
      apply (Build_proofs.C12_err digest from1 os Ho from a st _ Hs' Hc). split; [|split; [|done]].
      * exact (none_panics _ _ V HP).
      * intros X. rewrite X in M. cbn in M. apply Permutation_nil in M. apply map_eq_nil in M. done.
Qed.
End Builds.
