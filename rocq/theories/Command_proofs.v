(** [apply_command] against the specification: panics, errors, effect, API closure. *)
From Verif Require Import Spec_Build Upd_proofs Effect_proofs Bundle_proofs Box_proofs.

#[global] Arguments String.eqb _ _ : simpl never.
Section Command.
Variable from1 : string -> option string.

Lemma fine_acceptable b k p n v : values_ok p -> fine from1 b k p (n, v) <-> acceptable from1 b k p n v.
Proof.
  intros Hp. unfold fine, acceptable. cbn. split.
  - intros [H1 H2]. split; [done|]. destruct (value_upd from1 k p v) as [u|es|] eqn:E; try done. split.
    + intros HL. apply (value_lacks from1 k p v Hp) in HL. congruence.
    + intros -> s ->. cbn in E. destruct (encoding_of_str s) as [e|] eqn:Ee; [|done]. exists e. by apply encoding_of_inv.
  - intros (H1 & H2 & H3). split; [done|]. destruct (value_upd from1 k p v) as [u|es|] eqn:E; [done| |].
    + apply value_err in E as (-> & s & -> & Hs & _). destruct (H3 eq_refl s eq_refl) as [e He]. by destruct (Hs e).
    + exfalso. apply H2. by apply value_lacks.
Qed.
Lemma fine_dec b k p nv : Decision (fine from1 b k p nv).
Proof. unfold fine. apply _. Qed.
Lemma loops_kinds k : loops k = true <-> k ∈ attribute_kinds.
Proof.
  split; [|intros H; repeat (apply elem_of_cons in H as [->|H]; [done|]); by apply elem_of_nil in H].
  destruct k; try done; intros _; unfold attribute_kinds; repeat (first [by left | right]).
Qed.
Lemma loops_not_meta k : k ∈ attribute_kinds -> k <> KMeta.
Proof. intros H%loops_kinds ->. done. Qed.
Lemma header_spec k p hs : values_ok p -> header_errors k p hs <-> hs = pre_errors k p.
Proof.
  intros Hp. split.
  - intros Hh. revert Hp. destruct Hh as [p H|p H|p t H|p id H|k p H1 H2]; intros Hp; cbn.
    + by rewrite (proj2 (link_target_none p) H).
    + by rewrite (proj2 (frame_id_none p Hp) H).
    + by rewrite (proj2 (link_target_spec p t) H).
    + by rewrite (proj2 (frame_id_spec p id Hp) H).
    + by destruct k.
  - intros ->. destruct k; try (by apply he_other); cbn.
    + destruct (link_target p) as [t|] eqn:E.
      * apply link_target_spec in E. by eapply he_link.
      * apply he_target. intros t H. apply link_target_spec in H. congruence.
    + destruct (frame_id_of p) as [t|] eqn:E.
      * apply frame_id_spec in E; [|done]. by eapply he_framing.
      * apply he_frame. intros t H. apply frame_id_spec in H; [congruence|done].
Qed.
Lemma first_bad_unique b k p l n v n' v' : first_bad from1 b k p l n v -> first_bad from1 b k p l n' v' -> n = n' /\ v = v'.
Proof.
  intros (pre & post & -> & Hpre & Hbad) (pre' & post' & E & Hpre' & Hbad').
  assert (H : pre = pre').
  { revert pre' E Hpre Hpre'. induction pre as [|x pre IH]; intros [|y pre'] E Hpre Hpre'; [done| | |].
    - injection E as <- E. exfalso. apply Hbad, Hpre'. left.
    - injection E as -> E. exfalso. apply Hbad', Hpre. left.
    - injection E as <- E. f_equal. apply IH; [done| |]; intros n0 v0 H0; [apply Hpre|apply Hpre']; by right. }
  subst pre'. apply app_inv_head in E. by injection E as -> ->.
Qed.
Lemma forall_fine b k p l : values_ok p -> Forall (fine from1 b k p) l <-> forall n v, (n, v) ∈ l -> acceptable from1 b k p n v.
Proof.
  intros Hp. rewrite Forall_forall. split.
  - intros H n v Hin. apply fine_acceptable; [done|]. by apply H.
  - intros H [n v] Hin. apply fine_acceptable; [done|]. by apply H.
Qed.
Lemma not_fine b k p n v : values_ok p -> bx_attrs b !! n = None \/ is_ok (value_upd from1 k p v) = false -> ~ acceptable from1 b k p n v.
Proof. intros Hp H Ha. apply fine_acceptable in Ha as [[? ?] ?]; [|done]. cbn in *. destruct H; congruence. Qed.

Lemma has_elem ct n v : values_ok (ct_attrs ct) -> has (ct_attrs ct) n v <-> (n, v) ∈ unwrap_or [] (ct_attrs ct).
Proof.
  intros Hc. unfold has. split.
  - intros (l & -> & H). cbn. by apply imap_get_elem.
  - destruct (ct_attrs ct) as [l|] eqn:E; cbn; [|by intros H%elem_of_nil]. intros H. exists l. split; [done|].
    apply imap_get_nodup; [|done]. by apply (Hc l).
Qed.
(** The three verdicts of an overlay loop. *)
Lemma loop_result b k ct : names_ok b -> values_ok (ct_attrs ct) -> values_ok (ct_props ct) -> k ∈ attribute_kinds ->
  match add_overlay from1 k ct b with
  | Ok _ => header_errors k (ct_props ct) [] /\ forall n v, has (ct_attrs ct) n v -> acceptable from1 b k (ct_props ct) n v
  | Err es => overlay_rejects from1 b k ct es
  | Panic => overlay_aborts from1 b k ct
  end.
Proof.
  intros Hb Ha Hp Hk. assert (E : add_overlay from1 k ct b = upd_attrs from1 (pre_errors k (ct_props ct)) k (ct_props ct) (unwrap_or [] (ct_attrs ct)) b).
  { unfold add_overlay. apply loops_kinds in Hk. destruct k; try done. }
  rewrite E. pose proof (upd_attrs_result from1 k (ct_props ct) (unwrap_or [] (ct_attrs ct)) (pre_errors k (ct_props ct)) b Hb) as R.
  assert (Hsplit : forall pre n v post, unwrap_or [] (ct_attrs ct) = pre ++ (n, v) :: post -> ct_attrs ct = Some (pre ++ (n, v) :: post)).
  { intros pre n v post H. destruct (ct_attrs ct); cbn in H; [by f_equal|]. by destruct pre. }
  destruct (upd_attrs from1 _ k (ct_props ct) _ b) as [b'|es|].
  - destruct R as [R1 R2]. split; [by apply header_spec|]. intros n v H. rewrite forall_fine in R2 by done. apply R2. by apply has_elem.
  - split; [done|]. exists (pre_errors k (ct_props ct)). split; [by apply header_spec|].
    destruct R as [(R1 & -> & R3)|(pre & n & v & post & El & Hpre & R)].
    + right. split; [|done]. intros n v H. rewrite forall_fine in R3 by done. apply R3. by apply has_elem.
    + left. exists (pre ++ (n, v) :: post), n, v. split; [by apply Hsplit|]. split.
      * exists pre, post. split; [done|]. split; [by apply forall_fine|]. apply not_fine; [done|].
        destruct R as [[R _]|(_ & e & R & _)]; [by left|right; by rewrite R].
      * destruct R as [R|(R1 & e & R2 & ->)]; [by left|right]. split; [done|]. apply value_err in R2 as (-> & s & -> & _ & ->).
        exists s. done.
  - right. split; [done|]. destruct R as (pre & n & v & post & El & Hpre & R1 & R2).
    exists (pre ++ (n, v) :: post), n, v. split; [by apply Hsplit|]. split; [|split; [done|by apply value_lacks]].
    exists pre, post. split; [done|]. split; [by apply forall_fine|]. apply not_fine; [done|]. right. by rewrite R2.
Qed.
Lemma lacks_not_enc k p v : lacks from1 k p v -> k <> KCharacterEncoding.
Proof. intros H ->. inversion H; subst. repeat match goal with H : _ ∈ _ |- _ => apply elem_of_cons in H as [?|H]; [done|] end. by apply elem_of_nil in H0. Qed.
Lemma rejects_not_aborts b k ct es : k ∈ attribute_kinds -> values_ok (ct_attrs ct) -> overlay_rejects from1 b k ct es -> overlay_aborts from1 b k ct -> False.
Proof.
  intros Hk Ha (_ & hs & _ & R) A. destruct A as [[-> _]|(_ & l & n & v & El & Hf & Hs & HL)].
  { by apply loops_not_meta in Hk. }
  destruct R as [(l' & n' & v' & El' & Hf' & R)|(R & _)].
  - rewrite El in El'. injection El' as <-. destruct (first_bad_unique _ _ _ _ _ _ _ _ Hf Hf') as [<- <-].
    destruct R as [[R _]|(_ & s & -> & -> & _)]; [destruct Hs; congruence|]. by apply lacks_not_enc in HL.
  - destruct Hf as (pre & post & -> & _ & Hbad). apply Hbad, R. eexists. split; [done|]. apply imap_get_nodup; [by apply (Ha _ El)|].
    apply elem_of_app. right. left.
Qed.
Lemma accepts_not_bad b k ct l n v : values_ok (ct_attrs ct) -> (forall n v, has (ct_attrs ct) n v -> acceptable from1 b k (ct_props ct) n v) ->
  ct_attrs ct = Some l -> first_bad from1 b k (ct_props ct) l n v -> False.
Proof.
  intros Ha R El (pre & post & -> & _ & Hbad). apply Hbad, R. eexists. split; [done|]. apply imap_get_nodup; [by apply (Ha _ El)|].
  apply elem_of_app. right. left.
Qed.
Lemma header_fun k p hs hs' : values_ok p -> header_errors k p hs -> header_errors k p hs' -> hs = hs'.
Proof. intros Hp H H'. apply header_spec in H, H'; [congruence|done|done]. Qed.
Lemma rejects_fun b k ct es es' : values_ok (ct_attrs ct) -> values_ok (ct_props ct) ->
  overlay_rejects from1 b k ct es -> overlay_rejects from1 b k ct es' -> es = es'.
Proof.
  intros Ha Hp (_ & hs & Hh & R) (_ & hs' & Hh' & R'). assert (hs' = hs) as -> by (by eapply header_fun).
  destruct R as [(l & n & v & El & Hf & R)|(R & Hn & ->)], R' as [(l' & n' & v' & El' & Hf' & R')|(R' & Hn' & ->)].
  - rewrite El in El'. injection El' as <-. destruct (first_bad_unique _ _ _ _ _ _ _ _ Hf Hf') as [<- <-].
    destruct R as [[R1 ->]|((x & R1) & s & -> & _ & ->)], R' as [[R1' ->]|((x' & R1') & s' & E & _ & ->)]; try congruence; try done.
  - exfalso. by eapply accepts_not_bad.
  - exfalso. by eapply accepts_not_bad.
  - done.
Qed.

Lemma meta_result b ct : match add_overlay from1 KMeta ct b with
  | Ok _ => values_ok (ct_props ct) -> ~ overlay_aborts from1 b KMeta ct
  | Err _ => False
  | Panic => values_ok (ct_props ct) -> overlay_aborts from1 b KMeta ct
  end.
Proof.
  cbn. destruct (ct_props ct) as [p|] eqn:Ep.
  2: { intros _ [(_ & _ & k & s & _ & l & ? & _)|[H _]]; [congruence|]. by apply loops_not_meta in H. }
  assert (Hin : forall k v, NoDup (map fst p) -> (k, v) ∈ imap_remove "lang" p <-> k <> "lang" /\ imap_get k p = Some v).
  { intros k v Hnd. unfold imap_remove. rewrite elem_of_list_In, filter_In, <- elem_of_list_In. cbn. rewrite negb_true_iff.
    split.
    - intros [H1 H2]. apply String.eqb_neq in H2. split; [congruence|]. by apply imap_get_nodup.
    - intros [H1 H2]. split; [by apply imap_get_elem|]. apply String.eqb_neq. congruence. }
  pose proof (add_metas_result (cmd_lang from1 (Some p)) (imap_remove "lang" p) b) as R.
  destruct (add_metas _ _ _) as [b'|es|]; [|done|].
  - intros Hp. destruct (Hp p eq_refl) as [Hnd _]. intros [(_ & HL & k & s & Hne & l & El & Hg)|[H _]]; [|by apply loops_not_meta in H].
    rewrite Ep in HL, El. injection El as <-. apply (R (proj2 (cmd_lang_none _ _) HL) k s). by apply Hin.
  - intros Hp. destruct (Hp p eq_refl) as [Hnd _]. destruct R as (HL & k & s & H). left. split; [done|]. rewrite Ep. split; [by apply cmd_lang_none|].
    apply Hin in H as [H1 H2]; [|done]. exists k, s. split; [done|]. by exists p.
Qed.
Lemma kind_cases k : k = KMeta \/ k ∈ attribute_kinds \/ (k <> KMeta /\ k ∉ attribute_kinds /\ forall ct b, add_overlay from1 k ct b = Ok b).
Proof.
  destruct (decide (k = KMeta)) as [->|Hm]; [by left|]. right. destruct (loops k) eqn:E.
  - left. by apply loops_kinds.
  - right. split; [done|]. split; [intros H; apply loops_kinds in H; congruence|]. intros ct b. by destruct k.
Qed.

Lemma apply_panics b c : names_ok b -> command_ok c -> apply_command from1 (Some b) c = Panic <->
  unsupported c \/ exists t ct, c = Command CAdd (OOverlay t ct) /\ overlay_aborts from1 b (ot_kind t) ct.
Proof.
  intros Hb Hc. destruct c as [ck ob]. unfold unsupported, apply_command. cbn [cmd_kind cmd_obj unwrap_or].
  destruct ck; [|split; [intros H; left; by destruct ob|by destruct ob; [intros [[]|(? & ? & ? & _)]|..]]
                |split; [intros _; left; by destruct ob|by intros _; destruct ob]
                |split; [done|intros [[]|(? & ? & ? & _)]; done]].
  destruct ob as [cc|bc|t ct].
  - split; [done|]. intros [[]|(? & ? & ? & _)]. done.
  - split; [by left|done].
  - destruct Hc as [Ha Hp]. cbn in Ha, Hp.
    destruct (kind_cases (ot_kind t)) as [Hk|[Hk|(Hk & Hk' & Hn)]].
    + rewrite Hk. pose proof (meta_result b ct) as R. split.
      * intros E. rewrite E in R. right. exists t, ct. split; [done|]. rewrite Hk. auto.
      * intros [[]|(t' & ct' & [= <- <-] & R')]. rewrite Hk in R'. destruct (add_overlay from1 KMeta ct b); [by destruct (R Hp)|done|done].
    + pose proof (loop_result b (ot_kind t) ct Hb Ha Hp Hk) as R. split.
      * intros E. rewrite E in R. right. eauto.
      * intros [[]|(t' & ct' & [= <- <-] & R')]. destruct (add_overlay from1 (ot_kind t) ct b) as [b'|es|]; [|by exfalso; eapply rejects_not_aborts|done].
        destruct R' as [[E _]|(_ & l & n & v & El & Hf & _)]; [by apply loops_not_meta in Hk|]. exfalso. destruct R as [_ R]. by eapply accepts_not_bad.
    + rewrite Hn. split; [done|]. intros [[]|(t' & ct' & [= <- <-] & [[? _]|[? _]])]; done.
Qed.
Lemma apply_errors b c es : names_ok b -> command_ok c -> apply_command from1 (Some b) c = Err es <->
  (cmd_kind c = CFrom /\ es = ["Unsupported FROM command, it should be resolved before applying commands"]) \/
  exists t ct, c = Command CAdd (OOverlay t ct) /\ overlay_rejects from1 b (ot_kind t) ct es.
Proof.
  intros Hb Hc. destruct c as [ck ob]. unfold apply_command. cbn [cmd_kind cmd_obj unwrap_or].
  destruct ck; [|split; [by destruct ob|intros [[? _]|(? & ? & ? & _)]; done]
                |split; [by destruct ob|intros [[? _]|(? & ? & ? & _)]; done]
                |split; [intros [= <-]; by left|intros [[_ ->]|(? & ? & ? & _)]; done]].
  destruct ob as [cc|bc|t ct].
  - split; [done|]. intros [[? _]|(? & ? & ? & _)]; done.
  - split; [done|]. intros [[? _]|(? & ? & ? & _)]; done.
  - destruct Hc as [Ha Hp]. cbn in Ha, Hp.
    destruct (kind_cases (ot_kind t)) as [Hk|[Hk|(Hk & Hk' & Hn)]].
    + rewrite Hk. pose proof (meta_result b ct) as R. split.
      * intros E. by rewrite E in R.
      * intros [[? _]|(t' & ct' & [= <- <-] & [R' _])]; [done|]. rewrite Hk in R'. by apply loops_not_meta in R'.
    + pose proof (loop_result b (ot_kind t) ct Hb Ha Hp Hk) as R. split.
      * intros E. rewrite E in R. right. eauto.
      * intros [[? _]|(t' & ct' & [= <- <-] & R')]; [done|]. destruct (add_overlay from1 (ot_kind t) ct b) as [b'|es'|].
        { exfalso. destruct R as [R1 R2]. destruct R' as (_ & hs & Hh & [(l & n & v & El & Hf & _)|(_ & Hne & _)]); [by eapply accepts_not_bad|].
          apply Hne. by eapply header_fun. }
        { f_equal. eapply rejects_fun; [exact Ha|exact Hp|exact R|exact R']. }
        { exfalso. by eapply rejects_not_aborts. }
    + rewrite Hn. split; [done|]. intros [[? _]|(t' & ct' & [= <- <-] & [? _])]; done.
Qed.
Lemma apply_error_nonempty st c es : apply_command from1 st c = Err es -> es <> [].
Proof.
  unfold apply_command. destruct c as [[] ob]; cbn; try (by intros [= <-]); try (by destruct ob).
  destruct ob as [cc|bc|t ct]; [done|done|].
  destruct (kind_cases (ot_kind t)) as [Hk|[Hk|(Hk & Hk' & Hn)]]; [| |by rewrite Hn].
  - rewrite Hk. intros H. pose proof (meta_result (unwrap_or box_new st) ct) as R. by rewrite H in R.
  - unfold add_overlay. destruct (ot_kind t) eqn:E; try (by apply loops_kinds in Hk); cbn [loops].
    all: generalize (unwrap_or box_new st) as b; intros b;
      match goal with |- upd_attrs from1 ?errs ?k ?p ?l b = _ -> _ => generalize l, errs; intros l0 e0 end;
      clear; revert e0 b; induction l0 as [|[n v] l0 IH]; intros e0 b;
      [cbn; destruct e0; [done|by intros [= <-]]|];
      cbn [upd_attrs]; (destruct (bx_attrs b !! n); [|intros [= <-]; by destruct e0]);
      (destruct (value_upd _ _ _ _) as [[u|]|es'|] eqn:Ev; [apply IH|apply IH| |done]);
      intros [= <-]; apply value_err in Ev as (_ & s & _ & _ & ->); by destruct e0.
Qed.

(** ** API closure *)
Lemma add_capture_api cc b : api_box b -> api_box (add_capture cc b).
Proof.
  intros Hb. unfold add_capture.
  assert (H : forall (l : imap nattr) b, api_box b -> api_box (fold_left (fun acc (kv : string * nattr) => add_attribute (set_type kv.2 (attr_new kv.1)) acc) l b)).
  { intros l. induction l as [|[n t] l IH]; intros b0 Hb0; [done|]. cbn [fold_left]. apply IH, ab_add; [by constructor; constructor|left; by eexists|done]. }
  assert (H2 : forall (l : imap nvalue) b, api_box b -> api_box (fold_left (fun acc (kv : string * nvalue) => match kv.2 with
      VVal s => if String.eqb kv.1 "classification" then add_classification s acc else acc | _ => acc end) l b)).
  { intros l. induction l as [|[n t] l IH]; intros b0 Hb0; [done|]. cbn [fold_left]. apply IH. cbn.
    destruct t; try done. destruct (String.eqb n "classification"); [by apply ab_class|done]. }
  by apply H2, H.
Qed.
Lemma remove_capture_api cc b : api_box b -> api_box (remove_capture cc b).
Proof.
  intros Hb. unfold remove_capture.
  assert (H : forall (l : imap nattr) b, api_box b -> api_box (fold_left (fun acc (kv : string * nattr) => remove_attribute kv.1 acc) l b)).
  { intros l. induction l as [|[n t] l IH]; intros b0 Hb0; [done|]. cbn [fold_left]. by apply IH, ab_remove. }
  assert (H2 : forall (l : imap nvalue) b, api_box b -> api_box (fold_left (fun acc (kv : string * nvalue) =>
      if String.eqb kv.1 "classification" then remove_classification acc else acc) l b)).
  { intros l. induction l as [|[n t] l IH]; intros b0 Hb0; [done|]. cbn [fold_left]. apply IH. cbn.
    destruct (String.eqb n "classification"); [by apply ab_unclass|done]. }
  by apply H2, H.
Qed.
Lemma apply_api st b' c : command_ok c -> (forall b, st = Some b -> api_box b) -> apply_command from1 st c = Ok b' -> api_box b'.
Proof.
  intros Hc Hst. assert (Hb : api_box (unwrap_or box_new st)). { destruct st; cbn; [by apply Hst|constructor]. }
  revert Hb. unfold apply_command. generalize (unwrap_or box_new st) as b. intros b Hb.
  destruct c as [[] [cc|bc|t ct]]; cbn; try done.
  - intros [= <-]. by apply add_capture_api.
  - destruct (kind_cases (ot_kind t)) as [Hk|[Hk|(Hk & Hk' & Hn)]].
    + rewrite Hk. cbn. destruct (ct_props ct); [|by intros [= <-]]. by apply add_metas_api.
    + destruct Hc as [_ Hp]. cbn in Hp. unfold add_overlay. apply loops_kinds in Hk. destruct (ot_kind t) eqn:E; try done; cbn [loops];
        apply upd_attrs_api; try done; by apply api_box_ok.
    + rewrite Hn. by intros [= <-].
  - intros [= <-]. by apply remove_capture_api.
Qed.

(** ** Effects *)
Lemma overlay_effect b b' k ct : box_ok b -> values_ok (ct_attrs ct) -> values_ok (ct_props ct) -> k <> KMeta ->
  add_overlay from1 k ct b = Ok b' ->
  bx_maps b' = bx_maps b /\ bx_meta b' = bx_meta b /\ bx_class b' = bx_class b /\
  forall n, bx_attrs b' !! n = eff_at from1 k (ct_props ct) (if decide (k ∈ attribute_kinds) then unwrap_or [] (ct_attrs ct) else []) b n.
Proof.
  intros Hb Ha Hp Hm. destruct (kind_cases k) as [Hk|[Hk|(Hk & Hk' & Hn)]]; [done| |].
  - rewrite decide_True by done. intros H. apply (upd_attrs_effect from1 k (ct_props ct) _ (pre_errors k (ct_props ct)) b b').
    + by apply box_ok_names.
    + destruct (ct_attrs ct) as [l|]; cbn; [by apply (Ha l)|constructor].
    + unfold add_overlay in H. apply loops_kinds in Hk. by destruct k.
  - rewrite Hn, decide_False by done. intros [= <-]. repeat (split; [done|]). intros n. unfold eff_at. cbn. by destruct (bx_attrs b !! n).
Qed.
Lemma box_datum_attr b s n : (forall l, s <> SLang KMeta l) -> box_datum b s n = (a ← bx_attrs b !! n; attr_datum a s).
Proof. intros H. destruct s as [k|k l|t|f]; try done. destruct k; try done. by destruct (H l). Qed.
Lemma eff_keeps k p v a : at_type (eff from1 k p v a) = at_type a /\ at_flag (eff from1 k p v a) = at_flag a /\ at_catlabels (eff from1 k p v a) = at_catlabels a.
Proof.
  unfold eff. destruct (value_upd from1 k p v) as [[u|]| |]; try done.
  destruct (merge_upd_same u a) as (_ & H1 & H2 & H3 & _). done.
Qed.
Lemma overlay_rest b b' k ct : box_ok b -> values_ok (ct_attrs ct) -> values_ok (ct_props ct) -> k <> KMeta ->
  add_overlay from1 k ct b = Ok b' ->
  bx_maps b' = bx_maps b /\ bx_meta b' = bx_meta b /\ bx_class b' = bx_class b /\
  (forall n, box_types b' n = box_types b n) /\ (forall n, box_flag b' n = box_flag b n) /\
  (forall s n, category b' s n = category b s n).
Proof.
  intros Hb Ha Hp Hm H. apply overlay_effect in H as (H1 & H2 & H3 & H4); [|done..]. repeat (split; [done|]).
  assert (G : forall n, match bx_attrs b !! n with Some a => exists a', bx_attrs b' !! n = Some a' /\ at_type a' = at_type a /\ at_flag a' = at_flag a /\ at_catlabels a' = at_catlabels a
    | None => bx_attrs b' !! n = None end).
  { intros n. rewrite H4. unfold eff_at. destruct (bx_attrs b !! n) as [a|]; [|done].
    destruct (imap_get n _) as [v|]; [|by eauto]. eexists. split; [done|]. apply eff_keeps. }
  unfold box_types, box_flag, category. split; [|split].
  - intros n. specialize (G n). destruct (bx_attrs b !! n); [destruct G as (a' & -> & E & _); done|by rewrite G].
  - intros n. specialize (G n). destruct (bx_attrs b !! n); [destruct G as (a' & -> & _ & E & _); cbn; by rewrite E|by rewrite G].
  - intros s n. specialize (G n). destruct s as [|[]| |]; try done. destruct (bx_attrs b !! n); [destruct G as (a' & -> & _ & _ & E); cbn; by rewrite E|by rewrite G].
Qed.
Lemma overlay_given b b' k ct n v s d : box_ok b -> values_ok (ct_attrs ct) -> values_ok (ct_props ct) ->
  add_overlay from1 k ct b = Ok b' -> k ∈ attribute_kinds -> has (ct_attrs ct) n v -> says from1 k (ct_props ct) v s d ->
  box_datum b' s n = Some (written s (box_datum b s n) (category b s n) d) /\
  forall s', s' <> s -> box_datum b' s' n = box_datum b s' n.
Proof.
  intros Hb Ha Hp H Hk (l & El & Hg) Hs. pose proof (loops_not_meta k Hk) as Hm.
  assert (Hdef : is_Some (bx_attrs b !! n)).
  { pose proof (loop_result b k ct (box_ok_names b Hb) Ha Hp Hk) as R. rewrite H in R. destruct R as [_ R].
    destruct (R n v) as [? _]; [|done]. by exists l. }
  destruct Hdef as [a Hna].
  assert (Hv : nvalue_ok v) by (by eapply (proj2 (Ha l El))).
  destruct (says_upd from1 k _ v s d Hv Hp Hs) as (u & Eu & <- & <-).
  apply overlay_effect in H as (H1 & H2 & H3 & H4); [|done..]. rewrite decide_True, El in H4 by done. cbn in H4.
  assert (E : bx_attrs b' !! n = Some (merge_fields a (upd_attr u a))). { rewrite H4. unfold eff_at, eff. by rewrite Hna, Hg, Eu. }
  assert (Hcat : category b (upd_slot u) n = cat_of (upd_slot u) a).
  { unfold category, cat_of. destruct (upd_slot u) as [|[]| |]; try done. by rewrite Hna. }
  split.
  - rewrite !box_datum_attr by (destruct u; done). rewrite E, Hna. cbn. rewrite merge_upd_datum, decide_True by done. by rewrite Hcat.
  - intros s' Hne. destruct s' as [k'|k' l'|t'|f']; try (rewrite !box_datum_attr by done; rewrite E, Hna; cbn [mbind option_bind]; by rewrite merge_upd_datum, decide_False).
    destruct (decide (k' = KMeta)) as [->|]; [unfold box_datum; by rewrite H2|].
    rewrite !box_datum_attr by congruence. rewrite E, Hna. cbn [mbind option_bind]. by rewrite merge_upd_datum, decide_False.
Qed.
Lemma overlay_other b b' k ct n : box_ok b -> values_ok (ct_attrs ct) -> values_ok (ct_props ct) -> k <> KMeta ->
  add_overlay from1 k ct b = Ok b' ->
  (forall v s d, k ∈ attribute_kinds -> has (ct_attrs ct) n v -> ~ says from1 k (ct_props ct) v s d) ->
  forall s, box_datum b' s n = box_datum b s n.
Proof.
  intros Hb Ha Hp Hm H Hno. apply overlay_effect in H as (H1 & H2 & H3 & H4); [|done..].
  assert (E : bx_attrs b' !! n = bx_attrs b !! n).
  { rewrite H4. unfold eff_at. destruct (bx_attrs b !! n) as [a|] eqn:Hna; [|done]. case_decide as Hk; [|done].
    destruct (ct_attrs ct) as [l|] eqn:El; [|done]. cbn. destruct (imap_get n l) as [v|] eqn:Hg; [|done]. unfold eff.
    destruct (value_upd from1 k (ct_props ct) v) as [[u|]| |] eqn:Ev; try done. exfalso.
    apply upd_says in Ev; [|by eapply (proj2 (Ha l eq_refl))|done]. eapply Hno; [done| |exact Ev]. by exists l. }
  intros s. unfold box_datum. by rewrite E, H2.
Qed.
(** The meta table as facts. *)
Lemma box_datum_meta b l key : box_datum b (SLang KMeta l) key = DText <$> (unwrap_or ∅ (bx_meta b) !! l ≫= lookup key).
Proof.
  unfold box_datum. destruct (bx_meta b) as [meta|]; cbn; [|by rewrite lookup_empty]. by destruct (meta !! l).
Qed.
Lemma meta_effect b b' ct : values_ok (ct_props ct) -> add_overlay from1 KMeta ct b = Ok b' ->
  bx_attrs b' = bx_attrs b /\ bx_maps b' = bx_maps b /\ bx_class b' = bx_class b /\
  (forall l key s, lang_is from1 (ct_props ct) l -> key <> "lang" -> has (ct_props ct) key (VVal s) ->
     box_datum b' (SLang KMeta l) key = Some (DText s)) /\
  (forall l key, ~ (lang_is from1 (ct_props ct) l /\ key <> "lang" /\ exists s, has (ct_props ct) key (VVal s)) ->
     box_datum b' (SLang KMeta l) key = box_datum b (SLang KMeta l) key).
Proof.
  intros Hp. unfold add_overlay. destruct (ct_props ct) as [p|] eqn:Ep.
  2: { intros [= <-]. repeat (split; [done|]). split; [|done]. by intros l key s _ _ (q & ? & _). }
  destruct (Hp p eq_refl) as [Hnd _].
  assert (Hrem : forall k, imap_get k (imap_remove "lang" p) = if String.eqb "lang" k then None else imap_get k p).
  { intros k. unfold imap_remove. clear. induction p as [|[j w] p IH]; cbn; [by destruct (String.eqb "lang" k)|].
    destruct (String.eqb_spec "lang" j) as [<-|Hj]; cbn.
    - rewrite IH. destruct (String.eqb_spec "lang" k) as [Ek|]; [done|]. by rewrite (proj2 (String.eqb_neq k "lang")) by congruence.
    - rewrite IH. destruct (String.eqb_spec k j) as [->|]; [|done]. by rewrite (proj2 (String.eqb_neq "lang" j)). }
  intros H. apply add_metas_effect in H as (H1 & H2 & H3 & H4).
  2: { apply NoDup_ListNoDup. unfold imap_remove.
       clear -Hnd. induction p as [|[j w] p IH]; cbn; [constructor|]. cbn in Hnd. apply NoDup_cons in Hnd as [Hj Hnd].
       destruct (negb (String.eqb "lang" j)); cbn; [|by apply IH]. constructor; [|by apply IH].
       intros Hin. apply Hj. apply elem_of_list_In. apply in_map_iff in Hin as ([j' w'] & <- & Hin). apply filter_In in Hin as [Hin _].
       apply in_map_iff. by exists (j', w'). }
  repeat (split; [done|]). split.
  - intros l key s Hl Hne (q & [= <-] & Hg). rewrite box_datum_meta, H4, Hrem, (proj2 (String.eqb_neq "lang" key)), Hg by congruence.
    rewrite bool_decide_true; [done|]. by apply cmd_lang_spec.
  - intros l key Hno. rewrite !box_datum_meta, H4, Hrem. destruct (String.eqb_spec "lang" key) as [<-|Hne]; [done|].
    destruct (imap_get key p) as [[|s| |]|] eqn:Hg; try done. rewrite bool_decide_false; [done|]. intros Hl%cmd_lang_spec.
    apply Hno. split; [done|]. split; [done|]. exists s. by exists p.
Qed.

(** Capture base commands. *)
Lemma add_capture_class l : forall b, NoDup (map fst l) -> let b' := fold_left (fun acc (kv : string * nvalue) => match kv.2 with
      VVal s => if String.eqb kv.1 "classification" then add_classification s acc else acc | _ => acc end) l b in
  bx_attrs b' = bx_attrs b /\ bx_maps b' = bx_maps b /\ bx_meta b' = bx_meta b /\
  bx_class b' = match imap_get "classification" l with Some (VVal s) => Some s | _ => bx_class b end.
Proof.
  induction l as [|[k v] l IH]; intros b Hnd; [done|]. cbn [map fst] in Hnd. apply NoDup_cons in Hnd as [Hk Hnd].
  cbn [fold_left fst snd]. cbn zeta in *.
  set (b1 := match v with VVal s => if String.eqb k "classification" then add_classification s b else b | _ => b end).
  destruct (IH b1 Hnd) as (H1 & H2 & H3 & H4). rewrite H1, H2, H3, H4. cbn [imap_get].
  assert (E : bx_attrs b1 = bx_attrs b /\ bx_maps b1 = bx_maps b /\ bx_meta b1 = bx_meta b).
  { unfold b1. destruct v; try done. by destruct (String.eqb k "classification"). }
  destruct E as (-> & -> & ->). repeat (split; [done|]).
  destruct (String.eqb_spec "classification" k) as [<-|Hne].
  - rewrite (proj2 (imap_get_none _ l)) by done. unfold b1. by destruct v.
  - unfold b1. rewrite (proj2 (String.eqb_neq k "classification")) by congruence. by destruct v.
Qed.
Lemma add_capture_attrs l : forall b, names_ok b -> NoDup (map fst l) -> let b' := fold_left (fun acc (kv : string * nattr) => add_attribute (set_type kv.2 (attr_new kv.1)) acc) l b in
  bx_maps b' = bx_maps b /\ bx_meta b' = bx_meta b /\ bx_class b' = bx_class b /\
  forall n, bx_attrs b' !! n = match imap_get n l with
    | Some t => Some (match bx_attrs b !! n with Some a => set_type t a | None => set_type t (attr_new n) end)
    | None => bx_attrs b !! n end.
Proof.
  induction l as [|[k t] l IH]; intros b Hb Hnd; [done|]. cbn [map fst] in Hnd. apply NoDup_cons in Hnd as [Hk Hnd].
  cbn [fold_left fst snd]. cbn zeta in *.
  assert (E : add_attribute (set_type t (attr_new k)) b = put_attr k (match bx_attrs b !! k with Some a => set_type t a | None => set_type t (attr_new k) end) b).
  { unfold add_attribute. cbn. destruct (bx_attrs b !! k) as [a|]; [|done]. unfold put_attr. f_equal. f_equal.
    unfold merge_fields, set_type. cbn. unfold merge_map, newer, older. destruct a; cbn.
    repeat match goal with |- context[match ?x with Some _ => _ | None => _ end] => is_var x; destruct x end; done. }
  rewrite E. destruct (IH (put_attr k (match bx_attrs b !! k with Some a => set_type t a | None => set_type t (attr_new k) end) b)) as (H1 & H2 & H3 & H4); [|done|].
  { apply put_names; [done|]. destruct (bx_attrs b !! k) eqn:Ea; [|done]. by apply Hb in Ea. }
  repeat (split; [done|]). intros n. rewrite H4. cbn. destruct (String.eqb_spec n k) as [->|Hne].
  - rewrite (proj2 (imap_get_none _ l)) by done. by rewrite lookup_insert.
  - by rewrite lookup_insert_ne by congruence.
Qed.
Lemma remove_capture_attrs l : forall b, let b' := fold_left (fun acc (kv : string * nattr) => remove_attribute kv.1 acc) l b in
  bx_maps b' = bx_maps b /\ bx_meta b' = bx_meta b /\ bx_class b' = bx_class b /\
  forall n, bx_attrs b' !! n = if decide (n ∈ map fst l) then None else bx_attrs b !! n.
Proof.
  induction l as [|[k t] l IH]; intros b; [done|]. cbn [fold_left map fst]. cbn zeta in *.
  destruct (IH (remove_attribute k b)) as (H1 & H2 & H3 & H4). repeat (split; [done|]). intros n. rewrite H4. cbn.
  destruct (decide (n = k)) as [->|Hne].
  - rewrite lookup_delete. rewrite (decide_True (P := k ∈ k :: _)) by left. by case_decide.
  - rewrite lookup_delete_ne by congruence. destruct (decide (n ∈ map fst l)) as [Hin|Hin].
    + by rewrite decide_True by by right.
    + rewrite decide_False; [done|]. intros [?|?]%elem_of_cons; done.
Qed.
Lemma remove_capture_class l : forall b, let b' := fold_left (fun acc (kv : string * nvalue) => if String.eqb kv.1 "classification" then remove_classification acc else acc) l b in
  bx_attrs b' = bx_attrs b /\ bx_maps b' = bx_maps b /\ bx_meta b' = bx_meta b /\
  bx_class b' = if imap_mem "classification" l then None else bx_class b.
Proof.
  induction l as [|[k v] l IH]; intros b; [done|]. cbn [fold_left fst snd]. cbn zeta in *.
  destruct (IH (if String.eqb k "classification" then remove_classification b else b)) as (H1 & H2 & H3 & H4).
  rewrite H1, H2, H3, H4. unfold imap_mem. cbn [existsb fst].
  destruct (String.eqb_spec k "classification") as [->|Hne]; cbn; [by destruct (existsb _ l)|].
  rewrite (proj2 (String.eqb_neq "classification" k)) by congruence. done.
Qed.
End Command.
