(** Effect of [apply_command]. *)
From Verif Require Import Spec_Build Upd_proofs Bundle_proofs Box_proofs.

Definition names_ok (b : obox) : Prop := forall n a, bx_attrs b !! n = Some a -> at_name a = n.
Lemma box_ok_names b : box_ok b -> names_ok b. Proof. by intros []. Qed.

Section Effect.
Variable from1 : string -> option string.

(** What happens to the attribute that gets value [v]. *)
Definition eff (k : okind) (p : option (imap nvalue)) (v : nvalue) (a : attribute) : attribute :=
  match value_upd from1 k p v with Ok (Some u) => merge_fields a (upd_attr u a) | _ => a end.
Lemma eff_name k p v a : at_name (eff k p v a) = at_name a.
Proof. unfold eff. destruct (value_upd from1 k p v) as [[u|]| |]; try done. Qed.

Lemma add_attribute_known a a' b : names_ok b -> bx_attrs b !! at_name a = Some a -> at_name a' = at_name a ->
  add_attribute a' b = OBox (<[at_name a := merge_fields a a']> (bx_attrs b)) (bx_maps b) (bx_meta b) (bx_class b).
Proof. intros Hn Ha E. unfold add_attribute. by rewrite E, Ha. Qed.
Lemma upd_attr_name u a : at_name (upd_attr u a) = at_name a. Proof. by destruct u. Qed.
(** One iteration of the loop. *)
Definition put_attr (n : string) (a : attribute) (b : obox) : obox :=
  OBox (<[n := a]> (bx_attrs b)) (bx_maps b) (bx_meta b) (bx_class b).
Lemma upd_attrs_step errs k p n v r b : names_ok b ->
  upd_attrs from1 errs k p ((n, v) :: r) b =
  match bx_attrs b !! n with
  | None => Err (errs ++ [("Undefined attribute: " +:+ n)%string])
  | Some a => match value_upd from1 k p v with
              | Panic => Panic
              | Err es => Err (errs ++ es)
              | Ok _ => upd_attrs from1 errs k p r (put_attr n (eff k p v a) b)
              end
  end.
Proof.
  intros Hn. cbn [upd_attrs]. destruct (bx_attrs b !! n) as [a|] eqn:Ha; [|done].
  assert (En := Hn n a Ha). unfold eff.
  destruct (value_upd from1 k p v) as [[u|]| |]; try done.
  - rewrite (add_attribute_known a (upd_attr u a) b); [by rewrite En|done|by rewrite En|apply upd_attr_name].
  - rewrite (add_attribute_known a a b); [by rewrite En, merge_self|done|by rewrite En|done].
Qed.
Lemma put_names n a b : names_ok b -> at_name a = n -> names_ok (put_attr n a b).
Proof.
  intros H E m x. cbn. intros Hx. apply lookup_insert_Some in Hx as [[<- <-]|[_ Hx]]; [done|by apply H].
Qed.
Definition fine (b : obox) (k : okind) (p : option (imap nvalue)) (nv : string * nvalue) : Prop :=
  is_Some (bx_attrs b !! nv.1) /\ is_ok (value_upd from1 k p nv.2) = true.
Lemma fine_put b k p nv n a a' : bx_attrs b !! n = Some a' -> fine (put_attr n a b) k p nv <-> fine b k p nv.
Proof.
  intros Ha. unfold fine. cbn. destruct (decide (n = nv.1)) as [->|Hne].
  - rewrite lookup_insert, Ha. split; intros [_ H]; split; eauto.
  - by rewrite lookup_insert_ne.
Qed.
Lemma upd_attrs_result k p l : forall errs b, names_ok b ->
  match upd_attrs from1 errs k p l b with
  | Ok _ => errs = [] /\ Forall (fine b k p) l
  | Err es => (errs <> [] /\ es = errs /\ Forall (fine b k p) l) \/
      exists pre n v post, l = pre ++ (n, v) :: post /\ Forall (fine b k p) pre /\
        ((bx_attrs b !! n = None /\ es = errs ++ [("Undefined attribute: " +:+ n)%string]) \/
         (is_Some (bx_attrs b !! n) /\ exists e, value_upd from1 k p v = Err e /\ es = errs ++ e))
  | Panic => exists pre n v post, l = pre ++ (n, v) :: post /\ Forall (fine b k p) pre /\
        is_Some (bx_attrs b !! n) /\ value_upd from1 k p v = Panic
  end.
Proof.
  induction l as [|[n v] l IH]; intros errs b Hb.
  - cbn. destruct errs; [by split|]. left. done.
  - rewrite upd_attrs_step by done. destruct (bx_attrs b !! n) as [a|] eqn:Ha.
    2: { right. exists [], n, v, l. split; [done|]. split; [constructor|]. by left. }
    destruct (value_upd from1 k p v) as [u|es|] eqn:Ev.
    + assert (Hn : names_ok (put_attr n (eff k p v a) b)). { apply put_names; [done|]. rewrite eff_name. by apply Hb. }
      assert (Hf : fine b k p (n, v)). { split; cbn; [by rewrite Ha|by rewrite Ev]. }
      assert (Hfp : forall nv, fine (put_attr n (eff k p v a) b) k p nv <-> fine b k p nv). { intros nv. by apply (fine_put _ _ _ _ _ _ a). }
      assert (Hfl : forall r, Forall (fine (put_attr n (eff k p v a) b) k p) r -> Forall (fine b k p) r).
      { intros r. rewrite !Forall_forall. intros H x Hx. apply Hfp, H, Hx. }
      specialize (IH errs (put_attr n (eff k p v a) b) Hn).
      assert (Hlk : forall m, is_Some (bx_attrs (put_attr n (eff k p v a) b) !! m) <-> is_Some (bx_attrs b !! m)).
      { intros m. cbn. destruct (decide (n = m)) as [<-|]; [rewrite lookup_insert, Ha; split; eauto|by rewrite lookup_insert_ne]. }
      destruct (upd_attrs from1 errs k p l (put_attr n (eff k p v a) b)) as [b'|es|].
      * destruct IH as [-> IH]. split; [done|]. constructor; [done|auto].
      * destruct IH as [(H1 & H2 & H3)|(pre & m & w & post & -> & Hpre & H)].
        { left. split; [done|]. split; [done|]. constructor; [done|auto]. }
        right. exists ((n, v) :: pre), m, w, post. split; [done|]. split; [constructor; [done|auto]|].
        destruct H as [[H1 H2]|[H1 H2]]; [left|right].
        { split; [|done]. destruct (bx_attrs b !! m) eqn:E; [|done].
          assert (is_Some (bx_attrs (put_attr n (eff k p v a) b) !! m)) as [? ?] by (apply Hlk; by rewrite E). congruence. }
        { split; [|done]. by apply Hlk. }
      * destruct IH as (pre & m & w & post & -> & Hpre & H1 & H2).
        exists ((n, v) :: pre), m, w, post. split; [done|]. split; [constructor; [done|auto]|]. split; [|done]. by apply Hlk.
    + right. exists [], n, v, l. split; [done|]. split; [constructor|]. right. rewrite Ha. eauto.
    + exists [], n, v, l. split; [done|]. split; [constructor|]. rewrite Ha. eauto.
Qed.
Definition eff_at (k : okind) (p : option (imap nvalue)) (l : imap nvalue) (b : obox) (n : string) : option attribute :=
  match bx_attrs b !! n, imap_get n l with Some a, Some v => Some (eff k p v a) | x, _ => x end.
Lemma upd_attrs_effect k p l : forall errs b b', names_ok b -> NoDup (map fst l) -> upd_attrs from1 errs k p l b = Ok b' ->
  bx_maps b' = bx_maps b /\ bx_meta b' = bx_meta b /\ bx_class b' = bx_class b /\
  forall n, bx_attrs b' !! n = eff_at k p l b n.
Proof.
  induction l as [|[n v] l IH]; intros errs b b' Hb Hnd.
  - cbn. destruct errs; [|done]. intros [= <-]. repeat (split; [done|]). intros n. unfold eff_at. cbn. by destruct (bx_attrs b !! n).
  - rewrite upd_attrs_step by done. cbn [map fst] in Hnd. apply NoDup_cons in Hnd as [Hn Hnd].
    destruct (bx_attrs b !! n) as [a|] eqn:Ha; [|done]. destruct (value_upd from1 k p v) as [u|es|] eqn:Ev; [|done|done].
    intros H. apply IH in H as (H1 & H2 & H3 & H4); [|apply put_names; [done|]; rewrite eff_name; by apply Hb|done].
    repeat (split; [done|]). intros m. rewrite H4. unfold eff_at. cbn.
    destruct (String.eqb_spec m n) as [->|Hne].
    + rewrite lookup_insert, Ha. rewrite (proj2 (imap_get_none n l)) by done. done.
    + by rewrite lookup_insert_ne by congruence.
Qed.
Lemma upd_attrs_api k p l : forall errs b b', values_ok p -> box_ok b -> api_box b -> upd_attrs from1 errs k p l b = Ok b' -> api_box b'.
Proof.
  induction l as [|[n v] l IH]; intros errs b b' Hp Hok Hb.
  - cbn. destruct errs; [|done]. by intros [= <-].
  - cbn [upd_attrs]. destruct (bx_attrs b !! n) as [a|] eqn:Ha; [|done].
    assert (En := ok_names b Hok n a Ha). assert (Aa : api_attr a) by (eapply aa_get; eauto).
    destruct (value_upd from1 k p v) as [[u|]| |] eqn:Ev; try done.
    + assert (Au : api_attr (upd_attr u a)).
      { destruct u; cbn; try by constructor. apply aa_framing; [|done].
        unfold value_upd, need in Ev. destruct k; try done; destruct v as [|?|o|]; try done;
          try (by destruct (cmd_lang from1 p)); try (by destruct (encoding_of_str s)); try (by destruct (link_target p)).
        destruct (frame_id_of p) as [i|] eqn:Ei; [|done]. injection Ev as <- <-. clear -Hp.
        intros sc s Hs. assert (Hm : fs_meta s = frame_meta_props p).
        { revert Hs. unfold framing_of. generalize (frame_meta_props p). intros meta. clear Hp.
          enough (G : forall (acc : gmap string fscope), (forall sc s, acc !! sc = Some s -> fs_meta s = meta) ->
            fold_left (fun acc (kv : string * nvalue) => match kv.2 with
              | VObj f => match imap_get "predicate_id" f, imap_get "framing_justification" f with
                          | Some (VVal p), Some (VVal j) => <[kv.1 := FScope p j meta]> acc | _, _ => acc end
              | _ => acc end) o acc !! sc = Some s -> fs_meta s = meta).
          { apply (G ∅). intros sc0 s0 H0. by rewrite lookup_empty in H0. }
          induction o as [|[j w] o IH]; intros acc Hacc; [apply Hacc|]. cbn [fold_left fst snd].
          destruct w as [| |f|]; try (by apply IH). destruct (imap_get "predicate_id" f) as [[|pr| |]|]; try (by apply IH).
          destruct (imap_get "framing_justification" f) as [[|ju| |]|]; try (by apply IH). apply IH.
          intros sc' s' H. apply lookup_insert_Some in H as [[_ <-]|[_ H]]; [done|by eapply Hacc]. }
        rewrite Hm. apply eq_None_not_Some. intros [w Hw]. apply frame_meta_spec in Hw as (k' & E & Hne & _); [|done].
        apply Hne. injection E as <-. done. }
      assert (Hs : is_Some (bx_attrs b !! at_name (upd_attr u a))). { rewrite upd_attr_name, En, Ha. eauto. }
      intros H. apply IH in H; [done|done| |by apply ab_add; auto].
      apply box_ok_add_attribute; [by apply api_ok|by right|done].
    + assert (Hs : is_Some (bx_attrs b !! at_name a)). { rewrite En, Ha. eauto. }
      intros H. apply IH in H; [done|done| |by apply ab_add; auto].
      apply box_ok_add_attribute; [by apply api_ok|by right|done].
Qed.
(** ** Meta *)
Lemma add_metas_effect lang l : forall b b', NoDup (map fst l) -> add_metas lang l b = Ok b' ->
  bx_attrs b' = bx_attrs b /\ bx_maps b' = bx_maps b /\ bx_class b' = bx_class b /\
  forall x key, (unwrap_or ∅ (bx_meta b') !! x ≫= lookup key) =
    match imap_get key l with
    | Some (VVal s) => if bool_decide (lang = Some x) then Some s else unwrap_or ∅ (bx_meta b) !! x ≫= lookup key
    | _ => unwrap_or ∅ (bx_meta b) !! x ≫= lookup key
    end.
Proof.
  induction l as [|[k v] l IH]; intros b b' Hnd.
  - intros [= <-]. done.
  - cbn [map fst] in Hnd. apply NoDup_cons in Hnd as [Hk Hnd].
    assert (Hskip : add_metas lang l b = Ok b' -> (forall s, v <> VVal s) -> bx_attrs b' = bx_attrs b /\ bx_maps b' = bx_maps b /\ bx_class b' = bx_class b /\
      forall x key, (unwrap_or ∅ (bx_meta b') !! x ≫= lookup key) = match imap_get key ((k, v) :: l) with
       | Some (VVal s) => if bool_decide (lang = Some x) then Some s else unwrap_or ∅ (bx_meta b) !! x ≫= lookup key
       | _ => unwrap_or ∅ (bx_meta b) !! x ≫= lookup key end).
    { intros H Hv. apply IH in H as (H1 & H2 & H3 & H4); [|done]. repeat (split; [done|]). intros x key. rewrite H4. cbn.
      destruct (String.eqb_spec key k) as [->|]; [|done]. rewrite (proj2 (imap_get_none k l)) by done. destruct v; try done. by destruct (Hv s). }
    cbn [add_metas]. destruct v as [r|s|o|vs]; try (intros H; apply Hskip; done).
    destruct lang as [y|]; [|done]. intros H. apply IH in H as (H1 & H2 & H3 & H4); [|done].
    repeat (split; [done|]). intros x key. rewrite H4. clear -Hk.
    assert (E : (unwrap_or ∅ (bx_meta (add_meta y k s b)) !! x ≫= lookup key) =
      if bool_decide (y = x) && bool_decide (key = k) then Some s else unwrap_or ∅ (bx_meta b) !! x ≫= lookup key).
    { unfold add_meta. cbn. destruct (decide (y = x)) as [->|Hy].
      - rewrite lookup_insert. cbn. rewrite (bool_decide_true (x = x)) by done. destruct (decide (key = k)) as [->|Hkk].
        + rewrite lookup_insert. by rewrite bool_decide_true.
        + rewrite lookup_insert_ne, bool_decide_false by congruence. cbn. destruct (unwrap_or ∅ (bx_meta b) !! x); [done|]. apply lookup_empty.
      - rewrite lookup_insert_ne, bool_decide_false by done. done. }
    rewrite E. cbn. destruct (String.eqb_spec key k) as [->|Hne].
    + rewrite (proj2 (imap_get_none k l)) by done. rewrite (bool_decide_true (k = k)) by done. rewrite andb_true_r.
      destruct (decide (y = x)) as [->|]; [by rewrite !bool_decide_true|]. by rewrite !bool_decide_false by congruence.
    + rewrite (bool_decide_false (key = k)), andb_false_r by done. by destruct (imap_get key l) as [[]|].
Qed.
Lemma add_metas_api lang l : forall b b', api_box b -> add_metas lang l b = Ok b' -> api_box b'.
Proof.
  induction l as [|[k v] l IH]; intros b b' Hb; [by intros [= <-]|]. cbn [add_metas].
  destruct v as [r|s|o|vs]; try (by apply IH). destruct lang; [|done]. apply IH. by apply ab_meta.
Qed.
Lemma add_metas_result lang l b : match add_metas lang l b with
  | Ok _ => lang = None -> forall k s, (k, VVal s) ∉ l
  | Err _ => False
  | Panic => lang = None /\ exists k s, (k, VVal s) ∈ l
  end.
Proof.
  revert b. induction l as [|[k v] l IH]; intros b; [cbn; intros _ k s H; by apply elem_of_nil in H|]. cbn [add_metas].
  assert (Hskip : (forall s, v <> VVal s) -> match add_metas lang l b with
    | Ok _ => lang = None -> forall k' s, (k', VVal s) ∉ (k, v) :: l | Err _ => False
    | Panic => lang = None /\ exists k' s, (k', VVal s) ∈ (k, v) :: l end).
  { intros Hv. specialize (IH b). destruct (add_metas lang l b) as [b'|es|].
    - intros Hl k' s [[= -> <-]|H]%elem_of_cons; [by destruct (Hv s)|]. by apply (IH Hl k' s).
    - done.
    - destruct IH as (Hl & k' & s & H). split; [done|]. exists k', s. by right. }
  destruct v as [r|s|o|vs]; try (by apply Hskip).
  destruct lang as [x|].
  - specialize (IH (add_meta x k s b)). destruct (add_metas (Some x) l (add_meta x k s b)); [done|done|]. by destruct IH.
  - split; [done|]. exists k, s. left.
Qed.
End Effect.
