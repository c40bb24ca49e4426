(** Exactness of the enforced-translations check. *)
From Verif Require Import Validator Validator_proofs Spec_Bundle.

Lemma diff_elem a b x : x ∈ diff a b <-> x ∈ a /\ x ∉ b.
Proof.
  unfold diff. rewrite elem_of_list_In, filter_In, <- elem_of_list_In, elem_of_remove_dups.
  rewrite negb_true_iff. split; intros [H1 H2]; split; try done.
  - intros Hin. assert (existsb (String.eqb x) b = true); [|congruence]. apply existsb_exists. exists x.
    split; [by apply elem_of_list_In|apply String.eqb_refl].
  - destruct (existsb (String.eqb x) b) eqn:E; [|done]. exfalso. apply H2.
    apply existsb_exists in E as (y & Hy & E). apply String.eqb_eq in E as <-. by apply elem_of_list_In.
Qed.

Definition tr_kinds : list okind := [KMeta; KEntry; KInformation; KLabel].
Lemma translation_errors_elem langs ovs e : langs <> [] -> e ∈ translation_errors langs ovs <->
  exists k, k ∈ tr_kinds /\ (exists ov, ov ∈ ovs /\ body_kind (ov_body ov) = k) /\
    e ∈ validate_translations k langs (List.filter (is_kind k) ovs).
Proof.
  intros Hl. unfold translation_errors. destruct langs as [|l langs]; [done|]. generalize (l :: langs). intros ls.
  fold tr_kinds. rewrite elem_of_list_In, in_concat. setoid_rewrite in_map_iff. split.
  - intros (x & (k & <- & Hk) & He). exists k. split; [by apply elem_of_list_In|]. unfold check_kind in He.
    destruct (List.filter (is_kind k) ovs) as [|y r] eqn:E; [done|].
    split; [|by apply elem_of_list_In]. exists y. assert (Hy : In y (List.filter (is_kind k) ovs)) by (rewrite E; by left).
    apply filter_In in Hy as [Hy Hk']. apply bool_decide_eq_true_1 in Hk'. split; [by apply elem_of_list_In|done].
  - intros (k & Hk & (ov & Hov & Hko) & He). exists (check_kind ls ovs k). split.
    + exists k. split; [done|]. by apply elem_of_list_In.
    + unfold check_kind. destruct (List.filter (is_kind k) ovs) as [|y r] eqn:E; [|by apply elem_of_list_In].
      exfalso. assert (Hin : In ov (List.filter (is_kind k) ovs)).
      { apply filter_In. split; [by apply elem_of_list_In|]. unfold is_kind. by apply bool_decide_eq_true_2. }
      rewrite E in Hin. done.
Qed.
Lemma kind_elem k ovs ov : ov ∈ List.filter (is_kind k) ovs <-> ov ∈ ovs /\ body_kind (ov_body ov) = k.
Proof.
  rewrite elem_of_list_In, filter_In, <- elem_of_list_In. unfold is_kind. by rewrite bool_decide_eq_true.
Qed.
Lemma all_keys_elem ovs key : key ∈ concat (map tr_keys ovs) <-> exists ov, ov ∈ ovs /\ key ∈ tr_keys ov.
Proof.
  rewrite elem_of_list_In, in_concat. setoid_rewrite in_map_iff. split.
  - intros (x & (ov & <- & Hov) & Hin). exists ov. split; by apply elem_of_list_In.
  - intros (ov & Hov & Hk). exists (tr_keys ov). split; [exists ov; split; [done|by apply elem_of_list_In]|by apply elem_of_list_In].
Qed.

Section T.
Context (langs : list string) (ovs : list overlay) (Hl : langs <> []).
Lemma tr_unexpected k l : VUnexpected k l ∈ translation_errors langs ovs <->
  k ∈ tr_kinds /\ l ∉ langs /\ exists ov, ov ∈ ovs /\ body_kind (ov_body ov) = k /\ unwrap_or "" (ov_lang ov) = l.
Proof.
  rewrite translation_errors_elem by done. unfold validate_translations. split.
  - intros (k' & Hk & _ & He). rewrite !elem_of_app in He. destruct He as [He|[He|He]].
    + apply elem_of_list_In, in_map_iff in He as (x & [= <- <-] & Hx). apply elem_of_list_In, diff_elem in Hx as [Hx1 Hx2].
      split; [done|]. split; [done|]. apply elem_of_list_In, in_map_iff in Hx1 as (ov & <- & Hov).
      apply elem_of_list_In, kind_elem in Hov as [? ?]. eauto.
    + by apply elem_of_list_In, in_map_iff in He as (x & [= ] & Hx).
    + apply elem_of_list_In, in_concat in He as (y & Hy & He). apply in_map_iff in Hy as (ov & <- & _).
      by apply in_map_iff in He as (x & [= ] & _).
  - intros (Hk & Hn & ov & Hov & Hko & Hlo). exists k. split; [done|]. split; [eauto|]. apply elem_of_app. left.
    apply elem_of_list_In, in_map, elem_of_list_In, diff_elem. split; [|done]. subst l.
    apply elem_of_list_In. apply (in_map (fun ov => unwrap_or "" (ov_lang ov))). by apply elem_of_list_In, kind_elem.
Qed.
Lemma tr_missing k l : VMissing k l ∈ translation_errors langs ovs <->
  k ∈ tr_kinds /\ l ∈ langs /\ (exists ov, ov ∈ ovs /\ body_kind (ov_body ov) = k) /\
  (forall ov, ov ∈ ovs -> body_kind (ov_body ov) = k -> unwrap_or "" (ov_lang ov) <> l).
Proof.
  rewrite translation_errors_elem by done. unfold validate_translations. split.
  - intros (k' & Hk & Hex & He). rewrite !elem_of_app in He. destruct He as [He|[He|He]].
    + by apply elem_of_list_In, in_map_iff in He as (x & [= ] & Hx).
    + apply elem_of_list_In, in_map_iff in He as (x & [= <- <-] & Hx). apply elem_of_list_In, diff_elem in Hx as [Hx1 Hx2].
      split; [done|]. split; [done|]. split; [done|]. intros ov Hov Hko <-. apply Hx2. apply elem_of_list_In.
      apply (in_map (fun ov => unwrap_or "" (ov_lang ov))). by apply elem_of_list_In, kind_elem.
    + apply elem_of_list_In, in_concat in He as (y & Hy & He). apply in_map_iff in Hy as (ov & <- & _).
      by apply in_map_iff in He as (x & [= ] & _).
  - intros (Hk & Hn & Hex & Hno). exists k. split; [done|]. split; [done|]. apply elem_of_app. right. apply elem_of_app. left.
    apply elem_of_list_In, in_map, elem_of_list_In, diff_elem. split; [done|].
    intros Hin. apply elem_of_list_In, in_map_iff in Hin as (ov & E & Hov). apply elem_of_list_In, kind_elem in Hov as [? ?].
    by eapply Hno.
Qed.
Lemma tr_missing_key k l key : VMissingKey k l key ∈ translation_errors langs ovs <->
  k ∈ tr_kinds /\ (exists ov, ov ∈ ovs /\ body_kind (ov_body ov) = k /\ unwrap_or "" (ov_lang ov) = l /\ key ∉ tr_keys ov) /\
  (exists ov, ov ∈ ovs /\ body_kind (ov_body ov) = k /\ key ∈ tr_keys ov).
Proof.
  rewrite translation_errors_elem by done. unfold validate_translations. split.
  - intros (k' & Hk & Hex & He). rewrite !elem_of_app in He. destruct He as [He|[He|He]].
    + by apply elem_of_list_In, in_map_iff in He as (x & [= ] & Hx).
    + by apply elem_of_list_In, in_map_iff in He as (x & [= ] & Hx).
    + apply elem_of_list_In, in_concat in He as (y & Hy & He). apply in_map_iff in Hy as (ov & <- & Hov).
      apply in_map_iff in He as (x & [= <- <- <-] & Hx). apply elem_of_list_In, diff_elem in Hx as [Hx1 Hx2].
      apply elem_of_list_In, kind_elem in Hov as [Hov Hko]. apply all_keys_elem in Hx1 as (ov' & Hov' & Hkey).
      apply kind_elem in Hov' as [? ?]. split; [done|]. split; eauto 10.
  - intros (Hk & (ov & Hov & Hko & Hlo & Hnk) & (ov' & Hov' & Hko' & Hk')). exists k. split; [done|]. split; [eauto|].
    apply elem_of_app. right. apply elem_of_app. right.
    apply elem_of_list_In, in_concat.
    eexists. split.
    + apply (in_map (fun ov => map (VMissingKey k (unwrap_or "" (ov_lang ov))) (diff (concat (map tr_keys (List.filter (is_kind k) ovs))) (tr_keys ov)))).
      apply elem_of_list_In. apply (kind_elem k ovs ov). done.
    + cbv beta. rewrite Hlo. apply in_map, elem_of_list_In, diff_elem. split; [|done]. apply all_keys_elem. exists ov'.
      split; [by apply kind_elem|done].
Qed.
Lemma tr_shape e : e ∈ translation_errors langs ovs ->
  exists k, (exists l, e = VUnexpected k l) \/ (exists l, e = VMissing k l) \/ (exists l key, e = VMissingKey k l key).
Proof.
  rewrite translation_errors_elem by done. unfold validate_translations. intros (k' & Hk & Hex & He).
  rewrite !elem_of_app in He. exists k'. destruct He as [He|[He|He]].
  - apply elem_of_list_In, in_map_iff in He as (x & <- & Hx); eauto.
  - apply elem_of_list_In, in_map_iff in He as (x & <- & Hx); eauto.
  - apply elem_of_list_In, in_concat in He as (y & Hy & He). apply in_map_iff in Hy as (ov & <- & Hov).
    apply in_map_iff in He as (x & <- & Hx); eauto.
Qed.
Lemma tr_none : translation_errors langs ovs = [] <->
  forall k ov, k ∈ tr_kinds -> ov ∈ ovs -> body_kind (ov_body ov) = k ->
    unwrap_or "" (ov_lang ov) ∈ langs /\
    (forall l, l ∈ langs -> exists ov', ov' ∈ ovs /\ body_kind (ov_body ov') = k /\ unwrap_or "" (ov_lang ov') = l) /\
    (forall ov' key, ov' ∈ ovs -> body_kind (ov_body ov') = k -> key ∈ tr_keys ov' -> key ∈ tr_keys ov).
Proof.
  split.
  - intros E k ov Hk Hov Hko. split; [|split].
    + destruct (decide (unwrap_or "" (ov_lang ov) ∈ langs)) as [|Hn]; [done|]. exfalso.
      assert (H : VUnexpected k (unwrap_or "" (ov_lang ov)) ∈ translation_errors langs ovs) by (apply tr_unexpected; eauto 10).
      rewrite E in H. by apply not_elem_of_nil in H.
    + intros l Hin. destruct (decide (Exists (fun ov' => body_kind (ov_body ov') = k /\ unwrap_or "" (ov_lang ov') = l) ovs)) as [Hex|Hno].
      { apply Exists_exists in Hex as (x & ? & ? & ?). eauto. }
      exfalso. assert (H : VMissing k l ∈ translation_errors langs ovs).
      { apply tr_missing. split; [done|]. split; [done|]. split; [eauto|]. intros x Hx Hkx Hlx. apply Hno. apply Exists_exists. eauto. }
      rewrite E in H. by apply not_elem_of_nil in H.
    + intros ov' key Hov' Hk' Hkey. destruct (decide (key ∈ tr_keys ov)) as [|Hn]; [done|]. exfalso.
      assert (H : VMissingKey k (unwrap_or "" (ov_lang ov)) key ∈ translation_errors langs ovs) by (apply tr_missing_key; eauto 15).
      rewrite E in H. by apply not_elem_of_nil in H.
  - intros H. destruct (translation_errors langs ovs) as [|e es] eqn:E; [done|]. exfalso.
    assert (He : e ∈ translation_errors langs ovs) by (rewrite E; apply elem_of_list_here).
    destruct (tr_shape e He) as (k & [(l & ->)|[(l & ->)|(l & key & ->)]]).
    + apply tr_unexpected in He as (Hk & Hn & ov & Hov & Hko & <-). destruct (H k ov Hk Hov Hko) as [? _]. done.
    + apply tr_missing in He as (Hk & Hin & (ov & Hov & Hko) & Hno). destruct (H k ov Hk Hov Hko) as (_ & H2 & _).
      destruct (H2 l Hin) as (ov' & ? & ? & ?). by eapply Hno.
    + apply tr_missing_key in He as (Hk & (ov & Hov & Hko & Hlo & Hnk) & (ov' & Hov' & Hko' & Hk')).
      destruct (H k ov Hk Hov Hko) as (_ & _ & H3). apply Hnk. by eapply H3.
Qed.
End T.

(** In terms of the specification. *)
Lemma speaks_iff ov k l : speaks ov k l <-> k ∈ tr_kinds /\ body_kind (ov_body ov) = k /\ unwrap_or "" (ov_lang ov) = l.
Proof.
  unfold speaks, tr_kinds, ov_lang. split.
  - destruct (ov_body ov); intros H; try done; destruct H as [-> ->]; (split; [by apply (bool_decide_unpack _)|done]).
  - intros (Hk & <- & <-). destruct (ov_body ov); try done; exfalso; cbn in Hk; apply (bool_decide_pack _) in Hk; by vm_compute in Hk.
Qed.
Lemma map_keys {V} (m : gmap string V) key : key ∈ (map_to_list m).*1 <-> is_Some (m !! key).
Proof.
  rewrite elem_of_list_fmap. split.
  - intros ([k v] & -> & H). apply elem_of_map_to_list in H. by exists v.
  - intros [v H]. exists (key, v). split; [done|]. by apply elem_of_map_to_list.
Qed.
Lemma says_iff ov k l key : speaks ov k l -> key ∈ tr_keys ov <-> says ov key.
Proof. unfold speaks, says, tr_keys, ov_attrs. destruct (ov_body ov); intros H; try done; apply map_keys. Qed.
Lemma tr_none' langs ovs : langs <> [] -> translation_errors langs ovs = [] <->
  forall ov k l, ov ∈ ovs -> speaks ov k l ->
    l ∈ langs /\
    (forall l', l' ∈ langs -> exists ov', ov' ∈ ovs /\ speaks ov' k l') /\
    (forall ov' l' key, ov' ∈ ovs -> speaks ov' k l' -> says ov' key -> says ov key).
Proof.
  intros Hl. rewrite (tr_none langs ovs Hl). split.
  - intros H ov k l Hov Hs. pose proof Hs as Hs'. apply speaks_iff in Hs' as (Hk & Hb & <-). destruct (H k ov Hk Hov Hb) as (H1 & H2 & H3).
    split; [done|]. split.
    + intros l' Hl'. destruct (H2 l' Hl') as (ov' & ? & ? & ?). exists ov'. split; [done|]. by apply speaks_iff.
    + intros ov' l' key Hov' Hs' Hkey. apply (says_iff _ _ _ _ Hs). apply (H3 ov' key Hov'); [by apply speaks_iff in Hs' as (_ & ? & _)|].
      by apply (says_iff _ _ _ _ Hs').
  - intros H k ov Hk Hov Hb. assert (Hs : speaks ov k (unwrap_or "" (ov_lang ov))) by by apply speaks_iff.
    destruct (H ov k _ Hov Hs) as (H1 & H2 & H3). split; [done|]. split.
    + intros l Hin. destruct (H2 l Hin) as (ov' & ? & Hs'). apply speaks_iff in Hs' as (_ & ? & ?). eauto.
    + intros ov' key Hov' Hb' Hkey. apply (says_iff _ _ _ _ Hs).
      assert (Hs' : speaks ov' k (unwrap_or "" (ov_lang ov'))) by by apply speaks_iff.
      apply (H3 ov' _ key Hov' Hs'). by apply (says_iff _ _ _ _ Hs').
Qed.
Lemma tr_unexpected' langs ovs k l : langs <> [] -> VUnexpected k l ∈ translation_errors langs ovs <-> l ∉ langs /\ exists ov, ov ∈ ovs /\ speaks ov k l.
Proof.
  intros Hl. rewrite (tr_unexpected langs ovs Hl). split.
  - intros (? & ? & ov & ? & ? & ?). split; [done|]. exists ov. split; [done|]. by apply speaks_iff.
  - intros (? & ov & ? & Hs). apply speaks_iff in Hs as (? & ? & ?). eauto 10.
Qed.
Lemma tr_missing' langs ovs k l : langs <> [] -> VMissing k l ∈ translation_errors langs ovs <->
  l ∈ langs /\ (exists ov l', ov ∈ ovs /\ speaks ov k l') /\ ~ exists ov, ov ∈ ovs /\ speaks ov k l.
Proof.
  intros Hl. rewrite (tr_missing langs ovs Hl). split.
  - intros (Hk & Hin & (ov & Ho1 & Ho2) & H). split; [done|]. split.
    + exists ov, (unwrap_or "" (ov_lang ov)). split; [done|]. by apply speaks_iff.
    + intros (ov' & Hov' & Hs). apply speaks_iff in Hs as (? & ? & ?). by eapply H.
  - intros (Hin & (ov & l' & Ho1 & Hs) & H). apply speaks_iff in Hs as (Hk & Ho2 & Ho3). split; [done|]. split; [done|]. split; [eauto|].
    intros x Hx Hkx Hlx. apply H. exists x. split; [done|]. by apply speaks_iff.
Qed.
Lemma tr_missing_key' langs ovs k l key : langs <> [] -> VMissingKey k l key ∈ translation_errors langs ovs <->
  (exists ov, ov ∈ ovs /\ speaks ov k l /\ ~ says ov key) /\ (exists ov l', ov ∈ ovs /\ speaks ov k l' /\ says ov key).
Proof.
  intros Hl. rewrite (tr_missing_key langs ovs Hl). split.
  - intros (Hk & (ov & ? & ? & ? & Hn) & (ov' & ? & ? & Hy)).
    assert (Hs : speaks ov k l) by by apply speaks_iff. assert (Hs' : speaks ov' k (unwrap_or "" (ov_lang ov'))) by by apply speaks_iff. split.
    + exists ov. split; [done|]. split; [done|]. intros Hx. apply Hn. by apply (says_iff _ _ _ _ Hs).
    + exists ov', (unwrap_or "" (ov_lang ov')). split; [done|]. split; [done|]. by apply (says_iff _ _ _ _ Hs').
  - intros ((ov & ? & Hs & Hn) & (ov' & l' & ? & Hs' & Hy)). pose proof Hs as Hs1. pose proof Hs' as Hs2.
    apply speaks_iff in Hs1 as (? & ? & ?). apply speaks_iff in Hs2 as (? & ? & ?). split; [done|]. split.
    + exists ov. split; [done|]. split; [done|]. split; [done|]. intros Hx. apply Hn. by apply (says_iff _ _ _ _ Hs).
    + exists ov'. split; [done|]. split; [done|]. by apply (says_iff _ _ _ _ Hs').
Qed.
