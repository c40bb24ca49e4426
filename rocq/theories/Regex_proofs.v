(** The matcher decides the language of a pattern. *)
From Verif Require Import Spec_Regex.

Inductive means_all : list rx -> list ascii -> Prop :=
| ma_nil : means_all [] []
| ma_cons r k s t : means r s -> means_all k t -> means_all (r :: k) (s ++ t).

Lemma means_all_app k1 k2 s : means_all (k1 ++ k2) s <-> exists u v, s = u ++ v /\ means_all k1 u /\ means_all k2 v.
Proof.
  revert s. induction k1 as [|r k1 IH]; intros s.
  - split.
    + intros H. exists [], s. split; [done|]. split; [constructor|done].
    + intros (u & v & -> & Hu & Hv). inversion Hu; subst. done.
  - split.
    + intros H. inversion H; subst. match goal with X : means_all (k1 ++ k2) _ |- _ => apply IH in X as (u & v & -> & Hu & Hv) end.
      exists (s0 ++ u), v. rewrite app_assoc. split; [done|]. split; [by constructor|done].
    + intros (u & v & -> & Hu & Hv). inversion Hu; subst. rewrite <- app_assoc. constructor; [done|]. apply IH. eauto.
Qed.
Lemma means_one r s : means_all [r] s <-> means r s.
Proof.
  split.
  - intros H. inversion H as [|? ? ? ? Hr Hn]; subst. inversion Hn; subst. by rewrite app_nil_r.
  - intros H. rewrite <- (app_nil_r s). constructor; [done|constructor].
Qed.

Lemma means_nil_of r s : means r s -> s = [] -> nullable r = true.
Proof.
  induction 1 as [| | | | |a b s t _ IH1 _ IH2|a b s _ IH|a b s _ IH|a|a s t _ IH1 _ IH2|a s _ IH]; intros E; cbn; try done; try discriminate.
  - apply app_nil in E as [-> ->]. by rewrite IH1, IH2.
  - by rewrite IH.
  - rewrite IH by done. apply orb_true_r.
  - auto.
Qed.
Lemma nullable_means r : nullable r = true -> means r [].
Proof.
  induction r as [| | | |a IHa b IHb|a IHa b IHb|a IHa|a IHa]; cbn; intros E; try discriminate; try (constructor; by auto).
  - apply andb_true_iff in E as [E1 E2]. change (@nil ascii) with (@nil ascii ++ []). constructor; auto.
  - apply orb_true_iff in E as [E|E]; [apply m_left|apply m_right]; auto.
Qed.
Lemma nullable_spec r : nullable r = true <-> means r [].
Proof. split; [apply nullable_means|intros H; by eapply means_nil_of]. Qed.
Lemma nullable_all k : forallb nullable k = true <-> means_all k [].
Proof.
  induction k as [|r k IH]; cbn.
  - split; [constructor|done].
  - rewrite andb_true_iff, IH, nullable_spec. split.
    + intros [H1 H2]. change (@nil ascii) with (@nil ascii ++ []). by constructor.
    + intros H. inversion H as [|? ? s t Hr Hk E1 E2]; subst. apply app_nil in E2 as [-> ->]. done.
Qed.

Lemma star_char_of a r s : means r s -> r = RStar a -> forall c w, s = c :: w -> exists u v, w = u ++ v /\ means a (c :: u) /\ means (RStar a) v.
Proof.
  induction 1 as [| | | | | | | | |a' s t Hs _ Ht IH|]; intros Er c0 w0 E; try discriminate. injection Er as ->.
  destruct s as [|d s].
  - by apply IH.
  - cbn [app] in E. injection E as E1 E2. subst. exists s, t. done.
Qed.
Lemma leaf_spec r c s : match r with RChar _ | RDot | RClass _ _ => True | _ => False end ->
  means r (c :: s) <-> leaf_ok r c = true /\ s = [].
Proof.
  intros Hl. destruct r as [|d| |neg l| | | |]; try contradiction; cbn [leaf_ok].
  - split; [intros H; inversion H; subst; split; [by apply Ascii.eqb_eq|done]|]. intros [E ->]. apply Ascii.eqb_eq in E as ->. constructor.
  - split.
    + intros H. inversion H; subst. split; [|done]. apply negb_true_iff. by apply Ascii.eqb_neq.
    + intros [E ->]. constructor. apply negb_true_iff in E. by apply Ascii.eqb_neq.
  - split.
    + intros H. inversion H as [| | |l' c' Hi|l' c' Hi| | | | | |]; subst; rewrite Hi; done.
    + intros [E ->]. destruct neg, (in_ranges l c) eqn:Ei; try discriminate; by constructor.
Qed.
Lemma leaf_after r c s : match r with RChar _ | RDot | RClass _ _ => True | _ => False end ->
  (exists k, k ∈ (if leaf_ok r c then [[]] else []) /\ means_all k s) <-> means r (c :: s).
Proof.
  intros Hl. rewrite leaf_spec by done. destruct (leaf_ok r c).
  - split.
    + intros (k & Hk & Hm). apply elem_of_list_singleton in Hk as ->. inversion Hm; subst. done.
    + intros [_ ->]. exists []. split; [by apply elem_of_list_singleton|constructor].
  - split; [|intros [? _]; discriminate]. intros (k & Hk & _). by apply elem_of_nil in Hk.
Qed.
Lemma elem_app_k (ks : list (list rx)) k2 k : k ∈ map (fun k1 => k1 ++ k2) ks <-> exists k1, k = k1 ++ k2 /\ k1 ∈ ks.
Proof. rewrite elem_of_list_In, in_map_iff. setoid_rewrite elem_of_list_In. firstorder. Qed.
Lemma after_char_spec c r s : (exists k, k ∈ after_char c r /\ means_all k s) <-> means r (c :: s).
Proof.
  revert s. induction r as [|d| |neg l|a IHa b IHb|a IHa b IHb|a IHa|a IHa]; intros s; cbn [after_char].
  - split; [intros (k & Hk & _); by apply elem_of_nil in Hk|]. intros H. inversion H.
  - by apply leaf_after.
  - by apply leaf_after.
  - by apply leaf_after.
  - split.
    + intros (k & Hk & Hm). apply elem_of_app in Hk as [Hk|Hk].
      * apply elem_app_k in Hk as (k1 & -> & Hk). apply means_all_app in Hm as (u & v & -> & Hu & Hv). apply means_one in Hv.
        rewrite app_comm_cons. constructor; [|done]. apply IHa. eauto.
      * destruct (nullable a) eqn:Ea; [|by apply elem_of_nil in Hk]. apply nullable_spec in Ea.
        change (c :: s) with ([] ++ c :: s). constructor; [done|]. apply IHb. eauto.
    + intros H. inversion H as [| | | | |a' b' u v Hu Hv E1 E2| | | | |]; subst. destruct u as [|d u].
      * cbn [app] in E2. subst v. apply IHb in Hv as (k & Hk & Hm). exists k. split; [|done]. apply elem_of_app. right.
        by rewrite (proj2 (nullable_spec a) Hu).
      * injection E2 as -> <-. apply IHa in Hu as (k & Hk & Hm). exists (k ++ [b]). split.
        -- apply elem_of_app. left. apply elem_app_k. eauto.
        -- apply means_all_app. exists u, v. split; [done|]. split; [done|]. by apply means_one.
  - split.
    + intros (k & Hk & Hm). apply elem_of_app in Hk as [Hk|Hk]; [apply m_left, IHa|apply m_right, IHb]; eauto.
    + intros H. inversion H as [| | | | | |a' b' u Hu|a' b' u Hu| | |]; subst.
      * apply IHa in Hu as (k & Hk & Hm). exists k. split; [|done]. apply elem_of_app. by left.
      * apply IHb in Hu as (k & Hk & Hm). exists k. split; [|done]. apply elem_of_app. by right.
  - split.
    + intros (k & Hk & Hm). apply elem_app_k in Hk as (k1 & -> & Hk). apply means_all_app in Hm as (u & v & -> & Hu & Hv). apply means_one in Hv.
      rewrite app_comm_cons. constructor; [|done]. apply IHa. eauto.
    + intros H. destruct (star_char_of a _ _ H eq_refl c s eq_refl) as (u & v & -> & Hu & Hv). apply IHa in Hu as (k & Hk & Hm).
      exists (k ++ [RStar a]). split; [apply elem_app_k; eauto|]. apply means_all_app. exists u, v. split; [done|]. split; [done|]. by apply means_one.
  - rewrite IHa. split; [by constructor|]. intros H. by inversion H.
Qed.
Lemma after_list_spec c k s : (exists k', k' ∈ after_list c k /\ means_all k' s) <-> means_all k (c :: s).
Proof.
  revert s. induction k as [|r k IH]; intros s; cbn [after_list].
  - split; [intros (k & Hk & _); by apply elem_of_nil in Hk|]. intros H. inversion H.
  - split.
    + intros (k1 & Hk & Hm). apply elem_of_app in Hk as [Hk|Hk].
      * apply elem_app_k in Hk as (k2 & -> & Hk). apply means_all_app in Hm as (u & v & -> & Hu & Hv).
        rewrite app_comm_cons. constructor; [|done]. apply after_char_spec. eauto.
      * destruct (nullable r) eqn:Er; [|by apply elem_of_nil in Hk]. apply nullable_spec in Er.
        change (c :: s) with ([] ++ c :: s). constructor; [done|]. apply IH. eauto.
    + intros H. inversion H as [|? ? u v Hu Hv E1 E2]; subst. destruct u as [|d u].
      * cbn [app] in E2. subst v. apply IH in Hv as (k1 & Hk & Hm). exists k1. split; [|done]. apply elem_of_app. right.
        by rewrite (proj2 (nullable_spec r) Hu).
      * injection E2 as -> <-. apply after_char_spec in Hu as (k1 & Hk & Hm). exists (k1 ++ k). split.
        -- apply elem_of_app. left. apply elem_app_k. eauto.
        -- apply means_all_app. eauto.
Qed.
Lemma states_match_spec ks s : states_match ks s = true <-> exists k, k ∈ ks /\ means_all k s.
Proof.
  revert ks. induction s as [|c s IH]; intros ks; cbn [states_match].
  - rewrite existsb_exists. setoid_rewrite nullable_all. setoid_rewrite elem_of_list_In. done.
  - rewrite IH. setoid_rewrite elem_of_remove_dups. setoid_rewrite elem_of_list_In. setoid_rewrite in_concat. split.
    + intros (k & (ks' & Hks' & Hk) & Hm). apply in_map_iff in Hks' as (k0 & <- & Hk0). exists k0. split; [done|].
      apply after_list_spec. exists k. split; [by apply elem_of_list_In|done].
    + intros (k0 & Hk0 & Hm). apply after_list_spec in Hm as (k & Hk & Hm). exists k. split; [|done].
      exists (after_list c k0). split; [by apply in_map|by apply elem_of_list_In].
Qed.
Lemma rx_match_spec r s : rx_match r s = true <-> means r (list_ascii_of_string s).
Proof.
  unfold rx_match. rewrite states_match_spec. split.
  - intros (k & Hk & Hm). apply elem_of_list_singleton in Hk as ->. by apply means_one.
  - intros H. exists [r]. split; [by apply elem_of_list_singleton|by apply means_one].
Qed.
