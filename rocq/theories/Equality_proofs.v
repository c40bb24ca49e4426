(** Equality of commands is being the same but for the order of names; the same effect. *)
From Verif Require Import Base Ast Bundle Spec_Bundle Build Spec_Build Codec Codec_proofs Upd_proofs Effect_proofs Command_proofs Equality Spec_Equality.
Local Open Scope list_scope.

(** ** Maps *)
Lemma split_get {V} k (v : V) l : imap_get k l = Some v -> exists p q, l = p ++ (k, v) :: q /\ k ∉ map fst p.
Proof.
  induction l as [|[j w] l IH]; [done|]. cbn. destruct (String.eqb_spec k j) as [->|Hne].
  - intros [= ->]. exists [], l. split; [done|]. by intros ?%elem_of_nil.
  - intros H. destruct (IH H) as (p & q & -> & Hk). exists ((j, w) :: p), q. split; [done|]. cbn. intros [?|?]%elem_of_cons; done.
Qed.
Lemma get_middle {V} k j (v : V) p q : k <> j -> imap_get k (p ++ (j, v) :: q) = imap_get k (p ++ q).
Proof.
  intros Hne. induction p as [|[i w] p IH]; cbn; [by rewrite (proj2 (String.eqb_neq k j))|]. by rewrite IH.
Qed.
Lemma imap_eqb_reordered {V} (eq : V -> V -> bool) (R : V -> V -> Prop) l : NoDup (map fst l) -> forall l',
  (forall k v v', (k, v) ∈ l -> imap_get k l' = Some v' -> eq v v' = true -> R v v') -> imap_eqb eq l l' = true -> reordered R l l'.
Proof.
  induction l as [|[k v] l IH]; intros Hnd l' HR H; unfold imap_eqb in H; apply andb_true_iff in H as [Hl Hf]; apply Nat.eqb_eq in Hl.
  - destruct l'; [|discriminate]. exists []. by split.
  - cbn [forallb fst snd] in Hf. apply andb_true_iff in Hf as [Hk Hf]. destruct (imap_get k l') as [v'|] eqn:E; [|discriminate].
    destruct (split_get _ _ _ E) as (p & q & -> & Hp). cbn [map fst] in Hnd. apply NoDup_cons in Hnd as [Hkl Hnd].
    assert (G : forall j w, (j, w) ∈ l -> imap_get j (p ++ (k, v') :: q) = imap_get j (p ++ q)).
    { intros j w Hj. apply get_middle. intros ->. apply Hkl. apply elem_of_list_fmap. by exists (k, w). }
    destruct (IH Hnd (p ++ q)) as (m & Hm & F).
    + intros j w w' Hj Hg. apply (HR j w w'); [by right|]. by rewrite (G j w Hj).
    + unfold imap_eqb. apply andb_true_iff. split.
      * apply Nat.eqb_eq. rewrite app_length in *. cbn in Hl. lia.
      * apply forallb_forall. intros [j w] Hj. rewrite forallb_forall in Hf. specialize (Hf (j, w) Hj). cbn [fst snd] in *. by rewrite <- (G j w (proj2 (elem_of_list_In _ _) Hj)).
    + apply Forall2_app_inv_r in F as (mp & mq & F1 & F2 & ->). exists (mp ++ (k, v) :: mq). split.
      * rewrite Hm. apply Permutation_middle.
      * apply Forall2_app; [done|]. constructor; [|done]. split; [done|]. by apply (HR k v v'); [left| |].
Qed.
Lemma reordered_get {V} (R : V -> V -> Prop) l l' k v : NoDup (map fst l') -> reordered R l l' -> (k, v) ∈ l -> exists v', imap_get k l' = Some v' /\ R v v'.
Proof.
  intros Hnd (m & Hm & F) H. rewrite Hm in H. apply elem_of_list_lookup in H as [i Hi]. destruct (Forall2_lookup_l _ _ _ _ _ F Hi) as ([k' v'] & Hi' & E & HR). cbn in E, HR. subst k'.
  exists v'. split; [|done]. apply imap_get_nodup; [done|]. by eapply elem_of_list_lookup_2.
Qed.
Lemma reordered_imap_eqb {V} (eq : V -> V -> bool) (R : V -> V -> Prop) l l' : NoDup (map fst l') ->
  (forall k v v', (k, v) ∈ l -> imap_get k l' = Some v' -> R v v' -> eq v v' = true) -> reordered R l l' -> imap_eqb eq l l' = true.
Proof.
  intros Hnd HR H. apply andb_true_iff. split.
  - destruct H as (m & Hm & F). apply Nat.eqb_eq. rewrite (Permutation_length Hm). by eapply Forall2_length.
  - apply forallb_forall. intros [k v] Hin. apply elem_of_list_In in Hin. destruct (reordered_get R l l' k v Hnd H Hin) as (v' & E & Hv). cbn. rewrite E. by apply (HR k).
Qed.
Lemma Forall2_perm {A B} (P : A -> B -> Prop) l m l' : l ≡ₚ m -> Forall2 P m l' -> exists m', l' ≡ₚ m' /\ Forall2 P l m'.
Proof.
  intros H. revert l'. induction H as [|x l m H IH|x y l|l m n H1 IH1 H2 IH2]; intros l' F.
  - inversion F. by exists [].
  - inversion F as [|? y ? l2 Hx F2]; subst. destruct (IH _ F2) as (m' & Hp & F'). exists (y :: m'). split; [by constructor|by constructor].
  - inversion F as [|? a ? l2 Hx F2]; subst. inversion F2 as [|? b ? l3 Hy F3]; subst. exists (b :: a :: l3). split; [constructor|by repeat constructor].
  - destruct (IH2 _ F) as (m2 & Hp & F'). destruct (IH1 _ F') as (m3 & Hp' & F''). exists m3. split; [by etrans|done].
Qed.
Lemma reordered_flip {V} (R S : V -> V -> Prop) l l' : (forall k v v', (k, v) ∈ l -> R v v' -> S v' v) -> reordered R l l' -> reordered S l' l.
Proof.
  intros HS (m & Hm & F). assert (F0 : Forall (fun x => forall v', R x.2 v' -> S v' x.2) m).
  { apply Forall_forall. intros [k v] Hin v' Hv. rewrite <- Hm in Hin. by apply (HS k). }
  assert (F' : Forall2 (fun x y => x.1 = y.1 /\ S y.2 x.2) m l').
  { clear -F F0. induction F as [|x y m l' [H1 H2] F IH]; [constructor|]. inversion F0; subst. constructor; [split; auto|auto]. }
  destruct (Forall2_perm _ _ _ _ Hm F') as (m' & Hp & F2). exists m'. split; [done|]. clear -F2. induction F2 as [|x y a b [H1 H2] F IH]; constructor; [done|done].
Qed.
Lemma reordered_trans {V} (R S T : V -> V -> Prop) l l' l'' : (forall k u v w, (k, u) ∈ l -> R u v -> S v w -> T u w) -> reordered R l l' -> reordered S l' l'' -> reordered T l l''.
Proof.
  intros HT (m & Hm & F) (m2 & Hm2 & F2).
  assert (X : exists n, m ≡ₚ n /\ Forall2 (fun x y => x.1 = y.1 /\ R x.2 y.2) n m2).
  { assert (F' : Forall2 (fun y x => x.1 = y.1 /\ R x.2 y.2) l' m) by (by apply Forall2_flip). destruct (Forall2_perm _ m2 l' m (Permutation_sym Hm2) F') as (n & Hn & Fn). exists n. split; [done|]. by apply Forall2_flip. }
  destruct X as (n & Hn & Fn). exists n. split; [by etrans|]. assert (Hin : forall x, x ∈ n -> x ∈ l) by (intros x Hx; by rewrite Hm, Hn).
  clear -HT F2 Fn Hin. revert l'' F2. induction Fn as [|x y n m [H1 H2] Fn IH]; intros l'' F2; inversion F2 as [|? z ? l3 [H3 H4] F3]; subst; constructor.
  - split; [congruence|]. apply (HT x.1 x.2 y.2 z.2); [|done|done]. apply Hin. destruct x. left.
  - apply IH; [|done]. intros a Ha. apply Hin. by right.
Qed.
Lemma reordered_refl {V} (R : V -> V -> Prop) l : (forall k v, (k, v) ∈ l -> R v v) -> reordered R l l.
Proof. intros H. exists l. split; [done|]. induction l as [|[k v] l IH]; constructor; [split; [done|]; by apply (H k); left|]. apply IH. intros j w Hj. by apply (H j); right. Qed.
Lemma reordered_keys {V} (R : V -> V -> Prop) l l' : reordered R l l' -> map fst l ≡ₚ map fst l'.
Proof.
  intros (m & Hm & F). transitivity (map fst m); [by apply (fmap_Permutation fst)|]. assert (E : map fst m = map fst l') by (clear -F; induction F as [|x y m l [H _] F IH]; [done|cbn; by rewrite H, IH]). by rewrite E.
Qed.
Lemma reordered_imap_get {V} (R : V -> V -> Prop) l l' k : NoDup (map fst l) -> reordered R l l' ->
  match imap_get k l, imap_get k l' with Some v, Some v' => R v v' | None, None => True | _, _ => False end.
Proof.
  intros Hnd H. pose proof (reordered_keys _ _ _ H) as K. assert (Hnd' : NoDup (map fst l')) by (by rewrite <- K).
  destruct (imap_get k l) as [v|] eqn:E.
  - destruct (reordered_get R l l' k v Hnd' H (imap_get_elem _ _ _ E)) as (v' & -> & Hv). done.
  - apply imap_get_none in E. rewrite K in E. apply imap_get_none in E. by rewrite E.
Qed.

(** ** Values *)
Lemma value_eqb_obj l l' : value_eqb (VObj l) (VObj l') = imap_eqb value_eqb l l'.
Proof. cbn [value_eqb]. unfold imap_eqb. f_equal. Qed.
Lemma value_eqb_arr l l' : value_eqb (VArr l) (VArr l') = list_eqb value_eqb l l'.
Proof. revert l'. induction l as [|x l IH]; intros [|y l']; try done. cbn [list_eqb]. rewrite <- IH. reflexivity. Qed.
Lemma ok_obj l : nvalue_ok (VObj l) -> NoDup (map fst l) /\ forall k v, (k, v) ∈ l -> nvalue_ok v.
Proof.
  cbn. intros [H1 H2]. split; [done|]. clear H1. induction l as [|kv l IH]; intros k v Hin; [by apply elem_of_nil in Hin|]. destruct H2 as [Ha Hb].
  apply elem_of_cons in Hin as [<-|Hin]; [done|]. by apply (IH Hb k).
Qed.
Lemma ok_arr l : nvalue_ok (VArr l) -> forall v, v ∈ l -> nvalue_ok v.
Proof.
  cbn. intros H. induction l as [|x l IH]; intros v Hin; [by apply elem_of_nil in Hin|]. destruct H as [Ha Hb].
  apply elem_of_cons in Hin as [->|Hin]; [done|]. by apply IH.
Qed.
Lemma ref_eqb_eq r r' : ref_eqb r r' = true <-> r = r'.
Proof. destruct r, r'; cbn; rewrite ?String.eqb_eq; split; congruence. Qed.
Lemma value_eqb_same v : forall v', nvalue_ok v -> nvalue_ok v' -> value_eqb v v' = true <-> same_value v v'.
Proof.
  induction v as [r|s|l IH|l IH] using nvalue_ind'; intros v' Hv Hv'.
  - split; [|intros H; inversion H; subst; by apply ref_eqb_eq]. destruct v'; try done. cbn. intros ->%ref_eqb_eq. constructor.
  - split; [|intros H; inversion H; subst; apply String.eqb_refl]. destruct v'; try done. cbn. intros ->%String.eqb_eq. constructor.
  - destruct (ok_obj _ Hv) as [Hnd Hl]. split.
    + destruct v' as [| |l'|]; try done. rewrite value_eqb_obj. destruct (ok_obj _ Hv') as [Hnd' Hl']. intros H.
      apply (imap_eqb_reordered value_eqb same_value) in H as (m & Hm & F); [|done|].
      * by apply (sv_obj l m l').
      * intros k v v' Hin Hg. apply (IH k v Hin); [by apply (Hl k)|]. apply (Hl' k). by apply imap_get_elem.
    + intros H. inversion H as [| | |? m l' Hm F]; subst. rewrite value_eqb_obj. destruct (ok_obj _ Hv') as [Hnd' Hl'].
      apply (reordered_imap_eqb value_eqb same_value); [done| |by exists m]. intros k v v' Hin Hg. apply (IH k v Hin); [by apply (Hl k)|]. apply (Hl' k). by apply imap_get_elem.
  - assert (A : forall l', (forall v, v ∈ l' -> nvalue_ok v) -> list_eqb value_eqb l l' = true <-> Forall2 same_value l l').
    { pose proof (ok_arr _ Hv) as Hl. clear Hv Hv' v'. induction l as [|x l IHl]; intros [|y l'] Hl'; cbn.
      - split; [constructor|done].
      - split; [done|intros H; inversion H].
      - split; [done|intros H; inversion H].
      - rewrite andb_true_iff. rewrite (IH x); [|left|by apply Hl; left|by apply Hl'; left].
        rewrite (IHl); [|intros v Hin; apply IH; by right|intros v Hin; apply Hl; by right|intros v Hin; apply Hl'; by right].
        split; [intros [? ?]; by constructor|intros H; by inversion H]. }
    split.
    + destruct v' as [| | |l']; try done. rewrite value_eqb_arr. intros H. constructor. apply A; [by apply ok_arr|done].
    + intros H. inversion H; subst. rewrite value_eqb_arr. apply A; [by apply ok_arr|done].
Qed.

(** ** An equivalence *)
Lemma same_value_refl v : same_value v v.
Proof.
  induction v as [r|s|l IH|l IH] using nvalue_ind'; try constructor.
  - apply (sv_obj l l l); [done|]. induction l as [|[k v] l IHl]; constructor; [split; [done|]; by apply (IH k); left|]. apply IHl. intros j w Hj. by apply (IH j); right.
  - induction l as [|v l IHl]; constructor; [by apply IH; left|]. apply IHl. intros w Hw. by apply IH; right.
Qed.
Lemma same_value_sym v : forall v', same_value v v' -> same_value v' v.
Proof.
  induction v as [r|s|l IH|l IH] using nvalue_ind'; intros v' H; inversion H as [| |? l' F|? m l' Hm F]; subst; try constructor.
  - assert (X : reordered same_value l' l) by (apply (reordered_flip same_value same_value l l'); [intros k v v' Hin; apply (IH k v Hin)|by exists m]). destruct X as (m' & Hm' & F'). by apply (sv_obj l' m' l).
  - clear H. induction F as [|x y l l' Hxy F IHF]; constructor; [apply IH; [left|done]|]. apply IHF. intros w Hw. apply IH. by right.
Qed.
Lemma same_value_trans v : forall v' v'', same_value v v' -> same_value v' v'' -> same_value v v''.
Proof.
  induction v as [r|s|l IH|l IH] using nvalue_ind'; intros v' v'' H H'; inversion H as [| |? l' F|? m l' Hm F]; subst; inversion H' as [| |? l'' F2|? m2 l'' Hm2 F2]; subst; try constructor.
  - assert (X : reordered same_value l l'').
    { apply (reordered_trans same_value same_value same_value l l' l''); [intros k u w z Hin; apply (IH k u Hin)|by exists m|by exists m2]. }
    destruct X as (n & Hn & Fn). by apply (sv_obj l n l'').
  - clear H H'. revert l'' F2. induction F as [|x y l l' Hxy F IHF]; intros l'' F2; inversion F2 as [|? z ? l3 Hyz F3]; subst; constructor; [by apply (IH x (elem_of_list_here _ _) y)|].
    apply IHF; [|done]. intros w Hw. apply IH. by right.
Qed.
Lemma type_eqb_eq t : forall t', type_eqb t t' = true <-> t = t'.
Proof.
  induction t as [r|v|t IH|]; intros [r'|v'|t'|]; cbn; try (split; congruence); rewrite ?ref_eqb_eq, ?bool_decide_eq_true, ?IH; split; congruence.
Qed.
Lemma texts_eqb_eq l : forall l', list_eqb String.eqb l l' = true <-> l = l'.
Proof. induction l as [|x l IH]; intros [|y l']; cbn; try (split; congruence). rewrite andb_true_iff, String.eqb_eq, IH. split; [intros [-> ->]; done|intros [= -> ->]; done]. Qed.
Lemma option_eqb_same {V} (eq : V -> V -> bool) (R : V -> V -> Prop) a b :
  (forall x y, a = Some x -> b = Some y -> eq x y = true <-> R x y) -> option_eqb eq a b = true <-> same_opt R a b.
Proof. intros H. destruct a as [x|], b as [y|]; cbn; try (split; done). by apply H. Qed.
Lemma imap_eqb_iff {V} (eq : V -> V -> bool) (R : V -> V -> Prop) l l' : NoDup (map fst l) -> NoDup (map fst l') ->
  (forall k v v', (k, v) ∈ l -> imap_get k l' = Some v' -> eq v v' = true <-> R v v') -> imap_eqb eq l l' = true <-> reordered R l l'.
Proof.
  intros H1 H2 HR. split; intros H.
  - apply (imap_eqb_reordered eq R); [done| |done]. intros k v v' Hi Hg. by apply (HR k).
  - apply (reordered_imap_eqb eq R); [done| |done]. intros k v v' Hi Hg. by apply (HR k).
Qed.
Lemma values_eqb_same m m' : values_ok m -> values_ok m' -> option_eqb (imap_eqb value_eqb) m m' = true <-> same_opt (reordered same_value) m m'.
Proof.
  intros H H'. apply option_eqb_same. intros x y -> ->. destruct (H x eq_refl) as [Hn Hv], (H' y eq_refl) as [Hn' Hv'].
  apply imap_eqb_iff; [done|done|]. intros k v v' Hin Hg. apply value_eqb_same; [|by apply (Hv' k)]. apply (Hv k). by apply imap_get_nodup.
Qed.
Lemma otype_eqb_eq t t' : otype_eqb t t' = true <-> t = t'.
Proof.
  destruct t as [k v], t' as [k' v']. unfold otype_eqb. cbn. rewrite andb_true_iff, String.eqb_eq, bool_decide_eq_true. split; [by intros [-> ->]|by intros [= -> ->]].
Qed.
Lemma and_iff2 (A B C D : Prop) : (A <-> B) -> (C <-> D) -> (A /\ C <-> B /\ D). Proof. tauto. Qed.
Lemma command_eqb_same c c' : command_ok c -> command_ok c' -> command_eqb c c' = true <-> reordered_command c c'.
Proof.
  intros H H'. unfold command_eqb, reordered_command. rewrite andb_true_iff. apply and_iff2.
  { destruct (cmd_kind c), (cmd_kind c'); cbn; split; congruence. }
  unfold command_ok in *. unfold object_eqb, same_object. destruct (cmd_obj c) as [a|a|t a], (cmd_obj c') as [b|b|t' b]; try (split; done).
  - unfold capture_eqb. destruct H as [Ha Hp], H' as [Ha' Hp']. rewrite !andb_true_iff. apply and_iff2; [|apply and_iff2].
    + apply option_eqb_same. intros x y Ex Ey. apply imap_eqb_iff; [by apply Ha|by apply Ha'|]. intros. apply type_eqb_eq.
    + by apply values_eqb_same.
    + destruct (cc_flagged a), (cc_flagged b); cbn; try (split; congruence). rewrite texts_eqb_eq. split; congruence.
  - rewrite ref_eqb_eq. destruct a, b. cbn. split; congruence.
  - rewrite !andb_true_iff, otype_eqb_eq. unfold content_eqb. rewrite andb_true_iff. destruct H, H'. by rewrite !values_eqb_same.
Qed.
Lemma same_opt_refl {A} (R : A -> A -> Prop) a : (forall x, R x x) -> same_opt R a a. Proof. intros H. destruct a; cbn; auto. Qed.
Lemma same_opt_sym {A} (R : A -> A -> Prop) a b : (forall x y, R x y -> R y x) -> same_opt R a b -> same_opt R b a. Proof. destruct a, b; cbn; auto. Qed.
Lemma same_opt_trans {A} (R : A -> A -> Prop) a b c : (forall x y z, R x y -> R y z -> R x z) -> same_opt R a b -> same_opt R b c -> same_opt R a c.
Proof. destruct a, b, c; cbn; try done. eauto. Qed.
Lemma same_values_refl l : reordered same_value l l. Proof. apply reordered_refl. intros. apply same_value_refl. Qed.
Lemma same_values_sym l l' : reordered same_value l l' -> reordered same_value l' l. Proof. apply reordered_flip. intros k v v' _. apply same_value_sym. Qed.
Lemma same_values_trans l l' l'' : reordered same_value l l' -> reordered same_value l' l'' -> reordered same_value l l''.
Proof. apply reordered_trans. intros k u v w _. apply same_value_trans. Qed.
Lemma same_types_refl (l : imap nattr) : reordered eq l l. Proof. by apply reordered_refl. Qed.
Lemma same_types_sym (l l' : imap nattr) : reordered eq l l' -> reordered eq l' l. Proof. apply reordered_flip. by intros k v v' _ ->. Qed.
Lemma same_types_trans (l l' l'' : imap nattr) : reordered eq l l' -> reordered eq l' l'' -> reordered eq l l''.
Proof. apply reordered_trans. by intros k u v w _ -> ->. Qed.
Lemma reordered_command_refl c : reordered_command c c.
Proof.
  split; [done|]. destruct c as [k [a|a|t a]]; cbn; [|done|]; (split; [first [done|apply same_opt_refl, same_types_refl]|split; [apply same_opt_refl, same_values_refl|first [done|apply same_opt_refl, same_values_refl]]]).
Qed.
Lemma reordered_command_sym c c' : reordered_command c c' -> reordered_command c' c.
Proof.
  intros [H0 H]. split; [done|]. destruct c as [k [a|a|t a]], c' as [k' [b|b|t' b]]; cbn in *; try done.
  - destruct H as (H1 & H2 & H3). split; [|split; [|done]]; (eapply same_opt_sym; [|eassumption]); [apply same_types_sym|apply same_values_sym].
  - destruct H as (H1 & H2 & H3). split; [done|]. split; (eapply same_opt_sym; [apply same_values_sym|eassumption]).
Qed.
Lemma reordered_command_trans c c' c'' : reordered_command c c' -> reordered_command c' c'' -> reordered_command c c''.
Proof.
  intros [H0 H] [G0 G]. split; [congruence|]. destruct c as [k [a|a|t a]], c' as [k' [b|b|t' b]], c'' as [k'' [d|d|t'' d]]; cbn in *; try done.
  - destruct H as (H1 & H2 & H3), G as (G1 & G2 & G3). split; [|split; [|congruence]]; (eapply same_opt_trans; [|eassumption|eassumption]); [apply same_types_trans|apply same_values_trans].
  - congruence.
  - destruct H as (H1 & H2 & H3), G as (G1 & G2 & G3). split; [congruence|]. split; (eapply same_opt_trans; [apply same_values_trans|eassumption|eassumption]).
Qed.

(** ** The same effect *)
Notation same_props := (same_opt (reordered same_value)).
Lemma has_same p p' k v : values_ok p -> same_props p p' -> has p k v -> exists v', has p' k v' /\ same_value v v'.
Proof.
  intros Hp H (l & -> & E). destruct p' as [l'|]; [|done]. cbn in H. destruct (Hp l eq_refl) as [Hnd _]. pose proof (reordered_imap_get _ _ _ k Hnd H) as X. rewrite E in X.
  destruct (imap_get k l') as [v'|] eqn:E'; [|done]. exists v'. split; [by exists l'|done].
Qed.
Lemma same_props_sym p p' : same_props p p' -> same_props p' p. Proof. apply same_opt_sym, same_values_sym. Qed.
Lemma has_text p p' k s : values_ok p -> values_ok p' -> same_props p p' -> has p k (VVal s) <-> has p' k (VVal s).
Proof.
  intros Hp Hp' H. split; intros Hh.
  - destruct (has_same _ _ _ _ Hp H Hh) as (v' & Hv & S). by inversion S; subst.
  - destruct (has_same _ _ _ _ Hp' (same_props_sym _ _ H) Hh) as (v' & Hv & S). by inversion S; subst.
Qed.
Lemma props_get p p' k : values_ok p -> same_props p p' -> match p, p' with Some l, Some l' => match imap_get k l, imap_get k l' with Some v, Some v' => same_value v v' | None, None => True | _, _ => False end | None, None => True | _, _ => False end.
Proof. intros Hp H. destruct p as [l|], p' as [l'|]; try done. by apply reordered_imap_get; [apply (Hp l)|]. Qed.
Lemma cmd_lang_same from1 p p' : values_ok p -> same_props p p' -> cmd_lang from1 p = cmd_lang from1 p'.
Proof.
  intros Hp H. pose proof (props_get _ _ "lang" Hp H) as X. destruct p as [l|], p' as [l'|]; try done. unfold cmd_lang.
  destruct (imap_get "lang" l) as [v|], (imap_get "lang" l') as [v'|]; try done. by inversion X.
Qed.
Lemma link_target_same p p' : values_ok p -> same_props p p' -> link_target p = link_target p'.
Proof.
  intros Hp H. pose proof (props_get _ _ "target" Hp H) as X. destruct p as [l|], p' as [l'|]; try done. unfold link_target.
  destruct (imap_get "target" l) as [v|], (imap_get "target" l') as [v'|]; try done. by inversion X.
Qed.
Lemma frame_id_same p p' : values_ok p -> values_ok p' -> same_props p p' -> frame_id_of p = frame_id_of p'.
Proof.
  intros Hp Hp' H. pose proof (props_get _ _ "id" Hp H) as X. destruct p as [l|], p' as [l'|]; try done. unfold frame_id_of. cbn [unwrap_or].
  rewrite !frame_id_fold by (by first [apply (Hp l)|apply (Hp' l')]).
  destruct (imap_get "id" l) as [v|], (imap_get "id" l') as [v'|]; try done. by inversion X.
Qed.
Lemma frame_meta_same p p' : values_ok p -> values_ok p' -> same_props p p' -> frame_meta_props p = frame_meta_props p'.
Proof.
  intros Hp Hp' H. apply map_eq. intros k. apply option_eq. intros v. rewrite !frame_meta_spec by done.
  split; intros (k' & -> & Hk & Hh); exists k'; (split; [done|]; split; [done|]); by apply (has_text p p' k' v).
Qed.
Lemma entries_same l l' : NoDup (map fst l) -> NoDup (map fst l') -> reordered same_value l l' -> entries_of l = entries_of l'.
Proof.
  intros H1 H2 H. apply map_eq. intros k. apply option_eq. intros v. rewrite !entries_of_spec by done. pose proof (reordered_imap_get _ _ _ k H1 H) as X.
  destruct (imap_get k l) as [x|], (imap_get k l') as [y|]; try done. split; intros [= ->]; by inversion X.
Qed.
Lemma framing_same meta l l' : nvalue_ok (VObj l) -> nvalue_ok (VObj l') -> reordered same_value l l' -> framing_of meta l = framing_of meta l'.
Proof.
  assert (G : forall l l', nvalue_ok (VObj l) -> nvalue_ok (VObj l') -> reordered same_value l l' -> forall k x, framing_of meta l !! k = Some x -> framing_of meta l' !! k = Some x).
  { clear. intros l l' H1 H2 H k x. destruct (ok_obj _ H1) as [Hn Hv], (ok_obj _ H2) as [Hn' Hv']. rewrite !framing_of_spec by done. intros (o & pr & j & E & Ep & Ej & ->).
    pose proof (reordered_imap_get _ _ _ k Hn H) as X. rewrite E in X. destruct (imap_get k l') as [y|] eqn:E'; [|done]. inversion X as [| | |? m o' Hm F]; subst.
    destruct (ok_obj o (Hv k (VObj o) (imap_get_elem _ _ _ E))) as [Hno _].
    assert (Ro : reordered same_value o o') by (by exists m).
    pose proof (reordered_imap_get _ _ _ "predicate_id" Hno Ro) as X1. rewrite Ep in X1. pose proof (reordered_imap_get _ _ _ "framing_justification" Hno Ro) as X2. rewrite Ej in X2.
    destruct (imap_get "predicate_id" o') as [y1|] eqn:E1; [|done]. destruct (imap_get "framing_justification" o') as [y2|] eqn:E2; [|done]. inversion X1; subst. inversion X2; subst.
    by exists o', pr, j. }
  intros H1 H2 H. apply map_eq. intros k. apply option_eq. intros x. split; [by apply G|]. apply G; [done|done|]. by apply same_values_sym.
Qed.
Lemma strings_same l l' : Forall2 same_value l l' -> strings_of l = strings_of l'.
Proof. induction 1 as [|x y l l' H F IH]; [done|]. unfold strings_of in *. cbn. rewrite IH. by inversion H. Qed.
Lemma value_upd_same from1 k p p' v v' : values_ok p -> values_ok p' -> same_props p p' -> nvalue_ok v -> nvalue_ok v' -> same_value v v' ->
  (k = KEntryCode -> forall l, v <> VObj l) -> value_upd from1 k p v = value_upd from1 k p' v'.
Proof.
  intros Hp Hp' H Hv Hv' S Hg. unfold value_upd. rewrite <- (cmd_lang_same from1 p p' Hp H), <- (link_target_same p p' Hp H), <- (frame_id_same p p' Hp Hp' H), <- (frame_meta_same p p' Hp Hp' H).
  inversion S as [r|s|l l' F|l m l' Hm F]; subst; try done.
  - destruct k; try done. do 3 f_equal. f_equal. by apply strings_same.
  - assert (R : reordered same_value l l') by (by exists m). destruct k; try done.
    + by destruct (Hg eq_refl l).
    + destruct (ok_obj _ Hv) as [Hn _], (ok_obj _ Hv') as [Hn' _]. by rewrite (entries_same l l').
    + by rewrite (framing_same _ l l').
Qed.
(** A fold whose steps commute for different names. *)
Lemma fold_reordered {V B} (R : V -> V -> Prop) (f : B -> string * V -> B) l l' : NoDup (map fst l) -> reordered R l l' ->
  (forall b x y, x.1 <> y.1 -> f (f b x) y = f (f b y) x) -> (forall b k v v', R v v' -> f b (k, v) = f b (k, v')) -> forall b, fold_left f l b = fold_left f l' b.
Proof.
  intros Hnd (m & Hm & F) Hc He b.
  assert (P : forall b, fold_left f l b = fold_left f m b).
  { clear F b. induction Hm as [|x l m Hm IH|x y l|l m n H1 IH1 H2 IH2]; intros b; [done| | |].
    - cbn. apply IH. cbn in Hnd. by apply NoDup_cons in Hnd as [_ Hnd].
    - cbn. rewrite Hc; [done|]. cbn in Hnd. apply NoDup_cons in Hnd as [Hx _]. intros E. apply Hx. rewrite <- E. left.
    - rewrite IH1 by done. apply IH2. by rewrite <- H1. }
  rewrite P. clear P Hm Hnd. revert b. induction F as [|[k v] [k' v'] m l' [E H] F IH]; intros b; [done|]. cbn in *. subst k'. rewrite (He b k v v' H). apply IH.
Qed.
Lemma reordered_remove {V} (R : V -> V -> Prop) k l l' : reordered R l l' -> reordered R (imap_remove k l) (imap_remove k l').
Proof.
  intros (m & Hm & F). exists (imap_remove k m). split.
  - unfold imap_remove. clear F l'. induction Hm as [|x l m Hm IH|x y l|l m n H1 IH1 H2 IH2]; cbn; [done| | |by etrans].
    + destruct (negb _); [by constructor|done].
    + destruct (negb (String.eqb k x.1)), (negb (String.eqb k y.1)); try done. constructor.
  - unfold imap_remove. clear Hm. induction F as [|x y m l' [E H] F IH]; cbn; [constructor|]. rewrite E. destruct (negb _); [by constructor|done].
Qed.
Lemma nodup_remove {V} k (l : imap V) : NoDup (map fst l) -> NoDup (map fst (imap_remove k l)).
Proof.
  intros H. induction l as [|[j w] l IH]; cbn; [constructor|]. cbn in H. apply NoDup_cons in H as [Hj H].
  destruct (negb (String.eqb k j)); cbn; [|by apply IH]. constructor; [|by apply IH]. intros Hin. apply Hj. apply elem_of_list_fmap in Hin as ([j' w'] & -> & Hin).
  apply elem_of_list_In, filter_In in Hin as [Hin _]. apply elem_of_list_fmap. exists (j', w'). split; [done|by apply elem_of_list_In].
Qed.
Lemma add_metas_some x l : forall b, add_metas (Some x) l b = Ok (fold_left (fun b (kv : string * nvalue) => match kv.2 with VVal s => add_meta x kv.1 s b | _ => b end) l b).
Proof. induction l as [|[k v] l IH]; intros b; [done|]. cbn [add_metas fold_left snd fst]. destruct v; apply IH. Qed.
Lemma add_metas_none l : forall b, add_metas None l b = if forallb (fun kv : string * nvalue => match kv.2 with VVal _ => false | _ => true end) l then Ok b else Panic.
Proof. induction l as [|[k v] l IH]; intros b; [done|]. cbn [add_metas forallb snd]. destruct v; cbn [andb]; try apply IH. done. Qed.
Lemma add_meta_comm x k s k' s' b : k <> k' -> add_meta x k' s' (add_meta x k s b) = add_meta x k s (add_meta x k' s' b).
Proof.
  intros Hne. unfold add_meta. cbn [bx_meta bx_attrs bx_maps bx_class unwrap_or]. f_equal. f_equal. rewrite !lookup_insert. cbn [unwrap_or]. rewrite !insert_insert. f_equal. by apply insert_commute.
Qed.
Lemma metas_same from1 c c' b : values_ok (ct_props c) -> values_ok (ct_props c') -> same_props (ct_props c) (ct_props c') ->
  add_overlay from1 KMeta c b = add_overlay from1 KMeta c' b.
Proof.
  intros Hp Hp' H. unfold add_overlay. rewrite <- (cmd_lang_same from1 _ _ Hp H). destruct (ct_props c) as [p|], (ct_props c') as [p'|]; try done. cbn [same_opt] in H.
  destruct (Hp p eq_refl) as [Hn _]. pose proof (nodup_remove "lang" p Hn) as Hr. pose proof (reordered_remove same_value "lang" p p' H) as R.
  destruct (cmd_lang from1 (Some p)) as [x|].
  - rewrite !add_metas_some. f_equal. apply (fold_reordered same_value); [done|done| |].
    + intros b0 [k v] [k' v'] Hne. cbn [fst snd] in *. destruct v, v'; try done. by apply add_meta_comm.
    + intros b0 k v v' S. cbn [fst snd]. by inversion S.
  - rewrite !add_metas_none. destruct R as (m & Hm & F).
    assert (E : forallb (fun kv : string * nvalue => match kv.2 with VVal _ => false | _ => true end) (imap_remove "lang" p) = forallb (fun kv : string * nvalue => match kv.2 with VVal _ => false | _ => true end) (imap_remove "lang" p')).
    { transitivity (forallb (fun kv : string * nvalue => match kv.2 with VVal _ => false | _ => true end) m).
      - clear -Hm. induction Hm as [|x l m Hm IH|x y l|l m n H1 IH1 H2 IH2]; cbn; [done|by rewrite IH| |by rewrite IH1]. by rewrite !andb_assoc, (andb_comm (match y.2 with VVal _ => false | _ => true end)).
      - clear -F. induction F as [|x y m l' [_ H] F IH]; cbn; [done|]. rewrite IH. f_equal. by inversion H. }
    by rewrite E.
Qed.
Lemma unwrap_same {V} (R : V -> V -> Prop) m m' : same_opt (reordered R) m m' -> reordered R (unwrap_or [] m) (unwrap_or [] m').
Proof. destruct m as [l|], m' as [l'|]; cbn; try done. intros _. exists []. by split. Qed.
Lemma box_eq b b' : (forall n, bx_attrs b !! n = bx_attrs b' !! n) -> bx_maps b = bx_maps b' -> bx_meta b = bx_meta b' -> bx_class b = bx_class b' -> b = b'.
Proof. destruct b, b'; cbn. intros H -> -> ->. f_equal. by apply map_eq. Qed.
Lemma pre_errors_same k p p' : values_ok p -> values_ok p' -> same_props p p' -> pre_errors k p = pre_errors k p'.
Proof. intros Hp Hp' H. destruct k; try done; cbn [pre_errors]; [by rewrite (link_target_same p p')|by rewrite (frame_id_same p p')]. Qed.
Lemma overlay_same from1 k c c' b b' : names_ok b -> values_ok (ct_attrs c) -> values_ok (ct_attrs c') -> values_ok (ct_props c) -> values_ok (ct_props c') ->
  same_props (ct_attrs c) (ct_attrs c') -> same_props (ct_props c) (ct_props c') -> (k = KEntryCode -> forall n l, ~ has (ct_attrs c) n (VObj l)) ->
  add_overlay from1 k c b = Ok b' -> add_overlay from1 k c' b = Ok b'.
Proof.
  intros Hb Ha Ha' Hp Hp' Sa Sp Hg. destruct (decide (k = KMeta)) as [->|Hm]; [by rewrite (metas_same from1 c c')|].
  assert (E : forall c, add_overlay from1 k c b = if loops k then upd_attrs from1 (pre_errors k (ct_props c)) k (ct_props c) (unwrap_or [] (ct_attrs c)) b else Ok b) by (intros ?; by destruct k).
  rewrite !E. destruct (loops k); [|done]. rewrite <- (pre_errors_same k _ _ Hp Hp' Sp).
  assert (U : forall n v v', (n, v) ∈ unwrap_or [] (ct_attrs c) -> (n, v') ∈ unwrap_or [] (ct_attrs c') -> same_value v v' -> value_upd from1 k (ct_props c) v = value_upd from1 k (ct_props c') v').
  { intros n v v' Hin Hin' S. destruct (ct_attrs c) as [l|]; [|by apply elem_of_nil in Hin]. destruct (ct_attrs c') as [l'|]; [|done]. cbn in Hin, Hin'.
    destruct (Ha l eq_refl) as [Hn Hv], (Ha' l' eq_refl) as [Hn' Hv']. apply value_upd_same; [done..| | |done|].
    - apply (Hv n). by apply imap_get_nodup.
    - apply (Hv' n). by apply imap_get_nodup.
    - intros -> x ->. apply (Hg eq_refl n x). exists l. split; [done|]. by apply imap_get_nodup. }
  pose proof (unwrap_same same_value _ _ Sa) as R. pose proof (unwrap_same same_value _ _ (same_props_sym _ _ Sa)) as R'.
  assert (N : forall m, values_ok m -> NoDup (map fst (unwrap_or [] m))). { intros m X. destruct m as [x|]; [apply (X x eq_refl)|constructor]. }
  pose proof (N _ Ha) as N1. pose proof (N _ Ha') as N2. set (l := unwrap_or [] (ct_attrs c)) in *. set (l' := unwrap_or [] (ct_attrs c')) in *.
  intros H. pose proof (upd_attrs_result from1 k (ct_props c) l (pre_errors k (ct_props c)) b Hb) as X. rewrite H in X. destruct X as [Ee Hf]. rewrite Ee in *.
  assert (Hf' : forall n v, (n, v) ∈ l' -> fine from1 b k (ct_props c') (n, v)).
  { intros n v Hin. destruct (reordered_get same_value l' l n v N1 R' Hin) as (v0 & Hg0 & S). apply imap_get_elem in Hg0. rewrite Forall_forall in Hf. destruct (Hf _ Hg0) as [F1 F2]. split; [done|].
    cbn in *. rewrite <- (U n v0 v Hg0 Hin); [done|]. by apply same_value_sym. }
  pose proof (upd_attrs_result from1 k (ct_props c') l' [] b Hb) as X'. destruct (upd_attrs from1 [] k (ct_props c') l' b) as [b2|es|] eqn:E2.
  - f_equal. destruct (upd_attrs_effect from1 k (ct_props c) l [] b b' Hb N1 H) as (A1 & A2 & A3 & A4). destruct (upd_attrs_effect from1 k (ct_props c') l' [] b b2 Hb N2 E2) as (B1 & B2 & B3 & B4).
    apply box_eq; [|congruence..]. intros n. rewrite A4, B4. unfold eff_at. destruct (bx_attrs b !! n) as [a|]; [|done]. pose proof (reordered_imap_get same_value l l' n N1 R) as Z.
    destruct (imap_get n l) as [v|] eqn:G1, (imap_get n l') as [v'|] eqn:G2; try done. f_equal. unfold eff. rewrite (U n v v'); [done|by apply imap_get_elem|by apply imap_get_elem|done].
  - exfalso. destruct X' as [(X' & _)|(pre & n & v & post & El & _ & X')]; [done|]. assert (Hin : (n, v) ∈ l') by (rewrite El; apply elem_of_app; right; left).
    destruct (Hf' n v Hin) as [[a F1] F2]. cbn in F1, F2. destruct X' as [[X1 _]|(_ & e & X2 & _)]; [congruence|by rewrite X2 in F2].
  - exfalso. destruct X' as (pre & n & v & post & El & _ & _ & X2). assert (Hin : (n, v) ∈ l') by (rewrite El; apply elem_of_app; right; left).
    destruct (Hf' n v Hin) as [_ F2]. cbn in F2. by rewrite X2 in F2.
Qed.
Lemma imap_mem_get {V} k (l : imap V) : imap_mem k l = match imap_get k l with Some _ => true | None => false end.
Proof. induction l as [|[j w] l IH]; [done|]. unfold imap_mem in *. cbn. destruct (String.eqb k j); [done|apply IH]. Qed.
Lemma apply_same from1 st c c' b' : (forall b, st = Some b -> names_ok b) -> command_ok c -> command_ok c' -> reordered_command c c' -> ~ gives_groups c ->
  apply_command from1 st c = Ok b' -> apply_command from1 st c' = Ok b'.
Proof.
  intros Hst Hc Hc' [E S] Hg. unfold apply_command. rewrite <- E. assert (Hb : names_ok (unwrap_or box_new st)). { destruct st as [b|]; [by apply Hst|]. intros n a. cbn. by rewrite lookup_empty. }
  set (b := unwrap_or box_new st) in *. unfold command_ok in *. destruct (cmd_kind c); try done.
  - destruct (cmd_obj c) as [a|a|t a] eqn:Eo, (cmd_obj c') as [a'|a'|t' a']; try done; cbn [same_object] in S.
    + intros H. rewrite <- H. f_equal. destruct S as (S1 & S2 & _). destruct Hc as [Ha Hp], Hc' as [Ha' Hp']. unfold add_capture.
      assert (N1 : NoDup (map fst (unwrap_or [] (cc_attrs a)))) by (destruct (cc_attrs a); [by apply Ha|constructor]).
      assert (N2 : NoDup (map fst (unwrap_or [] (cc_attrs a')))) by (destruct (cc_attrs a'); [by apply Ha'|constructor]).
      assert (M1 : NoDup (map fst (unwrap_or [] (cc_props a)))) by (destruct (cc_props a) as [x|]; [by apply (Hp x)|constructor]).
      assert (M2 : NoDup (map fst (unwrap_or [] (cc_props a')))) by (destruct (cc_props a') as [x|]; [by apply (Hp' x)|constructor]).
      pose proof (unwrap_same _ _ _ S1) as R1. pose proof (unwrap_same _ _ _ S2) as R2.
      set (b1 := fold_left _ (unwrap_or [] (cc_attrs a)) b). set (b2 := fold_left _ (unwrap_or [] (cc_attrs a')) b).
      assert (Eb : b1 = b2).
      { destruct (add_capture_attrs (unwrap_or [] (cc_attrs a)) b Hb N1) as (A1 & A2 & A3 & A4). destruct (add_capture_attrs (unwrap_or [] (cc_attrs a')) b Hb N2) as (B1 & B2 & B3 & B4).
        fold b1 in A1, A2, A3, A4. fold b2 in B1, B2, B3, B4. apply box_eq; [|congruence..]. intros n. rewrite A4, B4. pose proof (reordered_imap_get _ _ _ n N1 R1) as Z.
        destruct (imap_get n (unwrap_or [] (cc_attrs a))), (imap_get n (unwrap_or [] (cc_attrs a'))); try done. by subst. }
      rewrite Eb. destruct (add_capture_class (unwrap_or [] (cc_props a)) b2 M1) as (A1 & A2 & A3 & A4). destruct (add_capture_class (unwrap_or [] (cc_props a')) b2 M2) as (B1 & B2 & B3 & B4).
      symmetry. apply box_eq; [intros n; congruence|congruence..|]. rewrite A4, B4. pose proof (reordered_imap_get _ _ _ "classification" M1 R2) as Z.
      destruct (imap_get "classification" (unwrap_or [] (cc_props a))), (imap_get "classification" (unwrap_or [] (cc_props a'))); try done. by inversion Z.
    + destruct S as (<- & S1 & S2). destruct Hc as [Ha Hp], Hc' as [Ha' Hp']. apply overlay_same; try done. intros Hk n l Hh. apply Hg. destruct t as [k v]. cbn in Hk. subst k.
      exists v, a, n, l. done.
  - destruct (cmd_obj c) as [a|a|t a] eqn:Eo, (cmd_obj c') as [a'|a'|t' a']; try done; cbn [same_object] in S.
    intros H. rewrite <- H. f_equal. destruct S as (S1 & S2 & _). destruct Hc as [Ha Hp], Hc' as [Ha' Hp']. unfold remove_capture.
    pose proof (unwrap_same _ _ _ S1) as R1. pose proof (unwrap_same _ _ _ S2) as R2.
    assert (M1 : NoDup (map fst (unwrap_or [] (cc_props a)))) by (destruct (cc_props a) as [x|]; [by apply (Hp x)|constructor]).
    set (b1 := fold_left _ (unwrap_or [] (cc_attrs a)) b). set (b2 := fold_left _ (unwrap_or [] (cc_attrs a')) b).
    assert (Eb : b1 = b2).
    { destruct (remove_capture_attrs (unwrap_or [] (cc_attrs a)) b) as (A1 & A2 & A3 & A4). destruct (remove_capture_attrs (unwrap_or [] (cc_attrs a')) b) as (B1 & B2 & B3 & B4).
      fold b1 in A1, A2, A3, A4. fold b2 in B1, B2, B3, B4. apply box_eq; [|congruence..]. intros n. rewrite A4, B4. pose proof (reordered_keys _ _ _ R1) as K.
      destruct (decide (n ∈ map fst (unwrap_or [] (cc_attrs a)))) as [Hi|Hi]; rewrite K in Hi; [by rewrite decide_True|by rewrite decide_False]. }
    rewrite Eb. destruct (remove_capture_class (unwrap_or [] (cc_props a)) b2) as (A1 & A2 & A3 & A4). destruct (remove_capture_class (unwrap_or [] (cc_props a')) b2) as (B1 & B2 & B3 & B4).
    symmetry. apply box_eq; [intros n; congruence|congruence..|]. rewrite A4, B4, !imap_mem_get. pose proof (reordered_imap_get _ _ _ "classification" M1 R2) as Z.
    by destruct (imap_get "classification" (unwrap_or [] (cc_props a))), (imap_get "classification" (unwrap_or [] (cc_props a'))).
Qed.

(** ** Builds *)
From Verif Require Import Bundle_proofs Box_proofs Load_proofs.
Lemma upd_attrs_err from1 k p l : forall errs b es, upd_attrs from1 errs k p l b = Err es -> es <> [].
Proof.
  induction l as [|[n v] l IH]; intros errs b es; cbn [upd_attrs].
  - destruct errs; [done|]. by intros [= <-].
  - destruct (bx_attrs b !! n); [|intros [= <-]; by destruct errs]. destruct (value_upd from1 k p v) as [[u|]|e|] eqn:E; [apply IH|apply IH| |done].
    intros [= <-]. assert (He : e <> []). { destruct k, v; cbn in E; try done; unfold need in E; try (by destruct (cmd_lang from1 p)); try (by destruct (link_target p)); try (by destruct (frame_id_of p)).
      destruct (encoding_of_str s); [done|]. by injection E as <-. } by destruct errs.
Qed.
Lemma add_metas_err lang l : forall b es, add_metas lang l b <> Err es.
Proof. induction l as [|[k v] l IH]; intros b es; [done|]. cbn [add_metas]. destruct v; try apply IH. destruct lang; [apply IH|done]. Qed.
Lemma apply_err from1 st c es : apply_command from1 st c = Err es -> es <> [].
Proof.
  unfold apply_command. destruct (cmd_kind c), (cmd_obj c) as [a|a|t a]; try done; try (by intros [= <-]).
  unfold add_overlay. destruct (ot_kind t); cbn [loops]; try done; try apply upd_attrs_err. destruct (ct_props a); [|done]. intros H. by apply add_metas_err in H.
Qed.
Definition same_step (s s' : bstep) : Prop := bs_parent s = bs_parent s' /\ bs_result s = bs_result s' /\ reordered_command (bs_cmd s) (bs_cmd s').
Lemma loop_no_errs digest from1 os cm cs : forall i base parent steps errs b ss, build_loop digest from1 os cm i cs base parent steps errs = Some (b, ss, []) -> errs = [].
Proof.
  induction cs as [|c cs IH]; intros i base parent steps errs b ss; cbn [build_loop]; [by intros [= <- <- ->]|].
  destruct (apply_command from1 base c) as [bx|es|]; [|intros H; apply IH in H; by destruct errs|done]. destruct (generate_bundle digest (os i) bx); [apply IH|done].
Qed.
Lemma loop_same digest from1 os cm cm' cs cs' : Forall2 reordered_command cs cs' -> Forall command_ok cs -> Forall command_ok cs' -> Forall (fun c => ~ gives_groups c) cs ->
  forall i base parent steps steps' b ss, (forall x, base = Some x -> api_box x) -> Forall2 same_step steps steps' -> build_loop digest from1 os cm i cs base parent steps [] = Some (b, ss, []) ->
  exists ss', build_loop digest from1 os cm' i cs' base parent steps' [] = Some (b, ss', []) /\ Forall2 same_step ss ss'.
Proof.
  induction 1 as [|c c' cs cs' Hc F IH]; intros Ok1 Ok2 Hg i base parent steps steps' b ss Hb Fs; cbn [build_loop].
  - intros [= <- <-]. by exists steps'.
  - apply Forall_cons in Ok1 as [Ok1 Ok1'], Ok2 as [Ok2 Ok2'], Hg as [Hg Hg'].
    destruct (apply_command from1 base c) as [bx|es|] eqn:E; [| |done].
    + rewrite (apply_same from1 base c c' bx); [|intros x Hx; apply box_ok_names, api_box_ok; by apply Hb|done..]. destruct (generate_bundle digest (os i) bx) as [B|]; [|done].
      intros H. apply (IH Ok1' Ok2' Hg' (S i) (Some bx) (b_said B) (steps ++ [BStep parent c B])); [|apply Forall2_app; [done|]; apply Forall2_cons; split; [done|constructor]|done].
      intros x [= <-]. by apply (apply_api from1 base bx c).
    + intros H. apply loop_no_errs in H. apply apply_err in E. cbn in H. by destruct es.
Qed.
Lemma from_ast_same digest from1 os from a a' B steps : (forall i, order_ok (os i)) -> Forall2 reordered_command (ast_commands a) (ast_commands a') -> Forall command_ok (ast_commands a) -> Forall command_ok (ast_commands a') ->
  Forall (fun c => ~ gives_groups c) (ast_commands a) -> from_ast digest from1 os from a = BuildOk B steps ->
  exists steps', from_ast digest from1 os from a' = BuildOk B steps' /\ Forall2 same_step steps steps'.
Proof.
  intros Ho F Ok1 Ok2 Hg. assert (L : length (ast_commands a') = length (ast_commands a)) by (symmetry; by eapply Forall2_length).
  assert (G : forall base fr parent, (forall x, base = Some x -> api_box x) -> from_ast_base digest from1 os base fr parent a = BuildOk B steps ->
    exists steps', from_ast_base digest from1 os base fr parent a' = BuildOk B steps' /\ Forall2 same_step steps steps').
  { intros base fr parent Hb. unfold from_ast_base. destruct (build_loop digest from1 os _ 0 (ast_commands a) base parent [] []) as [[[b ss] [|e es]]|] eqn:E; [|done..].
    destruct b as [bx|]; [|done]. destruct (generate_bundle digest (os (length (ast_commands a))) bx) as [B0|] eqn:Eg; [|done]. intros [= <- <-].
    eapply (loop_same digest from1 os _ _ _ _ F Ok1 Ok2 Hg 0 base parent [] []) in E as (ss' & E' & Fs); [|done|constructor]. rewrite E', L, Eg. by exists ss'. }
  unfold from_ast. rewrite L. destruct from as [B0|]; [|by apply G]. destruct (load (os (S (length (ast_commands a)))) B0) as [bx|] eqn:El; [|done]. apply G. intros x [= <-]. exact (load_api _ (Ho _) _ _ El).
Qed.
