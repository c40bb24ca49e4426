From Verif Require Import Base.
From Coq Require Import Lia.

Lemma ascii_compare_refl c : Ascii.compare c c = Eq.
Proof. unfold Ascii.compare. apply N.compare_refl. Qed.
Lemma str_compare_trans a : forall b c x, String.compare a b = x -> String.compare b c = x -> String.compare a c = x.
Proof.
  induction a as [|ca a IH]; intros [|cb b] [|cc c] x; simpl; try congruence.
  unfold Ascii.compare.
  destruct (N.compare_spec (N_of_ascii ca) (N_of_ascii cb)) as [E1|E1|E1];
  destruct (N.compare_spec (N_of_ascii cb) (N_of_ascii cc)) as [E2|E2|E2];
  destruct (N.compare_spec (N_of_ascii ca) (N_of_ascii cc)) as [E3|E3|E3];
  try (exfalso; lia); try congruence; eauto.
Qed.
Lemma str_leb_trans a b c : String.leb a b = true -> String.leb b c = true -> String.leb a c = true.
Proof.
  unfold String.leb. destruct (String.compare a b) eqn:E1; try done; destruct (String.compare b c) eqn:E2; try done; intros _ _.
  - by rewrite (str_compare_trans _ _ _ _ E1 E2).
  - apply String.compare_eq_iff in E1 as ->. by rewrite E2.
  - apply String.compare_eq_iff in E2 as ->. by rewrite E1.
  - by rewrite (str_compare_trans _ _ _ _ E1 E2).
Qed.
Lemma str_leb_total a b : String.leb a b = false -> String.leb b a = true.
Proof. destruct (String.leb_total a b) as [E|E]; congruence. Qed.

Section Sort.
Context {A : Type} (key : A -> string).
Lemma insert_by_perm x l : insert_by key x l ≡ₚ x :: l.
Proof.
  induction l as [|y l IH]; simpl; [done|]. destruct (String.leb _ _); [done|]. rewrite IH. constructor.
Qed.
Lemma sort_by_perm l : sort_by key l ≡ₚ l.
Proof. induction l as [|x l IH]; simpl; [done|]. by rewrite insert_by_perm, IH. Qed.

Fixpoint sorted_k (l : list A) : Prop :=
  match l with
  | [] => True
  | x :: l' => (forall y, y ∈ l' -> String.leb (key x) (key y) = true) /\ sorted_k l'
  end.
Lemma insert_by_sorted x l : sorted_k l -> sorted_k (insert_by key x l).
Proof.
  induction l as [|y l IH]; simpl; intros H.
  - split; [|done]. intros y Hy. by apply not_elem_of_nil in Hy.
  - destruct H as [H1 H2]. destruct (String.leb (key x) (key y)) eqn:E; simpl.
    + split; [|done]. intros z Hz. apply elem_of_cons in Hz as [->|Hz]; [done|].
      eapply str_leb_trans; eauto.
    + split; [|by apply IH]. intros z Hz. rewrite insert_by_perm in Hz.
      apply elem_of_cons in Hz as [->|Hz]; [by apply str_leb_total|auto].
Qed.
Lemma sort_by_sorted l : sorted_k (sort_by key l).
Proof. induction l as [|x l IH]; simpl; [done|]. by apply insert_by_sorted. Qed.

Lemma sorted_perm_eq l1 : forall l2, l1 ≡ₚ l2 -> sorted_k l1 -> sorted_k l2 ->
  (forall x y, x ∈ l1 -> y ∈ l1 -> key x = key y -> x = y) -> l1 = l2.
Proof.
  induction l1 as [|x l1 IH]; intros l2 Hp H1 H2 Hf.
  - by apply Permutation_nil_l in Hp as <-.
  - destruct l2 as [|y l2].
    { by apply Permutation_nil_r in Hp. }
    simpl in *. destruct H1 as [H1 S1], H2 as [H2 S2].
    assert (Hy : y ∈ x :: l1) by (rewrite Hp; apply elem_of_list_here).
    assert (Hx : x ∈ y :: l2) by (rewrite <- Hp; apply elem_of_list_here).
    assert (Hk : key x = key y).
    { apply String.leb_antisym.
      - apply elem_of_cons in Hy as [->|Hy]; [|auto]. destruct (String.leb_total (key x) (key x)); done.
      - apply elem_of_cons in Hx as [->|Hx]; [|auto]. destruct (String.leb_total (key y) (key y)); done. }
    assert (x = y) as <- by (apply Hf; [apply elem_of_list_here|done|done]).
    f_equal. apply IH; [by eapply Permutation_cons_inv|done|done|].
    intros a b Ha Hb. apply Hf; by apply elem_of_list_further.
Qed.
Lemma sort_by_perm_eq l1 l2 : l1 ≡ₚ l2 -> (forall x y, x ∈ l1 -> y ∈ l1 -> key x = key y -> x = y) ->
  sort_by key l1 = sort_by key l2.
Proof.
  intros Hp Hf. apply sorted_perm_eq; [by rewrite !sort_by_perm|apply sort_by_sorted|apply sort_by_sorted|].
  intros x y. rewrite !sort_by_perm. apply Hf.
Qed.
Lemma sort_by_sorted_id l : sorted_k l -> sort_by key l = l.
Proof.
  induction l as [|x l IH]; simpl; [done|]. intros [H1 H2]. rewrite IH by done.
  destruct l as [|y l]; [done|]. simpl. rewrite H1; [done|apply elem_of_list_here].
Qed.
Lemma sort_by_idem l : sort_by key (sort_by key l) = sort_by key l.
Proof. apply sort_by_sorted_id, sort_by_sorted. Qed.
End Sort.

(** Sorting commutes with a key-preserving map. *)
Lemma sort_by_map {A B} (ka : A -> string) (kb : B -> string) (g : A -> B) l :
  (forall x, kb (g x) = ka x) -> map g (sort_by ka l) = sort_by kb (map g l).
Proof.
  intros Hg. assert (Hi : forall x l, map g (insert_by ka x l) = insert_by kb (g x) (map g l)).
  { intros x k. induction k as [|y k IH]; simpl; [done|]. rewrite !Hg. destruct (String.leb _ _); simpl; by rewrite ?IH. }
  induction l as [|x l IH]; simpl; [done|]. by rewrite Hi, IH.
Qed.
Lemma sort_by_map_eq {A B} (ka : A -> string) (g : A -> B) l1 l2 : l1 ≡ₚ l2 ->
  (forall x y, x ∈ l1 -> y ∈ l1 -> ka x = ka y -> g x = g y) ->
  map g (sort_by ka l1) = map g (sort_by ka l2).
Proof.
  intros Hp Hf. set (h := fun x => (ka x, g x)).
  assert (E : map h (sort_by ka l1) = map h (sort_by ka l2)).
  { rewrite !(sort_by_map ka fst h) by done. apply sort_by_perm_eq.
    - by apply Permutation_map.
    - intros x y Hx Hy Hk. apply elem_of_list_In, in_map_iff in Hx as (a & <- & Ha).
      apply elem_of_list_In, in_map_iff in Hy as (b & <- & Hb). simpl in Hk. unfold h. f_equal; [done|].
      apply Hf; [by apply elem_of_list_In|by apply elem_of_list_In|done]. }
  apply (f_equal (map snd)) in E. rewrite !map_map in E. exact E.
Qed.
Lemma sort_id_perm l1 l2 : l1 ≡ₚ l2 -> sort_by id l1 = sort_by (A:=string) id l2.
Proof. intros H. apply sort_by_perm_eq; [done|]. intros x y _ _. done. Qed.

(** sorted_pairs. *)
Lemma nodup_fst_inj {V} (l : list (string * V)) x y : NoDup l.*1 -> x ∈ l -> y ∈ l -> x.1 = y.1 -> x = y.
Proof.
  intros Hn Hx Hy E. destruct x as [k v], y as [k' w]. simpl in E. subst k'. f_equal.
  induction l as [|[a b] l IH]; [by apply not_elem_of_nil in Hx|]. simpl in Hn.
  apply NoDup_cons in Hn as [H1 H2].
  apply elem_of_cons in Hx as [Ex|Hx]; apply elem_of_cons in Hy as [Ey|Hy];
    repeat match goal with E : (_, _) = (_, _) |- _ => injection E as -> -> end.
  - congruence.
  - exfalso. apply H1. apply elem_of_list_fmap. by exists (a, w).
  - exfalso. apply H1. apply elem_of_list_fmap. by exists (a, v).
  - by apply IH.
Qed.
Lemma sorted_pairs_perm {V} (m : gmap string V) : sorted_pairs m ≡ₚ map_to_list m.
Proof. apply sort_by_perm. Qed.
Lemma sorted_pairs_elem {V} (m : gmap string V) k v : (k, v) ∈ sorted_pairs m <-> m !! k = Some v.
Proof. rewrite sorted_pairs_perm. apply elem_of_map_to_list. Qed.
Lemma sorted_pairs_nodup {V} (m : gmap string V) : NoDup (sorted_pairs m).*1.
Proof. rewrite sorted_pairs_perm. apply NoDup_fst_map_to_list. Qed.
Lemma sort_fst_of_map {V} (l : list (string * V)) (m : gmap string V) : l ≡ₚ map_to_list m ->
  sort_by fst l = sorted_pairs m.
Proof.
  intros H. apply sort_by_perm_eq; [done|]. intros x y Hx Hy. apply nodup_fst_inj with l; [|done|done].
  rewrite H. apply NoDup_fst_map_to_list.
Qed.
Lemma sorted_pairs_fmap {V W} (f : V -> W) (m : gmap string V) :
  map (fun kv => (kv.1, f kv.2)) (sorted_pairs m) = sorted_pairs (f <$> m).
Proof.
  unfold sorted_pairs at 1. rewrite (sort_by_map fst fst) by done. apply sort_fst_of_map.
  rewrite map_to_list_fmap. apply reflexive_eq. apply map_ext. by intros [].
Qed.
Lemma sorted_pairs_inj {V} (m1 m2 : gmap string V) : sorted_pairs m1 = sorted_pairs m2 -> m1 = m2.
Proof.
  intros H. apply map_eq. intros k. destruct (m1 !! k) as [v|] eqn:E.
  - apply sorted_pairs_elem in E. rewrite H in E. apply sorted_pairs_elem in E. by rewrite E.
  - destruct (m2 !! k) as [v|] eqn:E2; [|done]. apply sorted_pairs_elem in E2. rewrite <- H in E2.
    apply sorted_pairs_elem in E2. congruence.
Qed.
