(** Depths of the JSON of bundles and overlays. *)
From Verif Require Import Base Nesting Bundle Sort_proofs.

Lemma nest_obj n l : (nesting (JObj l) <= S n)%nat <-> forall k x, (k, x) ∈ l -> (nesting x <= n)%nat.
Proof.
  cbn [nesting]. split.
  - intros H k x Hin. apply le_S_n in H. revert Hin. induction l as [|[k' x'] l IH]; [by intros ?%elem_of_nil|]. cbn [fold_right snd] in H. intros [[= -> ->]|Hin]%elem_of_cons; [lia|]. apply IH; [lia|done].
  - intros H. apply le_n_S. induction l as [|[k' x'] l IH]; [cbn; lia|]. cbn [fold_right snd]. assert (nesting x' <= n)%nat by (apply (H k'); left).
    assert (fold_right (fun kv m => Nat.max (nesting kv.2) m) 0 l <= n)%nat by (apply IH; intros k x Hin; apply (H k); by right). lia.
Qed.
Lemma nest_arr n l : (nesting (JArr l) <= S n)%nat <-> forall x, x ∈ l -> (nesting x <= n)%nat.
Proof.
  cbn [nesting]. split.
  - intros H x Hin. apply le_S_n in H. revert Hin. induction l as [|x' l IH]; [by intros ?%elem_of_nil|]. cbn [fold_right] in H. intros [ -> |Hin]%elem_of_cons; [lia|]. apply IH; [lia|done].
  - intros H. apply le_n_S. induction l as [|x' l IH]; [cbn; lia|]. cbn [fold_right]. assert (nesting x' <= n)%nat by (apply H; left).
    assert (fold_right (fun x m => Nat.max (nesting x) m) 0 l <= n)%nat by (apply IH; intros x Hin; apply H; by right). lia.
Qed.
Lemma nest_strs l : (nesting (jstrs l) <= 1)%nat.
Proof. apply nest_arr. intros x Hx. apply elem_of_list_fmap in Hx as (s & -> & _). cbn. lia. Qed.
Lemma nest_opt o : nesting (jopt o) = 0%nat.
Proof. by destruct o. Qed.
Lemma nest_map {V} (f : V -> json) m n : (forall v, (nesting (f v) <= n)%nat) -> (nesting (jmap f m) <= S n)%nat.
Proof. intros H. apply nest_obj. intros k x Hx. apply elem_of_list_fmap in Hx as ([k' v] & [= -> ->] & _). apply H. Qed.
Lemma nest_pairs {V} (f : V -> json) l n : (forall v, (nesting (f v) <= n)%nat) -> (nesting (JObj (map (fun kv : string * V => (kv.1, f kv.2)) l)) <= S n)%nat.
Proof. intros H. apply nest_obj. intros k x Hx. apply elem_of_list_fmap in Hx as ([k' v] & [= -> ->] & _). apply H. Qed.
Lemma nest_ecodes e : (nesting (ecodes_json e) <= 2)%nat.
Proof. destruct e as [s|l|l]; cbn [ecodes_json]; [cbn; lia|etransitivity; [apply nest_strs|lia]|apply nest_pairs; intros v; apply nest_strs]. Qed.
Lemma nest_entries e : (nesting (entries_json e) <= 2)%nat.
Proof. destruct e as [s|m]; cbn [entries_json]; [cbn; lia|]. etransitivity; [apply (nest_map _ _ 0); intros; cbn; lia|lia]. Qed.
Lemma nest_strmap m n : (1 <= n)%nat -> (nesting (jmap JStr m) <= n)%nat.
Proof. intros H. etransitivity; [apply (nest_map _ _ 0); intros; cbn; lia|done]. Qed.
Lemma nest_body b k x : (k, x) ∈ body_fields b -> (nesting x <= 3)%nat.
Proof.
  assert (S3 : forall l, (nesting (jstrs l) <= 3)%nat) by (intros l; etransitivity; [apply nest_strs|lia]).
  assert (M3 : forall m, (nesting (jmap JStr m) <= 3)%nat) by (intros m; apply nest_strmap; lia).
  assert (T3 : forall s, (nesting (JStr s) <= 3)%nat) by (intros; cbn; lia).
  assert (J : forall {V} (f : V -> json) m, (forall v, (nesting (f v) <= 2)%nat) -> (nesting (jmap f m) <= 3)%nat) by (intros; by apply nest_map).
  destruct b; cbn [body_fields]; rewrite ?elem_of_cons, ?elem_of_nil; intros H;
    repeat match goal with H : _ \/ _ |- _ => destruct H as [H|H] end; try done;
    try (injection H as -> ->; auto; fail); try (injection H as -> ->; apply J; intros; first [apply nest_ecodes|apply nest_entries|etransitivity; [apply nest_strs|lia]|cbn; lia]; fail).
  - apply elem_of_list_fmap in H as (kv & [= -> ->] & _). apply T3.
  - injection H as -> ->. apply J. intros m'. apply (nest_map _ _ 1). intros s. apply nest_obj. intros k x. rewrite !elem_of_cons, elem_of_nil.
    intros [[= -> ->]|[[= -> ->]|[]]]; cbn; lia.
  - injection H as -> ->. etransitivity; [apply (nest_pairs _ _ 0); intros; cbn; lia|lia].
Qed.
Lemma overlay_nesting ov : (nesting (overlay_json ov) <= 4)%nat.
Proof.
  apply nest_obj. intros k x Hx. apply elem_of_app in Hx as [Hx|Hx]; [|by apply nest_body in Hx].
  assert (Z : nesting x = 0%nat); [|lia].
  destruct (ov_body ov); rewrite !elem_of_cons, elem_of_nil in Hx; destruct Hx as [[= -> ->]|[[= -> ->]|[[= -> ->]|[]]]]; by rewrite ?nest_opt.
Qed.
Lemma overlay_shallow ov : shallow (overlay_json ov).
Proof. unfold shallow. pose proof (overlay_nesting ov). lia. Qed.
Lemma cb_nesting cb n : (2 <= n)%nat -> (forall a t, (a, t) ∈ cb_attrs cb -> (nesting (nattr_json t) + 2 <= n)%nat) <-> (nesting (cb_json cb) <= n)%nat.
Proof.
  intros Hn. split.
  - intros H. destruct n as [|[|n]]; [lia..|]. apply nest_obj. intros k x. rewrite !elem_of_cons, elem_of_nil.
    intros [[= -> ->]|[[= -> ->]|[[= -> ->]|[[= -> ->]|[[= -> ->]|[]]]]]]; rewrite ?nest_opt; try (cbn; lia).
    + apply nest_obj. intros k x Hx. apply elem_of_list_fmap in Hx as ([a t] & [= -> ->] & Hin). rewrite sort_by_perm in Hin. specialize (H a t Hin). cbn [snd]. lia.
    + etransitivity; [apply nest_strs|lia].
  - intros H a t Hin. destruct n as [|[|n]]; [lia..|]. assert (X : (nesting (JObj (map (fun kv => (kv.1, nattr_json kv.2)) (sort_by fst (cb_attrs cb)))) <= S n)%nat).
    { apply (proj1 (nest_obj _ _) H "attributes"). right. right. left. }
    assert (Y : (nesting (nattr_json t) <= n)%nat); [|lia]. apply (proj1 (nest_obj _ _) X a). apply elem_of_list_fmap. exists (a, t). by rewrite sort_by_perm.
Qed.
Lemma overlays_nesting l : (nesting (overlays_json l) <= 6)%nat.
Proof.
  apply nest_map. intros [l'|ov]; cbn [oval_json].
  - apply nest_arr. intros x Hx. apply elem_of_list_fmap in Hx as (ov & -> & _). apply overlay_nesting.
  - etransitivity; [apply overlay_nesting|lia].
Qed.
(** A bundle nests too deep only by the type of an attribute. *)
Lemma bundle_nesting B n : (7 <= n)%nat -> (forall a t, (a, t) ∈ cb_attrs (b_cb B) -> (nesting (nattr_json t) + 3 <= n)%nat) <-> (nesting (bundle_json B) <= n)%nat.
Proof.
  intros Hn. destruct n as [|n]; [lia|]. split.
  - intros H. apply nest_obj. intros k x. rewrite !elem_of_cons, elem_of_nil. intros [[= -> ->]|[[= -> ->]|[[= -> ->]|[]]]].
    + rewrite nest_opt. lia.
    + apply cb_nesting; [lia|]. intros a t Hin. specialize (H a t Hin). lia.
    + etransitivity; [apply overlays_nesting|lia].
  - intros H a t Hin. assert (X : (nesting (cb_json (b_cb B)) <= n)%nat) by (apply (proj1 (nest_obj _ _) H "capture_base"); right; left).
    assert (2 <= n)%nat as Hn' by lia. pose proof (proj2 (cb_nesting _ _ Hn') X a t Hin). lia.
Qed.
Lemma bundle_shallow B : (forall a t, (a, t) ∈ cb_attrs (b_cb B) -> (nesting (nattr_json t) <= 124)%nat) <-> shallow (bundle_json B).
Proof.
  unfold shallow. assert (7 <= 127)%nat as L by lia. rewrite <- (bundle_nesting B 127 L). split; intros H a t Hin; specialize (H a t Hin); lia.
Qed.
Lemma base_shallow B : shallow (bundle_json B) -> shallow (cb_json (b_cb B)).
Proof. intros H. unfold shallow in *. assert (X : (nesting (cb_json (b_cb B)) <= 126)%nat) by (apply (proj1 (nest_obj _ _) H "capture_base"); right; left). lia. Qed.
