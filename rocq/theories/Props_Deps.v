(** Theorems C24: dependency closure on fetch. *)
From Verif Require Import Base Condition_proofs Spec_Bundle Spec_Build Spec_Facade Props_Facade Facade_proofs Props_Storage Props_Build Props_Bundle Props_Dag Props_Codec Props_BundleCodec Checkers Props_History.

Section Deps.
Variables said_ok digits lang_ok : string -> bool.
Variable standard_read : string -> option string.
Variable of_text : string -> option json.
Notation fetch := (get_bundle said_ok digits lang_ok standard_read of_text).
Notation deps := (get_deps said_ok digits lang_ok standard_read of_text).
Notation reach := (reached said_ok digits lang_ok standard_read of_text).

Fixpoint gather (g : string -> option (outcome (bundle * list bundle))) (l : list string) : option (outcome (list bundle)) :=
  match l with
  | [] => Some (Ok [])
  | r :: l' => match g r with
               | Some (Ok (b, ds)) => match gather g l' with Some (Ok rest) => Some (Ok (b :: ds ++ rest)) | x => x end
               | Some (Err e) => Some (Err e)
               | Some Panic => Some Panic
               | None => None
               end
  end.
Lemma deps_S n d s : deps (S n) d s = match fetch d s with
  | Ok B => match gather (deps n d) (references B) with
            | Some (Ok l) => Some (Ok (B, l)) | Some (Err e) => Some (Err e) | Some Panic => Some Panic | None => None end
  | Err e => Some (Err e)
  | Panic => Some Panic end.
Proof.
  cbn [get_deps]. destruct (fetch d s) as [B|e|]; [|reflexivity..].
  match goal with |- match ?a with _ => _ end = match ?b with _ => _ end => assert (E : a = b); [|by rewrite E] end.
  induction (references B) as [|r l IH]; [reflexivity|]. cbn [gather]. by rewrite IH.
Qed.
Lemma references_spec B r : r ∈ references B <-> refers B r.
Proof.
  unfold references, refers. rewrite elem_of_list_omap. split.
  - intros ([n t] & Hin & E). cbn in E. destruct t as [[s|?]| |[[s|?]| | |]|]; try discriminate; injection E as ->; exists n; auto.
  - intros [n [H|H]]; eexists; split; try exact H; done.
Qed.
Lemma gather_mono g g' l x : (forall r y, g r = Some y -> g' r = Some y) -> gather g l = Some x -> gather g' l = Some x.
Proof.
  intros Hg. revert x. induction l as [|r l IH]; intros x H; [done|]. cbn in *. destruct (g r) as [y|] eqn:E; [|discriminate]. rewrite (Hg _ _ E).
  destruct y as [[b ds]|e|]; [|done..]. destruct (gather g l) as [z|] eqn:E2; [|discriminate]. by rewrite (IH z).
Qed.
Lemma deps_mono n : forall m d s x, deps n d s = Some x -> (n <= m)%nat -> deps m d s = Some x.
Proof.
  induction n as [|n IH]; intros [|m] d s x H Hm; try done; [lia|]. rewrite deps_S in *. destruct (fetch d s) as [B|e|]; [|done..].
  destruct (gather (deps n d) (references B)) as [y|] eqn:E; [|discriminate].
  rewrite (gather_mono (deps n d) (deps m d) _ y); [done| |done]. intros r z Hz. apply (IH m); [done|lia].
Qed.
Lemma gather_ok g l ds : gather g l = Some (Ok ds) ->
  (forall r, r ∈ l -> exists b es, g r = Some (Ok (b, es)) /\ b ∈ ds /\ forall x, x ∈ es -> x ∈ ds) /\
  (forall b, b ∈ ds -> exists r b' es, r ∈ l /\ g r = Some (Ok (b', es)) /\ (b = b' \/ b ∈ es)).
Proof.
  revert ds. induction l as [|r l IH]; intros ds H; cbn in H.
  - injection H as <-. split; intros x Hx; by apply elem_of_nil in Hx.
  - destruct (g r) as [[[b es]|e|]|] eqn:E; try discriminate. destruct (gather g l) as [[rest|e|]|] eqn:E2; try discriminate. injection H as <-.
    destruct (IH rest eq_refl) as [I1 I2]. split.
    + intros r' Hr. apply elem_of_cons in Hr as [->|Hr].
      * exists b, es. split; [done|]. split; [left|]. intros x Hx. right. apply elem_of_app. by left.
      * destruct (I1 r' Hr) as (b' & es' & Hg & Hb & He). exists b', es'. split; [done|]. split; [right; apply elem_of_app; by right|].
        intros x Hx. right. apply elem_of_app. right. by apply He.
    + intros x Hx. apply elem_of_cons in Hx as [->|Hx]; [exists r, b, es; split; [left|]; split; [done|by left]|].
      apply elem_of_app in Hx as [Hx|Hx]; [exists r, b, es; split; [left|]; split; [done|by right]|].
      destruct (I2 x Hx) as (r' & b' & es' & Hr & Hg & Hb). exists r', b', es'. split; [by right|]. done.
Qed.
Lemma reach_front d s B t r : fetch d s = Ok B -> refers B t -> reach d t r -> reach d s r.
Proof. intros Hs Ht H. induction H as [B' r Hf Hr|t' B' r _ IH Hf Hr]; [eapply reached_more; [|exact Hf|exact Hr]; by eapply reached_one|eapply reached_more; eassumption]. Qed.
Lemma reach_split d s r : reach d s r -> exists B t, fetch d s = Ok B /\ refers B t /\ (t = r \/ reach d t r).
Proof.
  intros H. induction H as [B' r Hf Hr|t' B' r H (B & t & Hs & Ht & Hc) Hf Hr]; [exists B', r; auto|]. exists B, t. split; [done|]. split; [done|]. right.
  destruct Hc as [->|Hc]; [by eapply reached_one|by eapply reached_more].
Qed.
Lemma deps_ok n : forall d s B ds, deps n d s = Some (Ok (B, ds)) ->
  fetch d s = Ok B /\ (forall r, reach d s r -> exists b m es, (m < n)%nat /\ deps m d r = Some (Ok (b, es)) /\ b ∈ ds) /\
  (forall b, b ∈ ds -> exists r, reach d s r /\ fetch d r = Ok b).
Proof.
  induction n as [|n IH]; intros d s B ds H; [done|]. rewrite deps_S in H. destruct (fetch d s) as [B'|e|] eqn:Ef; try discriminate.
  destruct (gather (deps n d) (references B')) as [[l|e|]|] eqn:Eg; try discriminate. injection H as <- <-. split; [done|].
  destruct (gather_ok _ _ _ Eg) as [I1 I2]. split.
  - intros r Hr. apply reach_split in Hr as (B2 & t & E2 & Ht & Hc). rewrite Ef in E2. injection E2 as <-.
    apply references_spec in Ht. destruct (I1 t Ht) as (b & es & Hg & Hb & He). destruct Hc as [->|Hc].
    + exists b, n, es. split; [lia|]. done.
    + destruct (IH _ _ _ _ Hg) as (_ & J & _). destruct (J r Hc) as (b' & m & es' & Hm & Hd & Hin). exists b', m, es'. split; [lia|]. split; [done|]. by apply He.
  - intros b Hb. destruct (I2 b Hb) as (r & b' & es & Hr & Hg & Hc). destruct (IH _ _ _ _ Hg) as (Hf & _ & J). apply references_spec in Hr.
    destruct Hc as [->|Hc]; [exists r; split; [by eapply reached_one|done]|]. destruct (J b Hc) as (r' & Hr' & Hf'). exists r'. split; [by eapply reach_front|done].
Qed.
Lemma gather_fail g l x : gather g l = Some x -> is_ok x = false -> exists r y, r ∈ l /\ g r = Some y /\ is_ok y = false /\ (forall e, x = Err e -> y = Err e).
Proof.
  revert x. induction l as [|r l IH]; intros x H Hx; cbn in H; [injection H as <-; done|].
  destruct (g r) as [[[b es]|e|]|] eqn:E; try discriminate.
  - destruct (gather g l) as [[rest|e|]|] eqn:E2; try discriminate; injection H as <-; [done|..];
      (edestruct IH as (r' & y & Hr & Hy); [done|done|]; exists r', y; split; [by right|done]).
  - injection H as <-. exists r, (Err e). split; [left|]. split; [done|]. split; [done|]. by intros e' [= <-].
  - injection H as <-. exists r, Panic. split; [left|]. split; [done|]. done.
Qed.
Lemma deps_fail n : forall d s x, deps n d s = Some x -> is_ok x = false ->
  exists r, (r = s \/ reach d s r) /\ is_ok (fetch d r) = false /\ forall e, x = Err e -> fetch d r = Err e.
Proof.
  induction n as [|n IH]; intros d s x H Hx; [done|]. rewrite deps_S in H. destruct (fetch d s) as [B|e|] eqn:Ef.
  - destruct (gather (deps n d) (references B)) as [[l|e|]|] eqn:Eg; try discriminate; injection H as <-; [done|..];
      (destruct (gather_fail _ _ _ Eg eq_refl) as (r & y & Hr & Hg & Hy & He); apply references_spec in Hr;
       destruct (IH _ _ _ Hg Hy) as (r' & Hc & Hf & He'); exists r'; split;
       [right; destruct Hc as [->|Hc]; [by eapply reached_one|by eapply reach_front]|split; [done|intros e' [= <-]; apply He', He; done]]).
  - injection H as <-. exists s. split; [by left|]. rewrite Ef. split; [done|]. by intros e' [= <-].
  - injection H as <-. exists s. split; [by left|]. rewrite Ef. done.
Qed.
End Deps.

(** ** C24.  Fetching with dependencies succeeds, when it ends, exactly if the bundle and all bundles it reaches are
    there, and then returns exactly those; a failure is that of one of them. *)
Theorem C24_dependency_closure : forall said_ok digits lang_ok standard_read of_text d s n x,
  let fetch := get_bundle said_ok digits lang_ok standard_read of_text in
  let reach := reached said_ok digits lang_ok standard_read of_text d s in
  get_deps said_ok digits lang_ok standard_read of_text n d s = Some x ->
  match x with
  | Ok (B, ds) => fetch d s = Ok B /\ (forall r, reach r -> exists b, fetch d r = Ok b /\ b ∈ ds) /\ (forall b, b ∈ ds -> exists r, reach r /\ fetch d r = Ok b)
  | Err e => exists r, (r = s \/ reach r) /\ fetch d r = Err e
  | Panic => exists r, (r = s \/ reach r) /\ is_ok (fetch d r) = false
  end.
Proof.
  intros so dg lo sr ot d s n x fetch reach H. destruct x as [[B ds]|e|].
  - destruct (deps_ok _ _ _ _ _ _ _ _ _ _ H) as (H1 & H2 & H3). split; [done|]. split; [|done]. intros r Hr. destruct (H2 r Hr) as (b & m & es & _ & Hm & Hb).
    exists b. destruct (deps_ok _ _ _ _ _ _ _ _ _ _ Hm) as (H4 & _). done.
  - destruct (deps_fail _ _ _ _ _ _ _ _ _ H eq_refl) as (r & Hc & _ & He). exists r. split; [done|]. by apply He.
  - destruct (deps_fail _ _ _ _ _ _ _ _ _ H eq_refl) as (r & Hc & Hf & _). exists r. done.
Qed.
Print Assumptions C24_dependency_closure.
(** On a store without reference cycles it always ends. *)
Theorem C24_terminates : forall said_ok digits lang_ok standard_read of_text d s,
  acyclic said_ok digits lang_ok standard_read of_text d ->
  exists n x, forall m, (n <= m)%nat -> get_deps said_ok digits lang_ok standard_read of_text m d s = Some x.
Proof.
  intros so dg lo sr ot d s [rank Hr].
  assert (X : forall k s, (rank s < k)%nat -> exists x, get_deps so dg lo sr ot k d s = Some x).
  { clear s. induction k as [|k IH]; intros s Hk; [lia|]. rewrite deps_S. destruct (get_bundle so dg lo sr ot d s) as [B|e|] eqn:Ef; [|by eexists..].
    assert (G : exists y, gather (get_deps so dg lo sr ot k d) (references B) = Some y).
    { assert (Hl : forall r, r ∈ references B -> (rank r < k)%nat) by (intros r Hin; apply references_spec in Hin; specialize (Hr _ _ _ Ef Hin); lia).
      induction (references B) as [|r l IHl]; [by eexists|]. cbn. destruct (IH r) as [y Hy]; [apply Hl; left|]. rewrite Hy.
      destruct y as [[b es]|e|]; [|by eexists..]. destruct IHl as [z Hz]; [intros r' Hr'; apply Hl; by right|]. rewrite Hz. destruct z; by eexists. }
    destruct G as [y Hy]. rewrite Hy. destruct y; by eexists. }
  destruct (X (S (rank s)) s) as [x Hx]; [lia|]. exists (S (rank s)), x. intros m Hm. by apply (deps_mono _ _ _ _ _ _ m _ _ _ Hx).
Qed.
Print Assumptions C24_terminates.
(** So there: all reachable bundles present if and only if the fetch succeeds. *)
Theorem C24_succeeds_iff_all_present : forall said_ok digits lang_ok standard_read of_text d s,
  let fetch := get_bundle said_ok digits lang_ok standard_read of_text in
  acyclic said_ok digits lang_ok standard_read of_text d ->
  (exists n B ds, get_deps said_ok digits lang_ok standard_read of_text n d s = Some (Ok (B, ds))) <->
  (exists B, fetch d s = Ok B) /\ forall r, reached said_ok digits lang_ok standard_read of_text d s r -> exists b, fetch d r = Ok b.
Proof.
  intros so dg lo sr ot d s fetch Ha. split.
  - intros (n & B & ds & H). apply C24_dependency_closure in H as (H1 & H2 & _). split; [by exists B|]. intros r Hr. destruct (H2 r Hr) as (b & Hb & _). by exists b.
  - intros [[B HB] H]. destruct (C24_terminates so dg lo sr ot d s Ha) as (n & x & Hx). specialize (Hx n (le_n n)). exists n.
    apply C24_dependency_closure in Hx as Hy. destruct x as [[B' ds]|e|]; [by exists B', ds|exfalso..].
    + destruct Hy as (r & [->|Hr] & Hf); [unfold fetch in HB; congruence|]. destruct (H r Hr) as [b Hb]. unfold fetch in Hb. congruence.
    + destruct Hy as (r & [->|Hr] & Hf); [unfold fetch in HB; by rewrite HB in Hf|]. destruct (H r Hr) as [b Hb]. unfold fetch in Hb. by rewrite Hb in Hf.
Qed.
Print Assumptions C24_succeeds_iff_all_present.
(** A reference cycle that is reached is never left. *)
Theorem C24_cycle_never_succeeds : forall said_ok digits lang_ok standard_read of_text d s r n B ds,
  let reach := reached said_ok digits lang_ok standard_read of_text d in
  r = s \/ reach s r -> reach r r -> get_deps said_ok digits lang_ok standard_read of_text n d s <> Some (Ok (B, ds)).
Proof.
  intros so dg lo sr ot d s r n B ds reach Hs Hc H.
  assert (X : forall k B ds, get_deps so dg lo sr ot k d r = Some (Ok (B, ds)) -> False).
  { intros k. induction (lt_wf k) as [k _ IH]. intros B' ds' Hk. destruct (deps_ok _ _ _ _ _ _ _ _ _ _ Hk) as (_ & J & _).
    destruct (J r Hc) as (b & m & es & Hm & Hd & _). exact (IH m Hm _ _ Hd). }
  destruct Hs as [->|Hs]; [exact (X _ _ _ H)|]. destruct (deps_ok _ _ _ _ _ _ _ _ _ _ H) as (_ & J & _). destruct (J r Hs) as (b & m & es & _ & Hd & _). exact (X _ _ _ Hd).
Qed.
Print Assumptions C24_cycle_never_succeeds.

(** A concrete store: leaf, middle -> leaf, top -> middle (array) and leaf. *)
Definition ref_to (k : string) : nattr := NRef (RSaid k).
Definition ex_chain : option (facade * string * string * string) :=
  match ex_run [add_attrs [("x", NVal TText)]] facade_new with
  | Ok (f1, B1) => match b_said B1 with Some k1 =>
    match ex_run [add_attrs [("l", ref_to k1)]] f1 with
    | Ok (f2, B2) => match b_said B2 with Some k2 =>
      match ex_run [add_attrs [("m", NArr (ref_to k2)); ("l", ref_to k1)]] f2 with
      | Ok (f3, B3) => match b_said B3 with Some k3 => Some (f3, k1, k2, k3) | None => None end
      | _ => None end
    | None => None end
    | _ => None end
  | None => None end
  | _ => None end.
Definition ex_deps := get_deps ex_said_ok ascii_digits ex_lang_ok (fun _ => None) ex_of_text.
Example C24_example :
  match ex_chain with
  | Some (f, k1, k2, k3) =>
    match ex_deps 5 (fa_cache f) k3, ex_deps 5 (fa_cache f) "nothing" with
    | Some (Ok (B, ds)), Some (Err _) => bool_decide (b_said B = Some k3) && bool_decide (map b_said ds = [Some k1; Some k2; Some k1])
    | _, _ => false end
  | None => false end = true.
Proof. vm_compute. reflexivity. Qed.
(** A store whose only bundle refers to itself (it cannot be built, but it can be stored). *)
Definition ex_loop : bundle := Bundle (Some "E1") (CaptureBase (Some "C1") "spec/capture_base/1.1" [("self", ref_to "E1")] "" []) [].
Definition ex_loop_db : mem := ins2 NsBundles "E1" (ex_to_text (bundle_json ex_loop)) ∅.
Example C24_cycle_example : reached ex_said_ok ascii_digits ex_lang_ok (fun _ => None) ex_of_text ex_loop_db "E1" "E1" /\ ex_deps 20 ex_loop_db "E1" = None.
Proof.
  split; [|vm_compute; reflexivity].
  assert (H : match ex_fetch ex_loop_db "E1" with Ok B => bool_decide (("self", ref_to "E1") ∈ cb_attrs (b_cb B)) | _ => false end = true) by (vm_compute; reflexivity).
  destruct (ex_fetch ex_loop_db "E1") as [B|e|] eqn:E; try done. apply bool_decide_eq_true in H. eapply reached_one; [exact E|]. exists "self". by left.
Qed.
