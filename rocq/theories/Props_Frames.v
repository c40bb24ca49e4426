(** C58: attribute types of any nesting depth. *)
From Verif Require Import Base Bundle Codec Spec_Codec Codec_proofs Props_Codec Peg OcaGrammar OcaFile Frames Spec_Frames.
From Verif Require Condition_proofs.
Local Open Scope list_scope.

Section Machine.
Context {F : Type -> Type} (mapf : forall A B S : Type, (A -> S -> outcome (B * S)) -> F A -> S -> outcome (F B * S)).
(** Frames without a hole, frames with one. *)
Definition leaf {A} (fr : F A) (g : forall B, F B) : Prop := forall B S (f : A -> S -> outcome (B * S)) s, mapf _ _ _ f fr s = Ok (g B, s).
Definition node {A} (fr : F A) (a : A) (k : forall B, B -> F B) : Prop := forall B S (f : A -> S -> outcome (B * S)) s, mapf _ _ _ f fr s = let! x := f a s in Ok (k B x.1, x.2).
Context {Seed Out : Type} (expand : Seed -> outcome (F Seed)) (collapse : F Out -> outcome Out).
Inductive evaluates : Seed -> outcome Out -> nat -> Prop :=
| ev_leaf s fr g : expand s = Ok fr -> leaf fr g -> leaf (g unit) g -> evaluates s (collapse (g Out)) 2
| ev_node s fr a k r n : expand s = Ok fr -> node fr a k -> (forall u, node (k unit u) u k) -> evaluates a r n -> evaluates s (let! o := r in collapse (k Out o)) (2 + n)
| ev_panic s : expand s = Panic -> evaluates s Panic 1.
Lemma machine_evaluates s r n : evaluates s r n -> forall m st vals,
  machine mapf expand collapse (n + m) (Expand s :: st) vals = match r with Ok o => machine mapf expand collapse m st (o :: vals) | Err e => Some (Err e) | Panic => Some Panic end.
Proof.
  induction 1 as [s fr g E L L'|s fr a k r n E N N' H IH|s E]; intros m st vals.
  - cbn [plus machine]. rewrite E. cbn [obind]. rewrite L. cbn [fst snd map rev app]. rewrite L'. cbn [obind fst snd]. by destruct (collapse (g Out)).
  - assert (A : forall j, machine mapf expand collapse (S j) (Expand s :: st) vals = machine mapf expand collapse j (Expand a :: Collapse (k unit tt) :: st) vals).
    { intros j. cbn [machine]. rewrite E. cbn [obind]. rewrite N. by cbn [obind fst snd map rev app]. }
    replace (2 + n + m)%nat with (S (n + S m)) by lia. rewrite A, IH. destruct r as [o|e|]; cbn [obind]; [|done..]. cbn [machine]. rewrite (N' tt). cbn [obind fst snd]. by destruct (collapse (k Out o)).
  - cbn [plus machine]. by rewrite E.
Qed.
Lemma run_evaluates s r n m : evaluates s r n -> (S n <= m)%nat -> run_frames mapf expand collapse m s = Some r.
Proof.
  intros H Hm. unfold run_frames. replace m with (n + S (m - S n))%nat by lia. rewrite (machine_evaluates _ _ _ H). by destruct r.
Qed.
End Machine.

(** ** The frames *)
Lemma rf_leaf {A} (fr : rframe A) : (forall a, fr <> RfOk (TfArr a)) -> exists g : forall B, rframe B, leaf (@rf_map) fr g /\ leaf (@rf_map) (g unit) g /\
  match fr with RfOk (TfRef r) => g tresult = RfOk (TfRef r) | RfOk (TfVal t) => g tresult = RfOk (TfVal t) | RfOk TfNull => g tresult = RfOk TfNull | RfErr e => g tresult = RfErr e | _ => False end.
Proof.
  destruct fr as [[r|t|a|]|e]; intros H; [exists (fun _ => RfOk (TfRef r))|exists (fun _ => RfOk (TfVal t))|by destruct (H a)|exists (fun _ => RfOk TfNull)|exists (fun _ => RfErr e)]; by repeat split.
Qed.
Lemma rf_node {A} (a : A) : node (@rf_map) (RfOk (TfArr a)) a (fun B b => RfOk (TfArr b)).
Proof. intros B S f s. cbn. by destruct (f a s). Qed.
Section Result.
Context {Seed : Type} (expand : Seed -> outcome (rframe Seed)).
Definition from_result (fr : rframe tresult) : outcome tresult := Ok (rf_from fr).
Lemma leaf_evaluates s fr r : expand s = Ok fr -> (forall a, fr <> RfOk (TfArr a)) -> match fr with RfOk (TfRef x) => r = inl (NRef x) | RfOk (TfVal t) => r = inl (NVal t) | RfOk TfNull => r = inl NNull | RfErr e => r = inr e | _ => False end ->
  evaluates (@rf_map) expand from_result s (Ok r) 2.
Proof.
  intros E Hn Hr. destruct (rf_leaf fr Hn) as (g & L & L' & Hg).
  assert (X : Ok r = from_result (g tresult)). { destruct fr as [[x|t|a|]|e]; try (subst r; unfold from_result; by rewrite Hg). by destruct Hg. }
  rewrite X. by eapply ev_leaf.
Qed.
Lemma node_evaluates s a r n : expand s = Ok (RfOk (TfArr a)) -> evaluates (@rf_map) expand from_result a r n ->
  evaluates (@rf_map) expand from_result s (let! x := r in Ok (match x with inl t => inl (NArr t) | inr e => inr e end)) (2 + n).
Proof.
  intros E H. pose proof (ev_node (@rf_map) expand from_result s _ a (fun B b => RfOk (TfArr b)) r n E (rf_node a) (fun u => rf_node u) H) as X. exact X.
Qed.
End Result.

(** ** Reading from JSON, from the pairs of the grammar; writing *)
Definition as_result (r : outcome nattr) : outcome tresult := match r with Ok t => Ok (inl t) | Err e => Ok (inr e) | Panic => Panic end.
Lemma as_result_value r : (let! x := as_result r in result_value x) = r.
Proof. by destruct r. Qed.
Lemma evaluates_json said_ok : forall j, exists n, evaluates (@rf_map) (expand_json said_ok) from_result j (as_result (nattr_parse said_ok j)) n.
Proof.
  fix IH 1. intros [|b|x|s|l|l].
  - exists 2%nat. by eapply leaf_evaluates.
  - exists 2%nat. by eapply leaf_evaluates.
  - exists 2%nat. by eapply leaf_evaluates.
  - exists 2%nat. cbn [nattr_parse]. destruct (starts_ref s) eqn:S1.
    + destruct (ref_parse said_ok s) as [r|] eqn:E; (eapply leaf_evaluates; [cbn [expand_json]; rewrite S1, E; reflexivity|done|done]).
    + destruct (attr_type_parse s) as [t|] eqn:E; (eapply leaf_evaluates; [cbn [expand_json]; rewrite S1, E; reflexivity|done|done]).
  - destruct l as [|x l]; [exists 1%nat; by apply ev_panic|]. destruct (IH x) as (n & Hn). exists (2 + n)%nat.
    pose proof (node_evaluates (expand_json said_ok) (JArr (x :: l)) x _ n eq_refl Hn) as X. cbn [nattr_parse]. destruct (nattr_parse said_ok x); exact X.
  - exists 2%nat. by eapply leaf_evaluates.
Qed.
Lemma evaluates_pair said_ok : forall p, exists n, evaluates (@rf_map) (expand_pair said_ok) from_result p (as_result (extract_attr_type said_ok p)) n.
Proof.
  fix IH 1. intros [r t l]. destruct r; try (exists 2%nat; by eapply leaf_evaluates).
  all: try (exists 2%nat; cbn [extract_attr_type]; match goal with |- context [attr_type_parse ?x] => destruct (attr_type_parse x) eqn:E | |- context [if ?b then _ else _] => destruct b eqn:E end;
    (eapply leaf_evaluates; [cbn [expand_pair]; rewrite E; reflexivity|done|done])).
  destruct l as [|q l]; [exists 2%nat; by eapply leaf_evaluates|]. destruct (IH q) as (n & Hn). exists (2 + n)%nat.
  pose proof (node_evaluates (expand_pair said_ok) (Pair Rarray_attr_type t (q :: l)) q _ n eq_refl Hn) as X. cbn [extract_attr_type]. destruct (extract_attr_type said_ok q); exact X.
Qed.
Definition text_result (o : option string) : outcome string := match o with Some s => Ok s | None => Panic end.
Lemma tf_leaf {A} (fr : tframe A) (fr' : forall B, tframe B) : (forall B S (f : A -> S -> outcome (B * S)) s, tf_map f fr s = Ok (fr' B, s)) -> leaf (@tf_map) fr fr'.
Proof. done. Qed.
Lemma evaluates_text : forall t, exists n, evaluates (@tf_map) (fun t => Ok (tf_into t)) collapse_text t (text_result (type_text t)) n.
Proof.
  induction t as [r|a|t (n & IH)|].
  - exists 2%nat. assert (X : text_result (type_text (NRef r)) = collapse_text (TfRef r)) by (by destruct r). rewrite X.
    apply (ev_leaf (@tf_map) (fun t => Ok (tf_into t)) collapse_text (NRef r) (TfRef r) (fun B => TfRef r)); done.
  - exists 2%nat. apply (ev_leaf (@tf_map) (fun t => Ok (tf_into t)) collapse_text (NVal a) (TfVal a) (fun B => TfVal a)); done.
  - exists (2 + n)%nat. pose proof (ev_node (@tf_map) (fun t => Ok (tf_into t)) collapse_text (NArr t) (TfArr t) t (fun B b => TfArr b) (text_result (type_text t)) n eq_refl) as X.
    specialize (X ltac:(done) ltac:(done) IH). cbn [type_text]. destruct (type_text t) as [s|]; exact X.
  - exists 2%nat. apply (ev_leaf (@tf_map) (fun t => Ok (tf_into t)) collapse_text NNull TfNull (fun B => TfNull)); done.
Qed.

(** The conversions of the code end, with what the recursive functions of the model give. *)
Theorem C58_from_json : forall said_ok j, ends (fun m => type_of_json said_ok m j) (nattr_parse said_ok j).
Proof.
  intros said_ok j. destruct (evaluates_json said_ok j) as (n & Hn). exists (S n). intros m Hm. unfold type_of_json.
  pose proof (run_evaluates _ _ _ _ _ _ m Hn Hm) as X. unfold from_result in X. rewrite X. by rewrite as_result_value.
Qed.
Print Assumptions C58_from_json.
Theorem C58_from_file : forall said_ok p, ends (fun m => type_of_pair said_ok m p) (extract_attr_type said_ok p).
Proof.
  intros said_ok p. destruct (evaluates_pair said_ok p) as (n & Hn). exists (S n). intros m Hm. unfold type_of_pair.
  pose proof (run_evaluates _ _ _ _ _ _ m Hn Hm) as X. unfold from_result in X. rewrite X. by rewrite as_result_value.
Qed.
Print Assumptions C58_from_file.
Theorem C58_to_file : forall t, ends (fun m => text_of_type m t) (match type_text t with Some s => Ok s | None => Panic end).
Proof. intros t. destruct (evaluates_text t) as (n & Hn). exists (S n). intros m Hm. by apply (run_evaluates _ _ _ _ _ _ m Hn). Qed.
Print Assumptions C58_to_file.
(** Every type that is written to JSON is read back, whatever its depth. *)
Theorem C58_json_round_trip : forall said_ok t, nattr_ok said_ok t -> ends (fun m => type_of_json said_ok m (nattr_json t)) (Ok t).
Proof. intros said_ok t Ht. destruct (C58_from_json said_ok (nattr_json t)) as (n & Hn). exists n. intros m Hm. rewrite (Hn m Hm). f_equal. by apply C20_attr_round_trip. Qed.

(** ** Any number of arrays *)
Lemma run_in_brackets said_ok j r n : evaluates (@rf_map) (expand_json said_ok) from_result j (Ok r) n -> forall k,
  evaluates (@rf_map) (expand_json said_ok) from_result (in_brackets k j) (Ok (match r with inl t => inl (in_arrays k t) | inr e => inr e end)) (2 * k + n).
Proof.
  intros H. induction k as [|k IH]; [cbn; by destruct r|]. cbn [in_brackets].
  pose proof (node_evaluates (expand_json said_ok) (JArr [in_brackets k j]) (in_brackets k j) _ _ eq_refl IH) as X. cbn [obind] in X. replace (2 * S k + n)%nat with (2 + (2 * k + n))%nat by lia. by destruct r.
Qed.
Theorem C58_depth_json : forall said_ok k m, (2 * k + 2 < m)%nat ->
  (forall a, type_of_json said_ok m (in_brackets k (JStr (attr_type_name a))) = Some (Ok (in_arrays k (NVal a)))) /\
  (forall s, said_ok s = true -> type_of_json said_ok m (in_brackets k (JStr ("refs:" +:+ s))) = Some (Ok (in_arrays k (NRef (RSaid s))))) /\
  (forall e, is_ok (nattr_parse said_ok (JStr e)) = false -> exists msg, type_of_json said_ok m (in_brackets k (JStr e)) = Some (Err msg)).
Proof.
  intros said_ok k m Hm.
  assert (G : forall s r, expand_json said_ok (JStr s) = Ok r -> forall x, match r with RfOk (TfRef y) => x = inl (NRef y) | RfOk (TfVal t) => x = inl (NVal t) | RfErr e => x = inr e | _ => False end ->
    type_of_json said_ok m (in_brackets k (JStr s)) = Some (result_value (match x with inl t => inl (in_arrays k t) | inr e => inr e end))).
  { intros s r E x Hx. unfold type_of_json. assert (L : evaluates (@rf_map) (expand_json said_ok) from_result (JStr s) (Ok x) 2).
    { eapply leaf_evaluates; [exact E|intros a Ha; subst r; exact Hx|]. destruct r as [[]|]; done. }
    pose proof (run_evaluates _ _ _ _ _ _ m (run_in_brackets _ _ _ _ L k)) as X. unfold from_result in X. rewrite X by lia. by destruct x. }
  split; [|split].
  - intros a. assert (E : expand_json said_ok (JStr (attr_type_name a)) = Ok (RfOk (TfVal a))) by (by destruct a). rewrite (G _ _ E (inl (NVal a)) eq_refl). done.
  - intros s Hs. assert (E : expand_json said_ok (JStr ("refs:" +:+ s)) = Ok (RfOk (TfRef (RSaid s)))). { cbn. unfold ref_parse. cbn. by rewrite Hs. }
    rewrite (G _ _ E (inl (NRef (RSaid s))) eq_refl). done.
  - intros e He. cbn [nattr_parse] in He. destruct (starts_ref e) eqn:S1.
    + destruct (ref_parse said_ok e) eqn:E; [done|]. eexists. rewrite (G e (RfErr ["invalid reference"]) ltac:(cbn [expand_json]; rewrite S1, E; reflexivity) (inr _) eq_refl). reflexivity.
    + destruct (attr_type_parse e) eqn:E; [done|]. eexists. rewrite (G e (RfErr _) ltac:(cbn [expand_json]; rewrite S1, E; reflexivity) (inr _) eq_refl). reflexivity.
Qed.
Print Assumptions C58_depth_json.
Lemma append_bracket k : (repeated k "]" +:+ "]" = "]" +:+ repeated k "]")%string.
Proof. induction k as [|k IH]; [done|]. cbn [repeated]. by rewrite Condition_proofs.append_assoc, IH. Qed.
Lemma run_in_text s t n : evaluates (@tf_map) (fun t => Ok (tf_into t)) collapse_text t (Ok s) n -> forall k,
  evaluates (@tf_map) (fun t => Ok (tf_into t)) collapse_text (in_arrays k t) (Ok (in_text k s)) (2 * k + n).
Proof.
  intros H. induction k as [|k IH]; [cbn; unfold in_text; cbn; by rewrite Condition_proofs.append_nil_r|]. cbn [in_arrays].
  pose proof (ev_node (@tf_map) (fun t => Ok (tf_into t)) collapse_text (NArr (in_arrays k t)) (TfArr (in_arrays k t)) (in_arrays k t) (fun B b => TfArr b) (Ok (in_text k s)) (2 * k + n) eq_refl) as X.
  specialize (X ltac:(done) ltac:(done) IH). cbn [obind collapse_text] in X. replace (2 * S k + n)%nat with (2 + (2 * k + n))%nat by lia.
  replace (in_text (S k) s) with ("Array[" +:+ in_text k s +:+ "]")%string; [exact X|]. unfold in_text. cbn [repeated]. rewrite !Condition_proofs.append_assoc, append_bracket. done.
Qed.
Theorem C58_depth_text : forall k m, (2 * k + 2 < m)%nat ->
  (forall a, text_of_type m (in_arrays k (NVal a)) = Some (Ok (in_text k (attr_type_name a)))) /\
  (forall s, text_of_type m (in_arrays k (NRef (RSaid s))) = Some (Ok (in_text k ("refs:" +:+ s)))) /\
  (forall n, exists j, text_of_type j (in_arrays k (NRef (RName n))) = Some Panic).
Proof.
  intros k m Hm. unfold text_of_type. split; [|split].
  - intros a. eapply run_evaluates; [|instantiate (1 := (2 * k + 2)%nat); lia]. apply run_in_text. by apply (ev_leaf (@tf_map) (fun t => Ok (tf_into t)) collapse_text (NVal a) (TfVal a) (fun B => TfVal a)).
  - intros s. eapply run_evaluates; [|instantiate (1 := (2 * k + 2)%nat); lia]. apply run_in_text.
    by apply (ev_leaf (@tf_map) (fun t => Ok (tf_into t)) collapse_text (NRef (RSaid s)) (TfRef (RSaid s)) (fun B => TfRef (RSaid s))).
  - intros n. destruct (C58_to_file (in_arrays k (NRef (RName n)))) as (j & Hj). exists j. specialize (Hj j (le_n j)). unfold text_of_type in Hj. rewrite Hj.
    assert (X : type_text (in_arrays k (NRef (RName n))) = None) by (clear; induction k as [|k IH]; [done|cbn; by rewrite IH]). by rewrite X.
Qed.
Print Assumptions C58_depth_text.
(** Twenty arrays, read and written. *)
Theorem C58_hypotheses_met : type_of_json (fun _ => true) 43 (in_brackets 20 (JStr "Text")) = Some (Ok (in_arrays 20 (NVal TText))) /\
  text_of_type 5 (in_arrays 1 (NVal TText)) = Some (Ok "Array[Text]") /\ text_of_type 4 (in_arrays 1 (NVal TText)) = None /\ nattr_ok (fun _ => true) (in_arrays 3 (NRef (RSaid "E"))).
Proof. split; [|split; [reflexivity|split; [reflexivity|done]]]. exact (proj1 (C58_depth_json (fun _ => true) 20 43 ltac:(lia)) TText). Qed.
Print Assumptions C58_hypotheses_met.
