(** Big-step reading of [run], independence of the fuel, and termination for well-formed grammars. *)
From Coq Require Import Lia.
From Verif Require Export Peg.
From Verif Require Import Condition_proofs.

Section PegProofs.
Context {R : Type} (g : R -> mode * pe R).
Local Notation pe := (pe R).
Local Notation pair := (pair R).

Definition rinside (m : mode) (at_ : bool) : bool := match m with Normal => at_ | Atomic => true | Compound => false end.
Definition rshown (m : mode) (at_ : bool) : bool := match m with Compound => true | _ => negb at_ end.

(** [ev at e s (Some (c, ts, r))]: [e] consumes [c] of [s = c +:+ r] and yields [ts]; [None]: no match. *)
Inductive ev : bool -> pe -> string -> option (string * list pair * string) -> Prop :=
| ev_cls at_ f c r : f c = true -> ev at_ (PCls f) (String c r) (Some (String c "", [], r))
| ev_cls_no at_ f c r : f c = false -> ev at_ (PCls f) (String c r) None
| ev_cls_end at_ f : ev at_ (PCls f) "" None
| ev_lit at_ p s c r : strip Ascii.eqb p s = Some (c, r) -> ev at_ (PLit p) s (Some (c, [], r))
| ev_lit_no at_ p s : strip Ascii.eqb p s = None -> ev at_ (PLit p) s None
| ev_liti at_ p s c r : strip (fun a b => Ascii.eqb a (lower b)) p s = Some (c, r) -> ev at_ (PLitI p) s (Some (c, [], r))
| ev_liti_no at_ p s : strip (fun a b => Ascii.eqb a (lower b)) p s = None -> ev at_ (PLitI p) s None
| ev_end at_ : ev at_ PEnd "" (Some ("", [], ""))
| ev_end_no at_ c s : ev at_ PEnd (String c s) None
| ev_seq at_ a b s c ts r c' ts' r' : ev at_ a s (Some (c, ts, r)) -> ev at_ b r (Some (c', ts', r')) ->
    ev at_ (PSeq a b) s (Some (c +:+ c', ts ++ ts', r'))
| ev_seq_no1 at_ a b s : ev at_ a s None -> ev at_ (PSeq a b) s None
| ev_seq_no2 at_ a b s c ts r : ev at_ a s (Some (c, ts, r)) -> ev at_ b r None -> ev at_ (PSeq a b) s None
| ev_alt1 at_ a b s x : ev at_ a s (Some x) -> ev at_ (PAlt a b) s (Some x)
| ev_alt2 at_ a b s o : ev at_ a s None -> ev at_ b s o -> ev at_ (PAlt a b) s o
| ev_star_end at_ a s : ev at_ a s None -> ev at_ (PStar a) s (Some ("", [], s))
| ev_star at_ a s c ts r c' ts' r' : ev at_ a s (Some (c, ts, r)) -> ev at_ (PStar a) r (Some (c', ts', r')) ->
    ev at_ (PStar a) s (Some (c +:+ c', ts ++ ts', r'))
| ev_opt at_ a s x : ev at_ a s (Some x) -> ev at_ (POpt a) s (Some x)
| ev_opt_no at_ a s : ev at_ a s None -> ev at_ (POpt a) s (Some ("", [], s))
| ev_not at_ a s : ev at_ a s None -> ev at_ (PNot a) s (Some ("", [], s))
| ev_not_no at_ a s x : ev at_ a s (Some x) -> ev at_ (PNot a) s None
| ev_rul at_ r m b s c ts rest : g r = (m, b) -> ev (rinside m at_) b s (Some (c, ts, rest)) ->
    ev at_ (PRul r) s (Some (c, if rshown m at_ then [Pair r c ts] else ts, rest))
| ev_rul_no at_ r m b s : g r = (m, b) -> ev (rinside m at_) b s None -> ev at_ (PRul r) s None.

Definition of_res (x : pres R) : option (option (string * list pair * string)) :=
  match x with PFuel => None | PFail => Some None | PDone c ts r => Some (Some (c, ts, r)) end.
Definition to_res (x : option (string * list pair * string)) : pres R :=
  match x with None => PFail | Some (c, ts, r) => PDone c ts r end.

Lemma star_never_fails n at_ a s : run g n at_ (PStar a) s <> PFail.
Proof.
  revert s. induction n as [|n IH]; intros s; [done|]. cbn [run]. destruct (run g n at_ a s) as [| |c ts r]; try done.
  specialize (IH r). by destruct (run g n at_ (PStar a) r).
Qed.

Lemma run_ev n : forall at_ e s o, of_res (run g n at_ e s) = Some o -> ev at_ e s o.
Proof.
  induction n as [|n IH]; intros at_ e s o H; [done|].
  assert (IHd : forall at_ e s c ts r, run g n at_ e s = PDone c ts r -> ev at_ e s (Some (c, ts, r))) by (intros; apply IH; by rewrite H0).
  assert (IHn : forall at_ e s, run g n at_ e s = PFail -> ev at_ e s None) by (intros; apply IH; by rewrite H0).
  clear IH. destruct e as [f|p|p| |a b|a b|a|a|a|r]; cbn [run] in H.
  - destruct s as [|c s]; [injection H as <-; constructor|]. destruct (f c) eqn:E; injection H as <-; by constructor.
  - destruct (strip _ p s) as [[c r]|] eqn:E; injection H as <-; by constructor.
  - destruct (strip _ p s) as [[c r]|] eqn:E; injection H as <-; by constructor.
  - destruct s; injection H as <-; constructor.
  - destruct (run g n at_ a s) as [| |c ts r] eqn:E1; [done|injection H as <-; apply ev_seq_no1; by apply IHn|].
    destruct (run g n at_ b r) as [| |c' ts' r'] eqn:E2; [done| |]; injection H as <-; [eapply ev_seq_no2; eauto|eapply ev_seq; eauto].
  - destruct (run g n at_ a s) as [| |c ts r] eqn:E1; [done| |injection H as <-; apply ev_alt1; by apply IHd].
    apply ev_alt2; [by apply IHn|]. destruct (run g n at_ b s) as [| |c ts r] eqn:E2; [done| |]; injection H as <-; auto.
  - destruct (run g n at_ a s) as [| |c ts r] eqn:E1; [done|injection H as <-; apply ev_star_end; by apply IHn|].
    destruct (run g n at_ (PStar a) r) as [| |c' ts' r'] eqn:E2; [done| |]; injection H as <-; [|eapply ev_star; eauto].
    by destruct (star_never_fails n at_ a r).
  - destruct (run g n at_ a s) as [| |c ts r] eqn:E1; [done| |]; injection H as <-; [apply ev_opt_no|apply ev_opt]; auto.
  - destruct (run g n at_ a s) as [| |c ts r] eqn:E1; [done| |]; injection H as <-; [apply ev_not|eapply ev_not_no]; eauto.
  - destruct (g r) as [m b] eqn:Eg. destruct (run g n _ b s) as [| |c ts rest] eqn:E1; [done| |]; injection H as <-.
    + eapply ev_rul_no; [done|]. by destruct m; apply IHn.
    + pose proof (ev_rul at_ r m b s c ts rest Eg) as X. unfold rshown in X. apply X. by destruct m; apply IHd.
Qed.

Lemma run_mono n : forall m at_ e s, n <= m -> run g n at_ e s <> PFuel -> run g m at_ e s = run g n at_ e s.
Proof.
  induction n as [|n IH]; intros m at_ e s Hm H; [done|]. destruct m as [|m]; [lia|]. assert (Hle : n <= m) by lia.
  destruct e as [f|p|p| |a b|a b|a|a|a|r]; cbn [run] in *; try done.
  - destruct (run g n at_ a s) as [| |c ts r] eqn:E1; [done| |]; rewrite (IH m at_ a s Hle) by (by rewrite E1); rewrite E1; [done|].
    destruct (run g n at_ b r) as [| |c' ts' r'] eqn:E2; [done| |]; rewrite (IH m at_ b r Hle) by (by rewrite E2); by rewrite E2.
  - destruct (run g n at_ a s) as [| |c ts r] eqn:E1; [done| |]; rewrite (IH m at_ a s Hle) by (by rewrite E1); rewrite E1; [|done]. by apply IH.
  - destruct (run g n at_ a s) as [| |c ts r] eqn:E1; [done| |]; rewrite (IH m at_ a s Hle) by (by rewrite E1); rewrite E1; [done|].
    destruct (run g n at_ (PStar a) r) as [| |c' ts' r'] eqn:E2; [done| |]; rewrite (IH m at_ (PStar a) r Hle) by (by rewrite E2); by rewrite E2.
  - destruct (run g n at_ a s) as [| |c ts r] eqn:E1; [done| |]; rewrite (IH m at_ a s Hle) by (by rewrite E1); by rewrite E1.
  - destruct (run g n at_ a s) as [| |c ts r] eqn:E1; [done| |]; rewrite (IH m at_ a s Hle) by (by rewrite E1); by rewrite E1.
  - destruct (g r) as [mo b] eqn:Eg. destruct (run g n _ b s) as [| |c ts rest] eqn:E1; [done| |]; rewrite (IH m _ b s Hle) by (by rewrite E1); by rewrite E1.
Qed.

Lemma ev_run at_ e s o : ev at_ e s o -> exists n, forall m, n <= m -> run g m at_ e s = to_res o.
Proof.
  induction 1 as [at_ f c r H|at_ f c r H|at_ f|at_ p s c r H|at_ p s H|at_ p s c r H|at_ p s H|at_|at_ c s|at_ a b s c ts r c' ts' r' H1 IH1 H2 IH2|at_ a b s H1 IH1
    |at_ a b s c ts r H1 IH1 H2 IH2|at_ a b s x H1 IH1|at_ a b s o H1 IH1 H2 IH2|at_ a s H1 IH1|at_ a s c ts r c' ts' r' H1 IH1 H2 IH2|at_ a s x H1 IH1|at_ a s H1 IH1|at_ a s H1 IH1
    |at_ a s x H1 IH1|at_ r m b s c ts rest Hg H1 IH1|at_ r m b s Hg H1 IH1].
  all: try (exists 1; intros k Hk; destruct k as [|k]; [lia|]; cbn [run]; by rewrite ?H).
  all: try (destruct IH1 as [n1 IH1], IH2 as [n2 IH2]; exists (S (n1 + n2)); intros k Hk; destruct k as [|k]; [lia|];
    cbn [run]; rewrite IH1 by lia; cbn [to_res]; rewrite IH2 by lia; by cbn [to_res]).
  all: try (destruct IH1 as [n1 IH1]; exists (S n1); intros k Hk; destruct k as [|k]; [lia|]; cbn [run]; rewrite IH1 by lia; try (by destruct x as [[??]?]); by cbn [to_res]).
  - destruct IH1 as [n1 IH1]; exists (S n1); intros k Hk; destruct k as [|k]; [lia|]; cbn [run]. rewrite Hg. destruct m; cbn [rinside] in IH1; (rewrite IH1 by lia; by cbn [to_res rshown]).
  - destruct IH1 as [n1 IH1]; exists (S n1); intros k Hk; destruct k as [|k]; [lia|]; cbn [run]. rewrite Hg. destruct m; cbn [rinside] in IH1; (rewrite IH1 by lia; by cbn [to_res rshown]).
Qed.

(** The result does not depend on how it was found. *)
Lemma ev_det at_ e s o o' : ev at_ e s o -> ev at_ e s o' -> o = o'.
Proof.
  intros H H'. apply ev_run in H as [n H], H' as [n' H']. specialize (H (n + n')). specialize (H' (n + n')).
  rewrite H in H' by lia. specialize (H' ltac:(lia)). destruct o as [[[c ts] r]|], o' as [[[c' ts'] r']|]; cbn in H'; congruence.
Qed.
Lemma run_is n at_ e s o : run g n at_ e s <> PFuel -> ev at_ e s o -> run g n at_ e s = to_res o.
Proof.
  intros H E. assert (X : exists o', of_res (run g n at_ e s) = Some o') by (destruct (run g n at_ e s); by eauto). destruct X as [o' X].
  pose proof (ev_det _ _ _ _ _ E (run_ev _ _ _ _ _ X)) as <-. destruct (run g n at_ e s); cbn in X; try done; by injection X as <-.
Qed.

Lemma strip_split eq p s c r : strip eq p s = Some (c, r) -> s = (c +:+ r)%string /\ String.length c = String.length p.
Proof.
  revert s c. induction p as [|a p IH]; intros [|b s] c H; cbn in H; try done; try (by injection H as <- <-).
  destruct (eq a b); [|done]. destruct (strip eq p s) as [[c' r']|] eqn:E; [|done]. injection H as <- <-. apply IH in E as [-> E]. cbn. by rewrite E.
Qed.
(** What was consumed and what is left make up the input. *)
Lemma ev_split at_ e s c ts r : ev at_ e s (Some (c, ts, r)) -> s = (c +:+ r)%string.
Proof.
  intros H. remember (Some (c, ts, r)) as o eqn:Eo. revert c ts r Eo.
  induction H as [at_ f c r H|at_ f c r H|at_ f|at_ p s c r H|at_ p s H|at_ p s c r H|at_ p s H|at_|at_ c s|at_ a b s c ts r c' ts' r' H1 IH1 H2 IH2|at_ a b s H1 IH1
    |at_ a b s c ts r H1 IH1 H2 IH2|at_ a b s x H1 IH1|at_ a b s o H1 IH1 H2 IH2|at_ a s H1 IH1|at_ a s c ts r c' ts' r' H1 IH1 H2 IH2|at_ a s x H1 IH1|at_ a s H1 IH1|at_ a s H1 IH1
    |at_ a s x H1 IH1|at_ r m b s c ts rest Hg H1 IH1|at_ r m b s Hg H1 IH1]; intros c0 ts0 r0 Eo; try done.
  - by injection Eo as <- <- <-.
  - injection Eo as <- <- <-. by eapply strip_split.
  - injection Eo as <- <- <-. by eapply strip_split.
  - by injection Eo as <- <- <-.
  - injection Eo as <- <- <-. rewrite (IH1 _ _ _ eq_refl), (IH2 _ _ _ eq_refl). by rewrite append_assoc.
  - by apply (IH1 c0 ts0 r0).
  - by apply (IH2 c0 ts0 r0).
  - by injection Eo as <- <- <-.
  - injection Eo as <- <- <-. rewrite (IH1 _ _ _ eq_refl), (IH2 _ _ _ eq_refl). by rewrite append_assoc.
  - by apply (IH1 c0 ts0 r0).
  - by injection Eo as <- <- <-.
  - by injection Eo as <- <- <-.
  - injection Eo as <- <- <-. by apply (IH1 _ _ _ eq_refl).
Qed.

(** ** Termination *)
Section Termination.
Variable rank : R -> nat.
Variable rnull : R -> bool.
Variable top big : nat.

(** May match the empty text. *)
Fixpoint nullable (e : pe) : bool :=
  match e with
  | PCls _ => false
  | PLit p | PLitI p => match p with "" => true | _ => false end
  | PEnd | PStar _ | POpt _ | PNot _ => true
  | PSeq a b => nullable a && nullable b
  | PAlt a b => nullable a || nullable b
  | PRul r => rnull r
  end.
Fixpoint height (e : pe) : nat :=
  match e with
  | PCls _ | PLit _ | PLitI _ | PEnd | PRul _ => 1
  | PSeq a b | PAlt a b => S (Nat.max (height a) (height b))
  | PStar a | POpt a | PNot a => S (height a)
  end.
(** No repetition of something nullable; rules reached before any character is consumed have a rank below [k]. *)
Fixpoint wf (k : nat) (e : pe) : bool :=
  match e with
  | PCls _ | PLit _ | PLitI _ | PEnd => true
  | PSeq a b => wf k a && wf (if nullable a then k else top) b
  | PAlt a b => wf k a && wf k b
  | PStar a => wf k a && negb (nullable a)
  | POpt a | PNot a => wf k a
  | PRul r => Nat.ltb (rank r) k
  end.
Definition rule_wf (r : R) : bool :=
  wf (rank r) (g r).2 && Nat.ltb (rank r) top && Nat.ltb (height (g r).2) big && implb (nullable (g r).2) (rnull r).

Hypothesis Hwf : forall r, rule_wf r = true.

Lemma nullable_sound at_ e s c ts r : ev at_ e s (Some (c, ts, r)) -> c = "" -> nullable e = true.
Proof.
  intros H. remember (Some (c, ts, r)) as o eqn:Eo. revert c ts r Eo.
  induction H as [at_ f c r H|at_ f c r H|at_ f|at_ p s c r H|at_ p s H|at_ p s c r H|at_ p s H|at_|at_ c s|at_ a b s c ts r c' ts' r' H1 IH1 H2 IH2|at_ a b s H1 IH1
    |at_ a b s c ts r H1 IH1 H2 IH2|at_ a b s x H1 IH1|at_ a b s o H1 IH1 H2 IH2|at_ a s H1 IH1|at_ a s c ts r c' ts' r' H1 IH1 H2 IH2|at_ a s x H1 IH1|at_ a s H1 IH1|at_ a s H1 IH1
    |at_ a s x H1 IH1|at_ r m b s c ts rest Hg H1 IH1|at_ r m b s Hg H1 IH1]; intros c0 ts0 r0 Eo Ec; try done; cbn [nullable].
  - by injection Eo as <- _ _.
  - injection Eo as <- _ _. apply strip_split in H as [_ H]. subst. by destruct p.
  - injection Eo as <- _ _. apply strip_split in H as [_ H]. subst. by destruct p.
  - injection Eo as <- _ _. destruct c; [|done]. cbn in Ec. rewrite (IH1 _ _ _ eq_refl eq_refl), (IH2 _ _ _ eq_refl Ec). done.
  - rewrite (IH1 _ _ _ Eo Ec). done.
  - rewrite (IH2 _ _ _ Eo Ec). apply orb_true_r.
  - injection Eo as <- _ _. specialize (IH1 _ _ _ eq_refl Ec). pose proof (Hwf r) as W. unfold rule_wf in W. rewrite Hg in W. cbn [snd] in W. rewrite IH1 in W.
    apply andb_prop in W as [_ W]. by destruct (rnull r).
Qed.

Lemma run_enough l : forall k e, wf k e = true -> k <= top -> height e <= big ->
  forall s n at_, String.length s <= l -> l * (top * big + big + 1) + k * big + height e <= n -> run g n at_ e s <> PFuel.
Proof.
  induction l as [l IHl] using lt_wf_ind. intros k. induction k as [k IHk] using lt_wf_ind. intros e. remember (height e) as h eqn:Eh. revert e Eh.
  induction h as [h IHh] using lt_wf_ind. intros e Eh W Hk Hb s n at_ Hs Hn. destruct n as [|n]; [destruct e; cbn in Eh; lia|].
  (* parsing after some text was consumed *)
  assert (Later : forall e' s', height e' < S (height e) -> wf top e' = true -> String.length s' < String.length s -> run g n at_ e' s' <> PFuel).
  { intros e' s' He' We' Hs'. apply (IHl (String.length s') ltac:(lia) top e' We' ltac:(lia) ltac:(lia) s' n at_ ltac:(lia)).
    assert (X : S (String.length s') * (top * big + big + 1) <= l * (top * big + big + 1)) by (apply Nat.mul_le_mono_r; lia). cbn [Nat.mul] in X. nia. }
  assert (Wtop : forall k' e', wf k' e' = true -> k' <= top -> wf top e' = true).
  { clear. intros k' e'. revert k'. induction e' as [f|p|p| |a IHa b IHb|a IHa b IHb|a IHa|a IHa|a IHa|r]; intros k' W Hk; cbn [wf] in *; try done; eauto.
    - apply andb_prop in W as [W1 W2]. rewrite (IHa _ W1 Hk). cbn. destruct (nullable a); [by eapply IHb|done].
    - apply andb_prop in W as [W1 W2]. by rewrite (IHa _ W1 Hk), (IHb _ W2 Hk).
    - apply andb_prop in W as [W1 W2]. by rewrite (IHa _ W1 Hk), W2.
    - apply Nat.ltb_lt in W. apply Nat.ltb_lt. lia. }
  assert (Split : forall e' c ts r, run g n at_ e' s = PDone c ts r -> String.length s = String.length c + String.length r /\ (c = "" -> nullable e' = true /\ r = s)).
  { intros e' c ts r E. assert (V : ev at_ e' s (Some (c, ts, r))) by (apply (run_ev n); by rewrite E). pose proof (ev_split _ _ _ _ _ _ V) as ->.
    split; [by rewrite length_append|]. intros ->. split; [by eapply nullable_sound|done]. }
  assert (Cons : forall c : string, c <> "" -> 1 <= String.length c) by (intros [|]; cbn; [done|lia]).
  destruct e as [f|p|p| |a b|a b|a|a|a|r]; cbn [run wf height] in *.
  - destruct s; [done|]. by destruct (f a).
  - by destruct (strip _ p s) as [[??]|].
  - by destruct (strip _ p s) as [[??]|].
  - by destruct s.
  - apply andb_prop in W as [W1 W2]. assert (Ra : run g n at_ a s <> PFuel) by (apply (IHh (height a) ltac:(lia) a eq_refl W1); try done; lia).
    destruct (run g n at_ a s) as [| |c ts r] eqn:E1; try done. destruct (Split _ _ _ _ E1) as [Sl Se].
    assert (Rb : run g n at_ b r <> PFuel).
    { destruct (decide (c = "")) as [->|Hc].
      - destruct (Se eq_refl) as [Na ->]. rewrite Na in W2. apply (IHh (height b) ltac:(lia) b eq_refl W2); try done; lia.
      - apply Later; [lia| |specialize (Cons _ Hc); lia]. destruct (nullable a); [by apply (Wtop k)|done]. }
    by destruct (run g n at_ b r).
  - apply andb_prop in W as [W1 W2]. assert (Ra : run g n at_ a s <> PFuel) by (apply (IHh (height a) ltac:(lia) a eq_refl W1); try done; lia).
    assert (Rb : run g n at_ b s <> PFuel) by (apply (IHh (height b) ltac:(lia) b eq_refl W2); try done; lia).
    by destruct (run g n at_ a s).
  - apply andb_prop in W as [W1 W2]. assert (Ra : run g n at_ a s <> PFuel) by (apply (IHh (height a) ltac:(lia) a eq_refl W1); try done; lia).
    destruct (run g n at_ a s) as [| |c ts r] eqn:E1; try done. destruct (Split _ _ _ _ E1) as [Sl Se].
    assert (Rb : run g n at_ (PStar a) r <> PFuel).
    { destruct (decide (c = "")) as [->|Hc]; [destruct (Se eq_refl) as [Na _]; by rewrite Na in W2|]. apply Later; [cbn; lia| |specialize (Cons _ Hc); lia].
      apply (Wtop k); [|done]. cbn. by rewrite W1, W2. }
    by destruct (run g n at_ (PStar a) r).
  - assert (Ra : run g n at_ a s <> PFuel) by (apply (IHh (height a) ltac:(lia) a eq_refl W); try done; lia). by destruct (run g n at_ a s).
  - assert (Ra : run g n at_ a s <> PFuel) by (apply (IHh (height a) ltac:(lia) a eq_refl W); try done; lia). by destruct (run g n at_ a s).
  - apply Nat.ltb_lt in W. pose proof (Hwf r) as X. unfold rule_wf in X. apply andb_prop in X as [X _]. apply andb_prop in X as [X X3]. apply andb_prop in X as [X1 X2].
    apply Nat.ltb_lt in X2, X3. destruct (g r) as [m b]. cbn [snd] in *.
    assert (Ra : forall i, run g n i b s <> PFuel).
    { intros i. apply (IHk (rank r) W b X1 ltac:(lia) ltac:(lia) s n i Hs). assert (S (rank r) * big <= k * big) by (apply Nat.mul_le_mono_r; lia). cbn [Nat.mul] in *. lia. }
    specialize (Ra (match m with Normal => at_ | Atomic => true | Compound => false end)). by destruct (run g n _ b s).
Qed.
End Termination.
End PegProofs.
