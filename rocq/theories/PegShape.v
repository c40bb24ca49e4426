(** The trees a grammar can produce: which tokens a rule may have below it, read off the grammar.  Used to show that the code
    walking a parse tree never meets a token it does not expect. *)
From Coq Require Import Lia.
From Verif Require Export Peg_proofs.
From Verif Require Import Condition_proofs.

(** [t] is a part of [s]. *)
Definition within (t s : string) : Prop := exists a b, s = (a +:+ t +:+ b)%string.
Lemma within_refl s : within s s.
Proof. exists "", "". by rewrite append_nil_r. Qed.
Lemma within_l t a b : within t a -> within t (a +:+ b).
Proof. intros (x & y & ->). exists x, (y +:+ b)%string. by rewrite !append_assoc. Qed.
Lemma within_r t a b : within t b -> within t (a +:+ b).
Proof. intros (x & y & ->). exists (a +:+ x)%string, y. by rewrite !append_assoc. Qed.
Lemma within_trans a b c : within a b -> within b c -> within a c.
Proof. intros (x & y & ->) (x' & y' & ->). exists (x' +:+ x)%string, (y +:+ y')%string. by rewrite !append_assoc. Qed.
Lemma all_chars_app f a b : all_chars f (a +:+ b) = all_chars f a && all_chars f b.
Proof. induction a as [|c a IH]; [done|]. cbn [all_chars append]. rewrite IH. apply andb_assoc. Qed.

Section Shape.
Context {R : Type} (g : R -> mode * pe R).
Local Notation pair := (pair R).

(** A token and everything below it come from the grammar. *)
Inductive wft : pair -> Prop :=
| WFT r m b s c ts rest : g r = (m, b) -> ev g (rinside m false) b s (Some (c, ts, rest)) -> Forall wft ts ->
    Forall (fun p => within (p_text p) c) ts -> wft (Pair r c ts).

Lemma within_weaken (ts : list pair) c c' : (forall t, within t c -> within t c') -> Forall (fun p => within (p_text p) c) ts -> Forall (fun p => within (p_text p) c') ts.
Proof. intros H F. eapply Forall_impl; [exact F|]. intros p Hp. by apply H. Qed.
Lemma ev_wft at_ e s o : ev g at_ e s o -> forall c ts rest, o = Some (c, ts, rest) -> Forall wft ts /\ Forall (fun p => within (p_text p) c) ts.
Proof.
  induction 1 as [at_ f c r H|at_ f c r H|at_ f|at_ p s c r H|at_ p s H|at_ p s c r H|at_ p s H|at_|at_ c s|at_ a b s c ts r c' ts' r' H1 IH1 H2 IH2|at_ a b s H1 IH1
    |at_ a b s c ts r H1 IH1 H2 IH2|at_ a b s x H1 IH1|at_ a b s o H1 IH1 H2 IH2|at_ a s H1 IH1|at_ a s c ts r c' ts' r' H1 IH1 H2 IH2|at_ a s x H1 IH1|at_ a s H1 IH1|at_ a s H1 IH1
    |at_ a s x H1 IH1|at_ r m b s c ts rest Hg H1 IH1|at_ r m b s Hg H1 IH1]; intros c0 ts0 r0 Eo; try done.
  all: try (injection Eo as <- <- <-; done).
  - injection Eo as <- <- <-. destruct (IH1 _ _ _ eq_refl) as [A1 B1], (IH2 _ _ _ eq_refl) as [A2 B2]. split; apply Forall_app; split; try done.
    + eapply within_weaken; [|exact B1]. intros t. apply within_l.
    + eapply within_weaken; [|exact B2]. intros t. apply within_r.
  - by apply (IH1 c0 ts0 r0).
  - by apply (IH2 c0 ts0 r0).
  - injection Eo as <- <- <-. destruct (IH1 _ _ _ eq_refl) as [A1 B1], (IH2 _ _ _ eq_refl) as [A2 B2]. split; apply Forall_app; split; try done.
    + eapply within_weaken; [|exact B1]. intros t. apply within_l.
    + eapply within_weaken; [|exact B2]. intros t. apply within_r.
  - by apply (IH1 c0 ts0 r0).
  - injection Eo as <- <- <-. destruct (IH1 _ _ _ eq_refl) as [A1 B1]. destruct (rshown m at_) eqn:Es; [|done].
    split; (apply Forall_cons; split; [|done]); [|apply within_refl].
    assert (Ei : rinside m at_ = rinside m false) by (destruct m, at_; done). rewrite Ei in H1. by econstructor.
Qed.

(** What an expression may produce: nothing it can match, or tokens of these rules only ([some]: at least one), one of each
    rule of [must] among them. *)
Inductive em := Never | May (some : bool) (must rules : list R).
Definition em_seq (x y : em) : em := match x, y with May a m l, May b n k => May (a || b) (m ++ n) (l ++ k) | _, _ => Never end.
Definition em_alt (x y : em) : em := match x, y with May a _ l, May b _ k => May (a && b) [] (l ++ k) | Never, z => z | z, Never => z end.
Definition em_star (x : em) : em := match x with May _ _ l => May false [] l | Never => May false [] [] end.
(** Characters the text does not contain. *)
Variable forb : ascii -> bool.
Definition lift2 (f : em -> em -> em) (x y : option em) : option em := match x, y with Some a, Some b => Some (f a b) | _, _ => None end.
Fixpoint emit (n : nat) (at_ : bool) (e : pe R) : option em :=
  match n with
  | 0 => None
  | S n =>
    (fix go (e : pe R) : option em :=
      match e with
      | PCls _ | PLitI _ | PEnd | PNot _ => Some (May false [] [])
      | PLit p => Some (if all_chars (fun c => negb (forb c)) p then May false [] [] else Never)
      | PSeq a b => lift2 em_seq (go a) (go b)
      | PAlt a b => lift2 em_alt (go a) (go b)
      | PStar a | POpt a => option_map em_star (go a)
      | PRul r => if rshown (g r).1 at_ then Some (May true [r] [r]) else emit n (rinside (g r).1 at_) (g r).2
      end) e
  end.
Definition fits (x : em) (ts : list pair) : Prop :=
  match x with
  | Never => False
  | May b m l => (b = true -> ts <> []) /\ Forall (fun p => In (p_rule p) l) ts /\ Forall (fun r => exists p, p ∈ ts /\ p_rule p = r) m
  end.
Definition clean (c : string) : Prop := all_chars (fun c => negb (forb c)) c = true.
Lemma clean_app a b : clean (a +:+ b) <-> clean a /\ clean b.
Proof. unfold clean. rewrite all_chars_app. apply andb_true_iff. Qed.
Lemma in_mono (ts : list pair) l l' : (forall r, In r l -> In r l') -> Forall (fun p => In (p_rule p) l) ts -> Forall (fun p => In (p_rule p) l') ts.
Proof. intros H F. eapply Forall_impl; [exact F|]. intros p Hp. by apply H. Qed.
Lemma strip_eq p s c r : strip Ascii.eqb p s = Some (c, r) -> c = p.
Proof.
  revert s c. induction p as [|a p IH]; intros [|b s] c H; cbn in H; try done; try (by injection H as <- _).
  destruct (Ascii.eqb_spec a b) as [->|]; [|done]. destruct (strip _ p s) as [[c' r']|] eqn:E; [|done]. injection H as <- <-. by rewrite (IH _ _ E).
Qed.
Lemma emit_star n at_ a : emit n at_ (PStar a) = option_map em_star (emit n at_ a).
Proof. by destruct n. Qed.
Lemma emit_sound at_ e s o : ev g at_ e s o -> forall n c ts rest x, o = Some (c, ts, rest) -> emit n at_ e = Some x -> clean c -> fits x ts.
Proof.
  induction 1 as [at_ f c r H|at_ f c r H|at_ f|at_ p s c r H|at_ p s H|at_ p s c r H|at_ p s H|at_|at_ c s|at_ a b s c ts r c' ts' r' H1 IH1 H2 IH2|at_ a b s H1 IH1
    |at_ a b s c ts r H1 IH1 H2 IH2|at_ a b s x H1 IH1|at_ a b s o H1 IH1 H2 IH2|at_ a s H1 IH1|at_ a s c ts r c' ts' r' H1 IH1 H2 IH2|at_ a s x H1 IH1|at_ a s H1 IH1|at_ a s H1 IH1
    |at_ a s x H1 IH1|at_ r m b s c ts rest Hg H1 IH1|at_ r m b s Hg H1 IH1]; intros n c0 ts0 r0 x0 Eo Ex Hc; try done.
  all: destruct n as [|n]; [done|].
  - injection Eo as <- <- <-. cbn in Ex. injection Ex as <-. split; [done|]. by split.
  - injection Eo as <- <- <-. cbn [emit] in Ex. injection Ex as <-. pose proof (strip_eq _ _ _ _ H) as ->. unfold clean in Hc. rewrite Hc. split; [done|]. by split.
  - injection Eo as <- <- <-. cbn in Ex. injection Ex as <-. split; [done|]. by split.
  - injection Eo as <- <- <-. cbn in Ex. injection Ex as <-. split; [done|]. by split.
  - injection Eo as <- <- <-. apply clean_app in Hc as [Hc1 Hc2].
    change (lift2 em_seq (emit (S n) at_ a) (emit (S n) at_ b) = Some x0) in Ex.
    destruct (emit (S n) at_ a) as [xa|] eqn:Ea; [|done]. destruct (emit (S n) at_ b) as [xb|] eqn:Eb; [|done]. injection Ex as <-.
    specialize (IH1 _ _ _ _ _ eq_refl Ea Hc1). specialize (IH2 _ _ _ _ _ eq_refl Eb Hc2). destruct xa as [|p ma l], xb as [|q mb k]; try done.
    destruct IH1 as (A1 & B1 & C1), IH2 as (A2 & B2 & C2). cbn [em_seq fits]. split; [|split].
    + intros [E|E]%orb_prop Z; apply app_eq_nil in Z as [Z1 Z2]; [by apply A1|by apply A2].
    + apply Forall_app. split; [eapply in_mono; [|exact B1]|eapply in_mono; [|exact B2]]; intros r0 Hr; apply in_or_app; auto.
    + apply Forall_app. split; [eapply Forall_impl; [exact C1|]|eapply Forall_impl; [exact C2|]]; intros r0 (p0 & Hp & Er); exists p0; (split; [|done]); apply elem_of_app; auto.
  - change (lift2 em_alt (emit (S n) at_ a) (emit (S n) at_ b) = Some x0) in Ex.
    destruct (emit (S n) at_ a) as [xa|] eqn:Ea; [|done]. destruct (emit (S n) at_ b) as [xb|] eqn:Eb; [|done]. injection Ex as <-.
    injection Eo as ->. specialize (IH1 _ _ _ _ _ eq_refl Ea Hc). destruct xa as [|p ma l]; [done|]. destruct xb as [|q mb k]; [done|].
    destruct IH1 as (A1 & B1 & C1). cbn [em_alt fits]. split; [intros [E _]%andb_prop; auto|]. split; [|done]. eapply in_mono; [|exact B1]. intros r1 Hr; apply in_or_app; auto.
  - change (lift2 em_alt (emit (S n) at_ a) (emit (S n) at_ b) = Some x0) in Ex.
    destruct (emit (S n) at_ a) as [xa|] eqn:Ea; [|done]. destruct (emit (S n) at_ b) as [xb|] eqn:Eb; [|done]. injection Ex as <-.
    specialize (IH2 _ _ _ _ _ Eo Eb Hc). destruct xb as [|q mb k]; [done|]. destruct xa as [|p ma l]; [done|].
    destruct IH2 as (A1 & B1 & C1). cbn [em_alt fits]. split; [intros [_ E]%andb_prop; auto|]. split; [|done]. eapply in_mono; [|exact B1]. intros r1 Hr; apply in_or_app; auto.
  - injection Eo as <- <- <-. rewrite emit_star in Ex. destruct (emit (S n) at_ a) as [xa|]; [|done]. injection Ex as <-. destruct xa; (split; [done|]); by split.
  - injection Eo as <- <- <-. apply clean_app in Hc as [Hc1 Hc2]. pose proof (IH2 _ _ _ _ _ eq_refl Ex Hc2) as F2. rewrite emit_star in Ex.
    destruct (emit (S n) at_ a) as [xa|] eqn:Ea; [|done]. injection Ex as <-.
    pose proof (IH1 _ _ _ _ _ eq_refl Ea Hc1) as F1. destruct xa as [|p ma l]; [done|]. destruct F1 as (_ & B1 & _), F2 as (_ & B2 & _). split; [done|]. split; [|done].
    apply Forall_app; by split.
  - change (option_map em_star (emit (S n) at_ a) = Some x0) in Ex. destruct (emit (S n) at_ a) as [xa|] eqn:Ea; [|done]. injection Ex as <-.
    injection Eo as ->. specialize (IH1 _ _ _ _ _ eq_refl Ea Hc). destruct xa as [|p ma l]; [done|]. destruct IH1 as (_ & B1 & _). split; [done|]. by split.
  - injection Eo as <- <- <-. change (option_map em_star (emit (S n) at_ a) = Some x0) in Ex. destruct (emit (S n) at_ a) as [xa|]; [|done]. injection Ex as <-. destruct xa; (split; [done|]); by split.
  - injection Eo as <- <- <-. cbn in Ex. injection Ex as <-. split; [done|]. by split.
  - injection Eo as <- <- <-. cbn [emit] in Ex. rewrite Hg in Ex. cbn [fst snd] in Ex. destruct (rshown m at_) eqn:Es.
    + injection Ex as <-. split; [done|]. split; [apply Forall_cons; split; [by left|done]|]. apply Forall_cons; split; [|done]. eexists. split; [apply elem_of_list_here|done].
    + by apply (IH1 n _ _ _ _ eq_refl Ex Hc).
Qed.

(** The tokens below a rule. *)
Definition below (r : R) : option em := emit 6 (rinside (g r).1 false) (g r).2.
Lemma wft_fits r c ts x : wft (Pair r c ts) -> clean c -> below r = Some x -> fits x ts.
Proof.
  intros H Hc Hb. inversion H as [r' m b s c' ts' rest Hg He Hw Hi]; subst. unfold below in Hb. rewrite Hg in Hb. by eapply emit_sound.
Qed.
Lemma wft_inner p : wft p -> Forall wft (p_inner p).
Proof. by inversion 1. Qed.
Lemma wft_within p : wft p -> Forall (fun q => within (p_text q) (p_text p)) (p_inner p).
Proof. by inversion 1. Qed.
End Shape.
Arguments Never {R}.
Arguments May {R}.
