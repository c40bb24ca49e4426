(** Two grammars that share rules read the shared rules in the same way. *)
From Verif Require Export Peg_proofs Takes.

Section PegMap.
Context {R R' : Type} (f : R -> R').
(** Proof helper, models no code of /repo: renames the rules of a grammar expression, so that one grammar's proofs serve the rules both pest files share. *)
Fixpoint pmap (e : pe R) : pe R' :=
  match e with
  | PCls c => PCls c | PLit s => PLit s | PLitI s => PLitI s | PEnd => PEnd
  | PSeq a b => PSeq (pmap a) (pmap b) | PAlt a b => PAlt (pmap a) (pmap b)
  | PStar a => PStar (pmap a) | POpt a => POpt (pmap a) | PNot a => PNot (pmap a)
  | PRul r => PRul (f r)
  end.
(** Proof helper, models no code of /repo: the same renaming on parse trees. *)
Fixpoint tmap (p : pair R) : pair R' := let (r, t, i) := p in Pair (f r) t (map tmap i).
(** All the rules of [e] are shared. *)
(** Proof helper, models no code of /repo: two grammars agree on the shared rules up to the renaming. *)
Fixpoint shares (good : R -> bool) (e : pe R) : bool :=
  match e with
  | PCls _ | PLit _ | PLitI _ | PEnd => true
  | PSeq a b | PAlt a b => shares good a && shares good b
  | PStar a | POpt a | PNot a => shares good a
  | PRul r => good r
  end.

Variable g : R -> mode * pe R.
Variable g' : R' -> mode * pe R'.
Variable good : R -> bool.
Hypothesis Hg : forall r, good r = true -> g' (f r) = ((g r).1, pmap (g r).2) /\ shares good (g r).2 = true.

(** Proof helper, models no code of /repo: the same renaming on parse results. *)
Definition omap_res (o : option (string * list (pair R) * string)) : option (string * list (pair R') * string) :=
  match o with Some (c, ts, r) => Some (c, map tmap ts, r) | None => None end.
Lemma ev_map at_ e s o : ev g at_ e s o -> shares good e = true -> ev g' at_ (pmap e) s (omap_res o).
Proof.
  induction 1 as [at_ h c r H|at_ h c r H|at_ h|at_ p s c r H|at_ p s H|at_ p s c r H|at_ p s H|at_|at_ c s|at_ a b s c ts r c' ts' r' H1 IH1 H2 IH2|at_ a b s H1 IH1
    |at_ a b s c ts r H1 IH1 H2 IH2|at_ a b s x H1 IH1|at_ a b s o H1 IH1 H2 IH2|at_ a s H1 IH1|at_ a s c ts r c' ts' r' H1 IH1 H2 IH2|at_ a s x H1 IH1|at_ a s H1 IH1|at_ a s H1 IH1
    |at_ a s x H1 IH1|at_ r m b s c ts rest E H1 IH1|at_ r m b s E H1 IH1]; intros Hs; cbn [shares] in Hs; cbn [pmap omap_res].
  all: try (apply andb_prop in Hs as [Hs1 Hs2]).
  - by apply ev_cls.
  - by apply ev_cls_no.
  - apply ev_cls_end.
  - by apply ev_lit.
  - by apply ev_lit_no.
  - by apply ev_liti.
  - by apply ev_liti_no.
  - apply ev_end.
  - apply ev_end_no.
  - rewrite map_app. eapply ev_seq; [exact (IH1 Hs1)|exact (IH2 Hs2)].
  - apply ev_seq_no1. exact (IH1 Hs1).
  - eapply ev_seq_no2; [exact (IH1 Hs1)|exact (IH2 Hs2)].
  - destruct x as [[c ts] r]. apply ev_alt1. exact (IH1 Hs1).
  - apply ev_alt2; [exact (IH1 Hs1)|exact (IH2 Hs2)].
  - apply ev_star_end. exact (IH1 Hs).
  - rewrite map_app. eapply ev_star; [exact (IH1 Hs)|exact (IH2 Hs)].
  - destruct x as [[c ts] r]. apply ev_opt. exact (IH1 Hs).
  - apply ev_opt_no. exact (IH1 Hs).
  - apply ev_not. exact (IH1 Hs).
  - destruct x as [[c ts] r]. eapply ev_not_no. exact (IH1 Hs).
  - destruct (Hg r Hs) as [G S]. rewrite E in G, S. cbn [fst snd] in G, S. specialize (IH1 S). cbn [omap_res] in IH1.
    replace (map tmap (if rshown m at_ then [Pair r c ts] else ts)) with (if rshown m at_ then [Pair (f r) c (map tmap ts)] else map tmap ts) by (by destruct (rshown m at_)).
    by eapply ev_rul.
  - destruct (Hg r Hs) as [G S]. rewrite E in G, S. cbn [fst snd] in G, S. eapply ev_rul_no; [exact G|exact (IH1 S)].
Qed.
Lemma takes_map at_ e c ts r : takes g at_ e c ts r -> shares good e = true -> takes g' at_ (pmap e) c (map tmap ts) r.
Proof. intros H Hs. exact (ev_map _ _ _ _ H Hs). Qed.
Lemma rejects_map at_ e s : rejects g at_ e s -> shares good e = true -> rejects g' at_ (pmap e) s.
Proof. intros H Hs. exact (ev_map _ _ _ _ H Hs). Qed.
End PegMap.
