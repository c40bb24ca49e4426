(** Building parses: [takes at e c ts r] reads [c] in front of [r]; [rejects at e s]. *)
From Coq Require Import Lia.
From Verif Require Export OcaGrammar_proofs OcaFile Spec_OcaFile.
From Verif Require Import Condition_proofs.

Section Generic.
Context {R : Type} (g : R -> mode * pe R).
Definition takes (at_ : bool) (e : pe R) (c : string) (ts : list (pair R)) (r : string) : Prop := ev g at_ e (c +:+ r) (Some (c, ts, r)).
Definition rejects (at_ : bool) (e : pe R) (s : string) : Prop := ev g at_ e s None.

Lemma t_seq at_ a b c1 c2 ts1 ts2 r : takes at_ a c1 ts1 (c2 +:+ r) -> takes at_ b c2 ts2 r -> takes at_ (PSeq a b) (c1 +:+ c2) (ts1 ++ ts2) r.
Proof. intros H1 H2. unfold takes in *. rewrite append_assoc. by eapply ev_seq. Qed.
Lemma t_seq0 at_ a b c ts1 ts2 r : takes at_ a "" ts1 (c +:+ r) -> takes at_ b c ts2 r -> takes at_ (PSeq a b) c (ts1 ++ ts2) r.
Proof. intros H1 H2. by apply (t_seq _ _ _ "" c). Qed.
Lemma t_star0 at_ a r : rejects at_ a r -> takes at_ (PStar a) "" [] r.
Proof. intros H. by apply ev_star_end. Qed.
Lemma t_star at_ a c1 c2 ts1 ts2 r : takes at_ a c1 ts1 (c2 +:+ r) -> takes at_ (PStar a) c2 ts2 r -> takes at_ (PStar a) (c1 +:+ c2) (ts1 ++ ts2) r.
Proof. intros H1 H2. unfold takes in *. rewrite append_assoc. by eapply ev_star. Qed.
Lemma t_opt at_ a c ts r : takes at_ a c ts r -> takes at_ (POpt a) c ts r.
Proof. apply ev_opt. Qed.
Lemma t_opt0 at_ a r : rejects at_ a r -> takes at_ (POpt a) "" [] r.
Proof. apply ev_opt_no. Qed.
Lemma t_not at_ a r : rejects at_ a r -> takes at_ (PNot a) "" [] r.
Proof. apply ev_not. Qed.
Lemma t_alt1 at_ a b c ts r : takes at_ a c ts r -> takes at_ (PAlt a b) c ts r.
Proof. apply ev_alt1. Qed.
Lemma t_alt2 at_ a b c ts r : rejects at_ a (c +:+ r) -> takes at_ b c ts r -> takes at_ (PAlt a b) c ts r.
Proof. apply ev_alt2. Qed.
Lemma t_rul at_ r m b c ts s : g r = (m, b) -> takes (rinside m at_) b c ts s -> takes at_ (PRul r) c (if rshown m at_ then [Pair r c ts] else ts) s.
Proof. intros E H. by eapply ev_rul. Qed.
Lemma t_conv at_ e c c' ts ts' r : takes at_ e c ts r -> c = c' -> ts = ts' -> takes at_ e c' ts' r.
Proof. by intros H <- <-. Qed.
Lemma r_seq1 at_ a b s : rejects at_ a s -> rejects at_ (PSeq a b) s.
Proof. apply ev_seq_no1. Qed.
Lemma r_seq2 at_ a b c ts r : takes at_ a c ts r -> rejects at_ b r -> rejects at_ (PSeq a b) (c +:+ r).
Proof. apply ev_seq_no2. Qed.
Lemma r_alt at_ a b s : rejects at_ a s -> rejects at_ b s -> rejects at_ (PAlt a b) s.
Proof. apply ev_alt2. Qed.
Lemma r_rul at_ r m b s : g r = (m, b) -> rejects (rinside m at_) b s -> rejects at_ (PRul r) s.
Proof. intros E H. by eapply ev_rul_no. Qed.
(** By running a few steps. *)
Lemma r_run n at_ e s : run g n at_ e s = PFail -> rejects at_ e s.
Proof. intros H. apply (run_ev g n). by rewrite H. Qed.

Lemma strip_app p r : strip Ascii.eqb p (p +:+ r) = Some (p, r).
Proof. induction p as [|a p IH]; [by destruct r|]. cbn. by rewrite Ascii.eqb_refl, IH. Qed.
Lemma t_lit at_ p r : takes at_ (PLit p) p [] r.
Proof. apply ev_lit, strip_app. Qed.
Lemma t_liti at_ p c r : strip (fun a b => Ascii.eqb a (lower b)) p (c +:+ r) = Some (c, r) -> takes at_ (PLitI p) c [] r.
Proof. apply ev_liti. Qed.

(** The next character, if any, is not of the class. *)
Definition stops (f : ascii -> bool) (r : string) : Prop := match r with "" => True | String c _ => f c = false end.
Lemma r_cls at_ f r : stops f r -> rejects at_ (PCls f) r.
Proof. destruct r as [|c r]; intros H; [apply ev_cls_end|by apply ev_cls_no]. Qed.
Lemma t_cls at_ f c r : f c = true -> takes at_ (PCls f) (String c "") [] r.
Proof. apply ev_cls. Qed.
Lemma t_star_cls at_ f v r : all_chars f v = true -> stops f r -> takes at_ (PStar (PCls f)) v [] r.
Proof.
  induction v as [|c v IH]; intros H Hs; [by apply t_star0, r_cls|]. cbn in H. apply andb_prop in H as [H1 H2].
  apply (t_star at_ _ (String c "") v [] []); [by apply t_cls|by apply IH].
Qed.
Lemma t_plus_cls at_ f v r : v <> "" -> all_chars f v = true -> stops f r -> takes at_ (PPlus (PCls f)) v [] r.
Proof.
  intros Hv H Hs. destruct v as [|c v]; [done|]. cbn in H. apply andb_prop in H as [H1 H2].
  apply (t_seq at_ _ _ (String c "") v [] []); [by apply t_cls|by apply t_star_cls].
Qed.
Lemma r_plus at_ a r : rejects at_ a r -> rejects at_ (PPlus a) r.
Proof. apply r_seq1. Qed.
Lemma takes_det at_ e c ts r c' ts' r' : takes at_ e c ts r -> ev g at_ e (c +:+ r) (Some (c', ts', r')) -> c' = c /\ ts' = ts /\ r' = r.
Proof. intros H H'. pose proof (ev_det _ _ _ _ _ _ H H') as E. by injection E as <- <- <-. Qed.
End Generic.
Arguments stops _ !_ /.
