(** How the texts written by the generator are read by the grammar. *)
From Coq Require Import Lia.
From Verif Require Export Takes.
From Verif Require Import Condition_proofs.

Section OcaTakes.
Variable wide : ascii -> bool.
Local Notation sg := (sgrammar wide).
Local Notation takes := (takes sg).
Local Notation rejects := (rejects sg).

(** ** Characters and words *)
Definition char_toks (at_ : bool) (v : string) : list spair := if at_ then [] else map (fun c => Pair Rchar (String c "") []) (list_ascii_of_string v).
Lemma t_char at_ c r : char_c wide c = true -> takes at_ (PRul Rchar) (String c "") (char_toks at_ (String c "")) r.
Proof. intros H. eapply t_conv; [eapply t_rul; [reflexivity|by apply t_cls]|done|]. by destruct at_. Qed.
Lemma r_char at_ r : stops (char_c wide) r -> rejects at_ (PRul Rchar) r.
Proof. intros H. eapply r_rul; [reflexivity|]. by apply r_cls. Qed.
Lemma t_chars0 at_ v r : all_chars (char_c wide) v = true -> stops (char_c wide) r -> takes at_ (PStar (PRul Rchar)) v (char_toks at_ v) r.
Proof.
  induction v as [|c v IH]; intros H Hs; [eapply t_conv; [by apply t_star0, r_char|done|by destruct at_]|]. cbn in H. apply andb_prop in H as [H1 H2].
  eapply t_conv; [eapply (t_star sg at_ _ (String c "") v); [by apply t_char|by apply IH]|done|by destruct at_].
Qed.
Lemma t_chars at_ v r : word_ok wide v -> stops (char_c wide) r -> takes at_ (PPlus (PRul Rchar)) v (char_toks at_ v) r.
Proof.
  intros [Hv H] Hs. destruct v as [|c v]; [done|]. cbn in H. apply andb_prop in H as [H1 H2].
  eapply t_conv; [eapply (t_seq sg at_ _ _ (String c "") v); [by apply t_char|by apply t_chars0]|done|by destruct at_].
Qed.

(** ** Quoted texts *)
Lemma dq_plain c : dq_c c = true -> is_c BSL c = false /\ is_c DQ c = false.
Proof. unfold dq_c. destruct (is_c DQ c), (is_c BSL c); try done. Qed.
Lemma quotable_plain x w : all_chars dq_c x = true -> quotable (x +:+ w) = quotable w.
Proof.
  induction x as [|c x IH]; [done|]. cbn [all_chars]. intros H. apply andb_prop in H as [H1 H2]. cbn [append quotable]. destruct (dq_plain _ H1) as [-> _]. by rewrite H1, IH.
Qed.
Lemma t_plain_run v r : all_chars dq_c v = true -> stops dq_c r ->
  takes true (PStar (PSeq (PNot (PCls (fun c => negb (dq_c c)))) PAny)) v [] r.
Proof.
  induction v as [|c v IH]; intros H Hs.
  - apply t_star0. destruct r as [|c r].
    + eapply (r_seq2 sg true _ _ "" [] ""); [by apply t_not, r_cls|by apply r_cls].
    + apply r_seq1. eapply ev_not_no. apply ev_cls. cbn in Hs. by rewrite Hs.
  - cbn in H. apply andb_prop in H as [H1 H2]. eapply (t_star sg true _ (String c "") v [] []); [|by apply IH].
    eapply (t_seq0 sg true _ _ (String c "") [] []); [apply t_not, r_cls; cbn; by rewrite H1|by apply t_cls].
Qed.
(** [n] hexadecimal digits are there, all within [w], or the rule fails. *)
Lemma hex_dq c : hex_c c = true -> dq_c c = true.
Proof. destruct c as [[] [] [] [] [] [] [] []]; vm_compute; done. Qed.
Lemma hex_rep n w r : 0 < n -> (exists x w', w = (x +:+ w')%string /\ all_chars dq_c x = true /\ takes true (PRep n (PCls hex_c)) x [] (w' +:+ Q +:+ r)) \/
  rejects true (PRep n (PCls hex_c)) (w +:+ Q +:+ r).
Proof.
  assert (One : forall w, (exists c w', w = String c w' /\ hex_c c = true) \/ stops hex_c (w +:+ Q +:+ r)).
  { intros [|c u]; [right; done|]. destruct (hex_c c) eqn:E; [left; eauto|by right]. }
  revert w. induction n as [|[|n] IH]; intros w Hn; [lia| |].
  - destruct (One w) as [(c & w' & -> & H)|H]; [|right; by apply r_cls]. left. exists (String c ""), w'. split; [done|]. split; [cbn; by rewrite hex_dq|]. by apply t_cls.
  - change (PRep (S (S n)) (@PCls srule hex_c)) with (PSeq (@PCls srule hex_c) (PRep (S n) (PCls hex_c))).
    destruct (One w) as [(c & w' & -> & H)|H]; [|right; by apply r_seq1, r_cls]. destruct (IH w' ltac:(lia)) as [(x & w'' & -> & Hx & Ht)|Hr].
    + left. exists (String c x), w''. split; [done|]. split; [cbn; by rewrite hex_dq|]. apply (t_seq sg true _ _ (String c "") x [] []); [by apply t_cls|done].
    + right. apply (r_seq2 sg true _ _ (String c "") [] (w' +:+ Q +:+ r)); [by apply t_cls|done].
Qed.
Definition escapes : pe srule := PAlts [PLit "b"; PLit "t"; PLit "n"; PLit "f"; PLit "r"; PLit (String DQ ""); PLit (String BSL ""); PLit "'"; PRul Runicode; PNewline].
Lemma escape_body x r : takes true (POpt escapes) x [] r -> takes true (PRul Rescape) (String BSL x) [] r.
Proof. intros H. eapply t_conv; [eapply t_rul; [reflexivity|]|done|reflexivity]. apply (t_seq sg true _ _ (String BSL "") x [] []); [apply t_lit|done]. Qed.
(** An escape takes part of the text only, and leaves a quotable rest. *)
Lemma t_run n at_ e c ts r : run sg n at_ e (c +:+ r) = PDone c ts r -> takes at_ e c ts r.
Proof. intros H. unfold Takes.takes. apply (run_ev sg n). by rewrite H. Qed.
Lemma r_lit1 at_ a d s : Ascii.eqb a d = false -> rejects at_ (PLit (String a "")) (String d s).
Proof. intros H. apply ev_lit_no. cbn [strip]. by rewrite H. Qed.
Lemma r_lit2 at_ a p d s : Ascii.eqb a d = false -> rejects at_ (PLit (String a p)) (String d s).
Proof. intros H. apply ev_lit_no. cbn [strip]. by rewrite H. Qed.
Lemma escape_split d w r : quotable (String BSL (String d w)) = true ->
  exists x w', String d w = (x +:+ w')%string /\ takes true (PRul Rescape) (String BSL x) [] (w' +:+ Q +:+ r) /\ quotable w' = true.
Proof.
  intros H. change (quotable (String BSL (String d w))) with (if is_c DQ d || is_c BSL d then quotable w else quotable (String d w)) in H.
  assert (One : forall n, run sg n true (POpt escapes) (String d (w +:+ Q +:+ r)) = PDone (String d "") [] (w +:+ Q +:+ r) -> quotable w = true ->
    exists x w', String d w = (x +:+ w')%string /\ takes true (PRul Rescape) (String BSL x) [] (w' +:+ Q +:+ r) /\ quotable w' = true).
  { intros n Hn Hw. exists (String d ""), w. split; [done|]. split; [|done]. apply escape_body. by apply (t_run n). }
  assert (Nil : rejects true escapes (String d (w +:+ Q +:+ r)) -> quotable (String d w) = true ->
    exists x w', String d w = (x +:+ w')%string /\ takes true (PRul Rescape) (String BSL x) [] (w' +:+ Q +:+ r) /\ quotable w' = true).
  { intros Hr Hw. exists "", (String d w). split; [done|]. split; [|done]. apply escape_body. by apply t_opt0. }
  destruct (Ascii.eqb DQ d) eqn:E1; [apply Ascii.eqb_eq in E1 as <-; by apply (One 20)|].
  destruct (Ascii.eqb BSL d) eqn:E2; [apply Ascii.eqb_eq in E2 as <-; by apply (One 20)|].
  unfold is_c in H at 1 2. rewrite E1, E2 in H. cbn [orb] in H.
  assert (Hw : dq_c d = true /\ quotable w = true).
  { cbn [quotable] in H. unfold is_c at 1 in H. rewrite E2 in H. by apply andb_prop in H. } destruct Hw as [Hd Hw].
  destruct (Ascii.eqb "b" d) eqn:E3; [apply Ascii.eqb_eq in E3 as <-; by apply (One 20)|].
  destruct (Ascii.eqb "t" d) eqn:E4; [apply Ascii.eqb_eq in E4 as <-; by apply (One 20)|].
  destruct (Ascii.eqb "n" d) eqn:E5; [apply Ascii.eqb_eq in E5 as <-; by apply (One 20)|].
  destruct (Ascii.eqb "f" d) eqn:E6; [apply Ascii.eqb_eq in E6 as <-; by apply (One 20)|].
  destruct (Ascii.eqb "r" d) eqn:E7; [apply Ascii.eqb_eq in E7 as <-; by apply (One 20)|].
  destruct (Ascii.eqb "'" d) eqn:E8; [apply Ascii.eqb_eq in E8 as <-; by apply (One 20)|].
  destruct (Ascii.eqb LF d) eqn:E9; [apply Ascii.eqb_eq in E9 as <-; by apply (One 20)|].
  destruct (Ascii.eqb CR d) eqn:E10.
  - apply Ascii.eqb_eq in E10 as <-. destruct w as [|d' w'].
    + apply (One 20); [|done]. reflexivity.
    + destruct (Ascii.eqb LF d') eqn:E11.
      * apply Ascii.eqb_eq in E11 as <-. exists (String CR (String LF "")), w'. split; [done|]. split; [|by apply andb_prop in Hw].
        apply escape_body. apply (t_run 20). reflexivity.
      * exists (String CR ""), (String d' w'). split; [done|]. split; [|done]. apply escape_body, t_opt. unfold escapes. cbn [PAlts].
        repeat (apply t_alt2; [apply (r_run sg 9); reflexivity|]).
        apply t_alt2; [|apply t_lit]. apply ev_lit_no. cbn [strip append]. by rewrite Ascii.eqb_refl, E11.
  - assert (Nnl : rejects true PNewline (String d (w +:+ Q +:+ r))).
    { unfold PNewline. cbn [PAlts]. apply r_alt; [by apply r_lit1|]. apply r_alt; by apply r_lit2. }
    assert (Rest : rejects true (PRul Runicode) (String d (w +:+ Q +:+ r)) -> rejects true escapes (String d (w +:+ Q +:+ r))).
    { intros Hu. unfold escapes. cbn [PAlts]. do 9 (apply r_alt; [by first [apply r_lit1|exact Hu]|]). exact Nnl. }
    assert (Take : forall x w', (String d w = x +:+ w')%string -> takes true (PRul Runicode) x [] (w' +:+ Q +:+ r) -> takes true (POpt escapes) x [] (w' +:+ Q +:+ r)).
    { intros x w' Ex Hx. apply t_opt. unfold escapes. cbn [PAlts]. assert (Es : (x +:+ (w' +:+ Q +:+ r) = String d (w +:+ Q +:+ r))%string).
      { rewrite <- append_assoc, <- Ex. reflexivity. }
      do 8 (apply t_alt2; [rewrite Es; by apply r_lit1|]). by apply t_alt1. }
    destruct (Ascii.eqb "u" d) eqn:E11; [|destruct (Ascii.eqb "U" d) eqn:E12].
    + apply Ascii.eqb_eq in E11 as <-. destruct (hex_rep 4 w r ltac:(lia)) as [(x & w' & -> & Hx & Ht)|Hr].
      * exists (String "u" x), w'. split; [done|]. split; [|by rewrite quotable_plain in Hw]. apply escape_body, Take; [done|].
        eapply t_conv; [eapply t_rul; [reflexivity|]|reflexivity|reflexivity]. apply t_alt1. by apply (t_seq sg true _ _ "u" x [] []); [apply t_lit|].
      * apply Nil; [|done]. apply Rest. eapply r_rul; [reflexivity|]. apply r_alt; [|by apply r_seq1, r_lit1].
        apply (r_seq2 sg true _ _ "u" []); [apply t_lit|done].
    + apply Ascii.eqb_eq in E12 as <-. destruct (hex_rep 8 w r ltac:(lia)) as [(x & w' & -> & Hx & Ht)|Hr].
      * exists (String "U" x), w'. split; [done|]. split; [|by rewrite quotable_plain in Hw]. apply escape_body, Take; [done|].
        eapply t_conv; [eapply t_rul; [reflexivity|]|reflexivity|reflexivity]. apply t_alt2; [by apply r_seq1, r_lit1|]. by apply (t_seq sg true _ _ "U" x [] []); [apply t_lit|].
      * apply Nil; [|done]. apply Rest. eapply r_rul; [reflexivity|]. apply r_alt; [by apply r_seq1, r_lit1|].
        apply (r_seq2 sg true _ _ "U" []); [apply t_lit|done].
    + apply Nil; [|done]. apply Rest. eapply r_rul; [reflexivity|]. apply r_alt; apply r_seq1; by apply r_lit1.
Qed.

(** The longest plain beginning of a quotable text: it ends at the end of the text or at a backslash. *)
Lemma plain_prefix v : quotable v = true -> exists x w, v = (x +:+ w)%string /\ all_chars dq_c x = true /\ (w = "" \/ exists d w', w = String BSL (String d w') /\ quotable w = true).
Proof.
  induction v as [|c v IH]; intros H; [exists "", ""; eauto|]. destruct (Ascii.eqb BSL c) eqn:E.
  - apply Ascii.eqb_eq in E as <-. destruct v as [|d w]; [done|]. exists "", (String BSL (String d w)). eauto 7.
  - cbn [quotable] in H. unfold is_c in H at 1. rewrite E in H. apply andb_prop in H as [H1 H2]. destruct (IH H2) as (x & w & -> & Hx & Hw).
    exists (String c x), w. split; [done|]. split; [cbn [all_chars]; by rewrite H1|done].
Qed.
Lemma stops_dq r : stops dq_c (Q +:+ r).
Proof. reflexivity. Qed.
Lemma t_inner_at n : forall v r, String.length v <= n -> quotable v = true -> takes true (PRul Rinner) v [] (Q +:+ r).
Proof.
  induction n as [|n IH]; intros v r Hn Hv; destruct (plain_prefix v Hv) as (x & w & -> & Hx & Hw).
  - destruct x; [|cbn in Hn; lia]. destruct w; [|cbn in Hn; lia]. eapply t_conv; [eapply t_rul; [reflexivity|]|reflexivity|reflexivity].
    apply (t_seq0 sg true _ _ "" [] []); [apply t_plain_run; done|]. apply t_opt0, r_seq1. by apply (r_run sg 5).
  - eapply t_conv; [eapply t_rul; [reflexivity|]|reflexivity|reflexivity]. destruct Hw as [->|(d & w' & -> & Hq)].
    + apply (t_seq sg true _ _ x "" [] []); [apply t_plain_run; done|]. apply t_opt0, r_seq1. by apply (r_run sg 5).
    + apply (t_seq sg true _ _ x (String BSL (String d w')) [] []); [apply t_plain_run; done|]. apply t_opt.
      destruct (escape_split d w' r Hq) as (y & u & E & Ht & Hu). rewrite E.
      apply (t_seq sg true _ _ (String BSL y) u [] []); [done|]. apply IH; [|done].
      rewrite length_append in Hn. cbn in Hn. assert (String.length (String d w') = String.length y + String.length u) by (by rewrite E, length_append). cbn in *. lia.
Qed.
End OcaTakes.
