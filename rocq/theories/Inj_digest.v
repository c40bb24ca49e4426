(** An injective map from JSON trees to strings: shows the collision-freedom hypotheses can be met. *)
From Verif Require Import Base Condition_proofs.

Fixpoint un (n : nat) (r : string) : string :=
  match n with O => String "0" r | S m => String "1" (un m r) end.
Definition se (s r : string) : string := un (String.length s) (s +:+ r)%string.
Fixpoint je (j : json) (r : string) : string :=
  match j with
  | JNull => String "n" r
  | JBool b => String "b" (un (if b then 1 else 0) r)
  | JNum n => String "d" (un n r)
  | JStr s => String "s" (se s r)
  | JArr l => String "a" (un (length l) ((fix go l := match l with [] => r | x :: l' => je x (go l') end) l))
  | JObj l => String "o" (un (length l) ((fix go l := match l with [] => r | (k, x) :: l' => se k (je x (go l')) end) l))
  end.
Definition inj_digest (j : json) : string := je j "".

Lemma un_inj n : forall m r r', un n r = un m r' -> n = m /\ r = r'.
Proof. induction n as [|n IH]; intros [|m] r r'; simpl; intros [= H]; [done|]. apply IH in H as [-> ->]. done. Qed.
Lemma app_len_inj a : forall b r r', String.length a = String.length b -> (a +:+ r = b +:+ r')%string -> a = b /\ r = r'.
Proof.
  induction a as [|c a IH]; intros [|d b] r r'; simpl; try done.
  intros [= Hl] [= -> H]. apply IH in H as [-> ->]; done.
Qed.
Lemma se_inj a b r r' : se a r = se b r' -> a = b /\ r = r'.
Proof. unfold se. intros H. apply un_inj in H as [Hl H]. by apply app_len_inj in H. Qed.
Lemma je_inj : forall a b r r', je a r = je b r' -> a = b /\ r = r'.
Proof.
  fix IH 1. intros a b r r' H.
  destruct a as [|x|x|x|l|l], b as [|y|y|y|l'|l']; cbn in H; try done; injection H as H.
  - done.
  - apply un_inj in H as [H ->]. by destruct x, y.
  - by apply un_inj in H as [-> ->].
  - by apply se_inj in H as [-> ->].
  - apply un_inj in H as [Hl H]. assert (E : l = l' /\ r = r'); [|by destruct E as [-> ->]].
    revert l' Hl H. induction l as [|x l IHl]; intros [|y l'] Hl H; try done. simpl in Hl.
    apply IH in H as [-> H]. apply IHl in H as [-> ->]; [done|congruence].
  - apply un_inj in H as [Hl H]. assert (E : l = l' /\ r = r'); [|by destruct E as [-> ->]].
    revert l' Hl H. induction l as [|[k x] l IHl]; intros [|[k' y] l'] Hl H; try done. simpl in Hl.
    apply se_inj in H as [-> H]. apply IH in H as [-> H]. apply IHl in H as [-> ->]; [done|congruence].
Qed.
Lemma inj_digest_inj a b : inj_digest a = inj_digest b -> a = b.
Proof. intros H. by apply je_inj in H as [-> _]. Qed.
