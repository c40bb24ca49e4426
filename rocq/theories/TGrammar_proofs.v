(** The dispatch and transformation grammars terminate on every text. *)
From Coq Require Import Lia.
From Verif Require Export TGrammar PegMap.

Definition trank (r : trule) : nat :=
  match r with
  | Tinner | Tsingle_quoted_inner | Tmeta_attr_value | Tmeta_key_pair | Tfile | Tfrom_said | Trename_attr_pair | Tlink_attr_pair => 1
  | Trename_attr_pairs | Tlink_attr_pairs => 2
  | _ => 0
  end.
Definition trnull (r : trule) : bool := match r with Tinner | Tsingle_quoted_inner | Tfile | TEOI => true | _ => false end.
Lemma trules_wf d wide r : rule_wf (tgrammar d wide) trank trnull 4 40 r = true.
Proof. destruct r, d; vm_compute; reflexivity. Qed.
Lemma tparse_unfold d wide r s : exists n, String.length s * (4 * 40 + 40 + 1) + 4 * 40 + 1 <= n /\ tparse d wide r s = run (tgrammar d wide) n false (PRul r) s.
Proof. eexists. split; [|reflexivity]. lia. Qed.
Lemma tparse_total d wide r s : tparse d wide r s <> PFuel.
Proof.
  destruct (tparse_unfold d wide r s) as (n & Hn & ->).
  apply (run_enough (tgrammar d wide) trank trnull 4 40 (trules_wf d wide) (String.length s) 4 (PRul r)); cbn [height wf]; try lia.
  apply Nat.ltb_lt. destruct r; cbn; lia.
Qed.
Lemma tparse_is d wide r s o : ev (tgrammar d wide) false (PRul r) s o -> tparse d wide r s = to_res o.
Proof. intros H. pose proof (tparse_total d wide r s) as T. destruct (tparse_unfold d wide r s) as (n & Hn & E). rewrite E in *. by apply run_is. Qed.

(** The rules shared with the semantics grammar. *)
Definition t_shared (r : srule) : bool :=
  match r with
  | Rmeta_attr_value | Rcomment | Rempty_line | Rinner | Rescape | Runicode | Rsingle_quoted_inner | Rstring | Rchar => true
  | _ => false
  end.
Definition t_of (r : srule) : trule :=
  match r with
  | Rmeta_attr_value => Tmeta_attr_value | Rcomment => Tcomment | Rempty_line => Tempty_line | Rinner => Tinner | Rescape => Tescape | Runicode => Tunicode
  | Rsingle_quoted_inner => Tsingle_quoted_inner | Rstring => Tstring | Rchar => Tchar | _ => TEOI
  end.
Lemma t_shared_ok d wide r : t_shared r = true -> tgrammar d wide (t_of r) = ((sgrammar wide r).1, pmap t_of (sgrammar wide r).2) /\ shares t_shared (sgrammar wide r).2 = true.
Proof. destruct r; cbn [t_shared]; intros H; try discriminate H; split; reflexivity. Qed.
Lemma tt_map d wide at_ e c ts r : takes (sgrammar wide) at_ e c ts r -> shares t_shared e = true -> takes (tgrammar d wide) at_ (pmap t_of e) c (map (tmap t_of) ts) r.
Proof. apply takes_map, t_shared_ok. Qed.
Lemma tr_map d wide at_ e s : rejects (sgrammar wide) at_ e s -> shares t_shared e = true -> rejects (tgrammar d wide) at_ (pmap t_of e) s.
Proof. apply rejects_map, t_shared_ok. Qed.
