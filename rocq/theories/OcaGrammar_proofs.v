(** The OCAfile grammar terminates on every text. *)
From Coq Require Import Lia.
From Verif Require Export OcaGrammar Peg_proofs.

Definition srank (r : srule) : nat :=
  match r with
  | Rinner | Rsingle_quoted_inner | Rkey_value | Rmeta_attr_value | Rframing_metadata_value | Rkey_pair | Rmeta_key_pair | Rframing_metadata_pair
  | Rattr_framing_key_pair | Rjson_key | Rurl | Rclassification_value | Runit_value | Runit_key_pair | Rentry_code_group_key | Rentry_code_key_pair
  | Rentry_value | Rentry_key | Rentry_key_pair | Ralias | Rsaid | R_attr_type | Rattr_pair | Rfile | Rfrom_said => 1
  | Rattr_key_pairs | Rprop_key_pairs | Rframing_metadata | Rattr_framing_key_pairs | Rjson_value | Rjson_pair | Runit_attr_key_pairs | Rentry_code_key_value_pair
  | Rentry_code_key_value | Rattr_entry_code_key_pairs | Rentry_key_value | Rentry_key_value_pair | Rattr_entry_key_pairs | Rlist_value => 2
  | _ => 0
  end.
Definition srnull (r : srule) : bool := match r with Rinner | Rsingle_quoted_inner | Rfile | REOI => true | _ => false end.

Lemma srules_wf wide r : rule_wf (sgrammar wide) srank srnull 4 40 r = true.
Proof. destruct r; vm_compute; reflexivity. Qed.

Lemma sparse_unfold wide r s : exists n, String.length s * (4 * 40 + 40 + 1) + 4 * 40 + 1 <= n /\ sparse wide r s = run (sgrammar wide) n false (PRul r) s.
Proof. eexists. split; [|reflexivity]. lia. Qed.
Lemma sparse_total wide r s : sparse wide r s <> PFuel.
Proof.
  destruct (sparse_unfold wide r s) as (n & Hn & ->).
  apply (run_enough (sgrammar wide) srank srnull 4 40 (srules_wf wide) (String.length s) 4 (PRul r)); cbn [height wf]; try lia.
  apply Nat.ltb_lt. destruct r; cbn; lia.
Qed.
Lemma sparse_is wide r s o : ev (sgrammar wide) false (PRul r) s o -> sparse wide r s = to_res o.
Proof. intros H. pose proof (sparse_total wide r s) as T. destruct (sparse_unfold wide r s) as (n & Hn & E). rewrite E in *. by apply run_is. Qed.
