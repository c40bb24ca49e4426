(** A concrete text format for JSON trees with a reader: shows that the hypothesis [text_ok] (serde_json reads back what
    it wrote, unless it nests too deep) can be met. *)
From Verif Require Export Nesting.
From Verif Require Import Base Condition_proofs Inj_digest Relations Props_Relations.

(** Reading a text gives back the tree it was written from. *)
Definition text_ok (to_text : json -> string) (of_text : string -> option json) : Prop := forall j, shallow j -> of_text (to_text j) = Some j.

(** Example reader (not code of /repo): a number in unary. *)
Fixpoint un_read (s : string) : option (nat * string) :=
  match s with
  | String "0" r => Some (0, r)
  | String "1" r => match un_read r with Some (n, r') => Some (S n, r') | None => None end
  | _ => None
  end.
(** Example reader: a length-prefixed text. *)
Definition se_read (s : string) : option (string * string) :=
  match un_read s with Some (n, r) => split_at n r | None => None end.
(** Example reader: a tree. *)
Fixpoint jd (fuel : nat) (s : string) : option (json * string) :=
  match fuel with
  | O => None
  | S f =>
    match s with
    | String "n" r => Some (JNull, r)
    | String "b" r => match un_read r with Some (0, r') => Some (JBool false, r') | Some (_, r') => Some (JBool true, r') | None => None end
    | String "d" r => match un_read r with Some (n, r') => Some (JNum n, r') | None => None end
    | String "s" r => match se_read r with Some (x, r') => Some (JStr x, r') | None => None end
    | String "a" r =>
      match un_read r with
      | Some (n, r') =>
        match (fix go (n : nat) (r : string) : option (list json * string) :=
                 match n with
                 | O => Some ([], r)
                 | S m => match jd f r with Some (x, r') => match go m r' with Some (l, r2) => Some (x :: l, r2) | None => None end | None => None end
                 end) n r' with Some (l, r2) => Some (JArr l, r2) | None => None end
      | None => None
      end
    | String "o" r =>
      match un_read r with
      | Some (n, r') =>
        match (fix go (n : nat) (r : string) : option (list (string * json) * string) :=
                 match n with
                 | O => Some ([], r)
                 | S m => match se_read r with
                          | Some (k, r1) => match jd f r1 with
                                            | Some (x, r') => match go m r' with Some (l, r2) => Some ((k, x) :: l, r2) | None => None end
                                            | None => None end
                          | None => None end
                 end) n r' with Some (l, r2) => Some (JObj l, r2) | None => None end
      | None => None
      end
    | _ => None
    end
  end.
(** Example writer: stands in for serde_json::to_string. *)
Definition ex_to_text : json -> string := inj_digest.
(** Example reader: stands in for serde_json::from_str. *)
Definition ex_of_text (s : string) : option json := match jd (String.length s) s with Some (j, EmptyString) => Some j | _ => None end.

Lemma un_read_un n r : un_read (un n r) = Some (n, r).
Proof. induction n as [|n IH]; [done|]. cbn. by rewrite IH. Qed.
Lemma se_read_se s r : se_read (se s r) = Some (s, r).
Proof. unfold se_read, se. rewrite un_read_un. apply split_at_app. Qed.
(** Proof measure. *)
Fixpoint jdepth (j : json) : nat :=
  match j with
  | JArr l => S ((fix go l := match l with [] => 0 | x :: l' => jdepth x + go l' end) l)
  | JObj l => S ((fix go l := match l with [] => 0 | (_, x) :: l' => jdepth x + go l' end) l)
  | _ => 1
  end.
Lemma jd_je : forall j n r, (jdepth j <= n)%nat -> jd n (je j r) = Some (j, r).
Proof.
  fix IH 1. intros j n r Hn. destruct n as [|n]; [destruct j; cbn in Hn; lia|].
  destruct j as [|b|m|s|l|l]; cbn [je jd].
  - reflexivity.
  - destruct b; reflexivity.
  - rewrite un_read_un. reflexivity.
  - rewrite se_read_se. reflexivity.
  - rewrite un_read_un. cbn [jdepth] in Hn. apply le_S_n in Hn.
    assert (X : (fix go (n0 : nat) (r0 : string) : option (list json * string) :=
                 match n0 with
                 | O => Some ([], r0)
                 | S m => match jd n r0 with Some (x, r') => match go m r' with Some (l, r2) => Some (x :: l, r2) | None => None end | None => None end
                 end) (length l) ((fix go l := match l with [] => r | x :: l' => je x (go l') end) l) = Some (l, r)).
    { induction l as [|x l IHl]; [reflexivity|]. cbn in Hn. cbn [length]. rewrite IH by lia. rewrite IHl by lia. reflexivity. }
    rewrite X. reflexivity.
  - rewrite un_read_un. cbn [jdepth] in Hn. apply le_S_n in Hn.
    assert (X : (fix go (n0 : nat) (r0 : string) : option (list (string * json) * string) :=
                 match n0 with
                 | O => Some ([], r0)
                 | S m => match se_read r0 with
                          | Some (k, r1) => match jd n r1 with
                                            | Some (x, r') => match go m r' with Some (l, r2) => Some ((k, x) :: l, r2) | None => None end
                                            | None => None end
                          | None => None end
                 end) (length l) ((fix go l := match l with [] => r | (k, x) :: l' => se k (je x (go l')) end) l) = Some (l, r)).
    { induction l as [|[k x] l IHl]; [reflexivity|]. cbn in Hn. cbn [length]. rewrite se_read_se. rewrite IH by lia. rewrite IHl by lia. reflexivity. }
    rewrite X. reflexivity.
Qed.
Lemma un_length n r : String.length (un n r) = (S n + String.length r)%nat.
Proof. induction n as [|n IH]; [done|]. cbn. rewrite IH. lia. Qed.
Lemma se_length s r : (String.length r <= String.length (se s r))%nat.
Proof. unfold se. rewrite un_length, length_append. lia. Qed.
Lemma je_length : forall j r, (jdepth j + String.length r <= String.length (je j r))%nat.
Proof.
  fix IH 1. intros j r. destruct j as [|b|m|s|l|l]; cbn [je jdepth String.length].
  - lia.
  - rewrite un_length. lia.
  - rewrite un_length. lia.
  - pose proof (se_length s r). lia.
  - rewrite un_length.
    assert (X : ((fix go l := match l with [] => 0 | x :: l' => jdepth x + go l' end) l + String.length r <=
      String.length ((fix go l := match l with [] => r | x :: l' => je x (go l') end) l))%nat); [|lia].
    induction l as [|x l IHl]; [cbn; lia|]. specialize (IH x ((fix go l := match l with [] => r | x :: l' => je x (go l') end) l)). lia.
  - rewrite un_length.
    assert (X : ((fix go l := match l with [] => 0 | (_, x) :: l' => jdepth x + go l' end) l + String.length r <=
      String.length ((fix go l := match l with [] => r | (k, x) :: l' => se k (je x (go l')) end) l))%nat); [|lia].
    induction l as [|[k x] l IHl]; [cbn; lia|].
    pose proof (IH x ((fix go l := match l with [] => r | (k, x) :: l' => se k (je x (go l')) end) l)) as H1.
    pose proof (se_length k (je x ((fix go l := match l with [] => r | (k, x) :: l' => se k (je x (go l')) end) l))) as H2. lia.
Qed.
Lemma ex_text_all : forall j, ex_of_text (ex_to_text j) = Some j.
Proof.
  intros j. unfold ex_of_text, ex_to_text, inj_digest. rewrite jd_je; [done|]. pose proof (je_length j "") as H. cbn in H. lia.
Qed.
Lemma ex_text_ok : text_ok ex_to_text ex_of_text.
Proof. intros j _. apply ex_text_all. Qed.
