(** The iso pattern in full. *)
From Verif Require Import Spec_Standard Regex_proofs Standard_proofs Condition_proofs.

(** proof device: a shape as a pattern (of config/standards.yml 2) *)
Fixpoint pat (g : shape) : rx :=
  match g with
  | SKey k => keyword k REmpty
  | SClass l => RClass false l
  | SAny => RDot
  | SSeq a b => RCat (pat a) (pat b)
  | SOr a b => RAlt (pat a) (pat b)
  | SOpt a => RAlt (pat a) REmpty
  | SMany a => RStar (pat a)
  end.
(** proof device (of config/standards.yml 2) *)
Fixpoint keys_ok (g : shape) : bool :=
  match g with
  | SKey k => all_chars kw_char k
  | SClass _ | SAny => true
  | SSeq a b | SOr a b => keys_ok a && keys_ok b
  | SOpt a | SMany a => keys_ok a
  end.
(** proof device: sequences to the right, no groups (of config/standards.yml 2) *)
Fixpoint cat2 (a b : rx) : rx :=
  match a with
  | REmpty => b
  | RCat x y => RCat x (cat2 y b)
  | _ => match b with REmpty => a | _ => RCat a b end
  end.
(** proof device (of config/standards.yml 2) *)
Fixpoint alt2 (a b : rx) : rx := match a with RAlt x y => RAlt x (alt2 y b) | _ => RAlt a b end.
(** proof device (of config/standards.yml 2) *)
Fixpoint norm (r : rx) : rx :=
  match r with
  | RCat a b => cat2 (norm a) (norm b)
  | RAlt a b => alt2 (norm a) (norm b)
  | RStar a => RStar (norm a)
  | RGroup a => norm a
  | _ => r
  end.
Lemma means_cat a b s : means (RCat a b) s <-> exists x y, s = x ++ y /\ means a x /\ means b y.
Proof.
  split.
  - intros H. inversion H; subst. eauto.
  - intros (x & y & -> & Hx & Hy). by constructor.
Qed.
Lemma means_none s : means REmpty s <-> s = [].
Proof. split; [intros H; by inversion H|intros ->; constructor]. Qed.
Lemma cat2_means a b s : means (cat2 a b) s <-> means (RCat a b) s.
Proof.
  assert (G : forall a, (cat2 a b = match b with REmpty => a | _ => RCat a b end) -> means (cat2 a b) s <-> means (RCat a b) s).
  { intros a' E. rewrite E. destruct b; try done. rewrite means_cat. split.
    - intros H. exists s, []. rewrite app_nil_r. split; [done|]. split; [done|constructor].
    - intros (x & y & -> & Hx & Hy). apply means_none in Hy as ->. by rewrite app_nil_r. }
  revert s G. induction a as [| | | |a1 IH1 a2 IH2| | |]; intros s G; try (by apply G).
  - cbn [cat2]. rewrite means_cat. split.
    + intros H. exists [], s. split; [done|]. split; [constructor|done].
    + intros (x & y & -> & Hx & Hy). by apply means_none in Hx as ->.
  - cbn [cat2]. rewrite !means_cat. split.
    + intros (x & y & -> & Hx & Hy). apply IH2 in Hy; [|clear - b].
      * apply means_cat in Hy as (y1 & y2 & -> & Hy1 & Hy2). exists (x ++ y1), y2. rewrite app_assoc. split; [done|]. split; [by constructor|done].
      * intros a' E. rewrite E. destruct b; try done. rewrite means_cat. split.
        -- intros H. exists y, []. rewrite app_nil_r. split; [done|]. split; [done|constructor].
        -- intros (u & v & -> & Hu & Hv). apply means_none in Hv as ->. by rewrite app_nil_r.
    + intros (x & y & -> & Hx & Hy). apply means_cat in Hx as (x1 & x2 & -> & Hx1 & Hx2). exists x1, (x2 ++ y). rewrite app_assoc. split; [done|]. split; [done|].
      apply IH2; [|by constructor].
      intros a' E. rewrite E. destruct b; try done. rewrite means_cat. split.
        -- intros H. exists (x2 ++ y), []. rewrite app_nil_r. split; [done|]. split; [done|constructor].
        -- intros (u & v & -> & Hu & Hv). apply means_none in Hv as ->. by rewrite app_nil_r.
Qed.
Lemma alt2_means a b s : means (alt2 a b) s <-> means (RAlt a b) s.
Proof. induction a as [| | | | |a1 IH1 a2 IH2| |]; try done. cbn [alt2]. rewrite means_alt, IH2, !means_alt. tauto. Qed.
Lemma star_mono a b s : (forall s, means a s -> means b s) -> means (RStar a) s -> means (RStar b) s.
Proof.
  intros Hab H. remember (RStar a) as r eqn:E. induction H; try discriminate; injection E as ->; [constructor|]. constructor; auto.
Qed.
Lemma norm_means r s : means (norm r) s <-> means r s.
Proof.
  revert s. induction r as [| | | |a IHa b IHb|a IHa b IHb|a IHa|a IHa]; intros s; cbn [norm]; try done.
  - rewrite cat2_means, !means_cat. by setoid_rewrite IHa; setoid_rewrite IHb.
  - rewrite alt2_means, !means_alt. by rewrite IHa, IHb.
  - split; apply star_mono; intros; by apply IHa.
  - by rewrite means_group, IHa.
Qed.
Lemma pat_means g s : keys_ok g = true -> means (pat g) (la s) <-> reads g s.
Proof.
  revert s. induction g as [k|l| |a IHa b IHb|a IHa b IHb|a IHa|a IHa]; intros s Hk; cbn [pat keys_ok] in *.
  - rewrite keyword_means by done. split.
    + intros (x & y & -> & E & Hy). apply means_empty in Hy as ->. rewrite append_nil_r. by constructor.
    + intros H. inversion H; subst. exists s, "". rewrite append_nil_r. split; [done|]. split; [done|constructor].
  - rewrite (one_class l (la s)). split.
    + intros (c & Ec & E). destruct s as [|c' [|]]; try discriminate. injection Ec as ->. by constructor.
    + intros H. inversion H; subst. by eexists.
  - split.
    + intros H. destruct s as [|c' [|d s]]; inversion H; subst. by constructor.
    + intros H. inversion H; subst. by constructor.
  - apply andb_true_iff in Hk as [Ka Kb]. rewrite means_cat_str. split.
    + intros (x & y & -> & Hx & Hy). constructor; [by apply IHa|by apply IHb].
    + intros H. inversion H; subst. eexists _, _. split; [done|]. split; [by apply IHa|by apply IHb].
  - apply andb_true_iff in Hk as [Ka Kb]. rewrite means_alt, (IHa s Ka), (IHb s Kb). split.
    + intros [H|H]; [by apply rd_left|by apply rd_right].
    + intros H. inversion H; subst; auto.
  - rewrite means_alt, (IHa s Hk), means_empty. split.
    + intros [H| ->]; [by apply rd_some|apply rd_none].
    + intros H. inversion H; subst; auto.
  - split.
    + assert (G : forall r t, means r t -> r = RStar (pat a) -> forall s, la s = t -> reads (SMany a) s).
      { clear s. intros r t H. induction H as [| | | | | | | |q|q u v Hu _ Hv IH|]; intros E z Ez; try discriminate; injection E as ->.
        - destruct z; [constructor|discriminate].
        - apply la_split in Ez as (x & y & -> & <- & <-). constructor; [by apply IHa|by apply IH]. }
      intros H. by apply (G _ _ H).
    + intros H. remember (SMany a) as g eqn:E. induction H; try discriminate; injection E as ->; [constructor|].
      rewrite la_app. constructor; [by apply IHa|auto].
Qed.
Lemma rest_means s : means iso_rest (la s) <-> reads iso_parts s.
Proof.
  rewrite <- norm_means. replace (norm iso_rest) with (norm (pat iso_parts)) by (vm_compute; reflexivity).
  rewrite norm_means. apply pat_means. vm_compute. reflexivity.
Qed.
