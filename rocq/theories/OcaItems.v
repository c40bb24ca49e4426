(** The parts of a line as the generator writes them: names, quoted values, lists of pairs, types, languages. *)
From Coq Require Import Lia.
From Verif Require Export OcaTakes.
From Verif Require Import Condition_proofs.

Section OcaItems.
Variable wide : ascii -> bool.
Local Notation sg := (sgrammar wide).
Local Notation takes := (takes sg).
Local Notation rejects := (rejects sg).

Definition string_tok (v : string) : spair := Pair Rstring (Q +:+ v +:+ Q) [Pair Rinner v []].
Lemma t_string at_ v r : quotable v = true -> takes at_ (PRul Rstring) (Q +:+ v +:+ Q) [string_tok v] r.
Proof.
  intros H. eapply t_conv; [eapply t_rul; [reflexivity|]|reflexivity|reflexivity].
  apply t_alt2; [apply r_seq1; by apply r_lit1|].
  apply (t_seq sg false _ _ Q (v +:+ Q) [] [Pair Rinner v []]); [apply t_lit|].
  eapply (t_seq sg false _ _ v Q [Pair Rinner v []] []); [|apply t_lit].
  eapply t_conv; [eapply t_rul; [reflexivity|]|reflexivity|reflexivity].
  (* inside the rule the state is Atomic *)
  pose proof (t_inner_at wide (String.length v) v r (le_n _) H) as Ht. unfold Takes.takes in Ht. inversion Ht; subst.
  match goal with E : sgrammar wide Rinner = _ |- _ => cbn in E; injection E as <- <- end.
  match goal with E : ev _ _ _ _ _ |- _ => exact E end.
Qed.

(** ** White space *)
Definition aws_c (c : ascii) : bool := ws_c c || is_c BSL c.
Lemma r_aws1 at_ r : stops aws_c r -> rejects at_ g_arg_ws1 r.
Proof.
  intros H. apply r_alt; [apply r_cls; destruct r as [|c r]; [done|]; cbn in H; by apply orb_false_elim in H as [? _]|].
  apply r_seq1, r_seq1. destruct r as [|c r]; [by apply ev_lit_no|]. cbn in H. apply orb_false_elim in H as [_ H]. by apply r_lit1.
Qed.
Lemma r_aws at_ r : stops aws_c r -> rejects at_ g_arg_ws r.
Proof. intros H. by apply r_seq1, r_aws1. Qed.
Lemma t_aws0 at_ s r : all_chars ws_c s = true -> stops aws_c r -> takes at_ (PStar g_arg_ws1) s [] r.
Proof.
  intros H Hr. induction s as [|c s IH]; [by apply t_star0, r_aws1|]. cbn in H. apply andb_prop in H as [H1 H2].
  apply (t_star sg at_ _ (String c "") s [] []); [|by apply IH]. apply t_alt1. by apply t_cls.
Qed.
Lemma t_aws at_ s r : s <> "" -> all_chars ws_c s = true -> stops aws_c r -> takes at_ g_arg_ws s [] r.
Proof.
  intros Hs H Hr. destruct s as [|c s]; [done|]. cbn in H. apply andb_prop in H as [H1 H2].
  apply (t_seq sg at_ _ _ (String c "") s [] []); [apply t_alt1; by apply t_cls|by apply t_aws0].
Qed.
Lemma t_oaws at_ s r : all_chars ws_c s = true -> stops aws_c r -> takes at_ (POpt g_arg_ws) s [] r.
Proof. intros H Hr. destruct s as [|c s]; [by apply t_opt0, r_aws|]. by apply t_opt, t_aws. Qed.

(** ** Pairs *)
Lemma t_eq at_ k v a b ta tb r : stops aws_c (b +:+ r) -> takes at_ k a ta ("=" +:+ b +:+ r) -> takes at_ v b tb r ->
  takes at_ (g_eq k v) (a +:+ "=" +:+ b) (ta ++ tb) r.
Proof.
  intros Hs Hk Hv. apply t_seq; [exact Hk|]. apply (t_seq0 sg at_ _ _ _ [] tb); [by apply t_opt0, r_aws|].
  apply (t_seq sg at_ _ _ "=" b [] tb); [apply t_lit|]. apply (t_seq0 sg at_ _ _ _ [] tb); [by apply t_opt0, r_aws|done].
Qed.
Lemma t_attr_key at_ k r : name_ok k -> stops attr_key_c r -> takes at_ (PRul Rattr_key) k [Pair Rattr_key k []] r.
Proof. intros [Hk H] Hs. eapply t_conv; [eapply t_rul; [reflexivity|by apply t_plus_cls]|reflexivity|reflexivity]. Qed.
Definition value_tok (r : srule) (v : string) : spair := Pair r (Q +:+ v +:+ Q) [string_tok v].
Lemma t_key_value at_ v r : quotable v = true -> takes at_ (PRul Rkey_value) (Q +:+ v +:+ Q) [value_tok Rkey_value v] r.
Proof. intros H. eapply t_conv; [eapply t_rul; [reflexivity|]|reflexivity|reflexivity]. by apply t_alt1, t_string. Qed.
Lemma t_unit_value at_ v r : quotable v = true -> takes at_ (PRul Runit_value) (Q +:+ v +:+ Q) [value_tok Runit_value v] r.
Proof. intros H. eapply t_conv; [eapply t_rul; [reflexivity|]|reflexivity|reflexivity]. by apply t_alt1, t_string. Qed.

Definition pair_text (k v : string) : string := (k +:+ "=" +:+ Q +:+ v +:+ Q)%string.
Definition kv_tok (rp rv : srule) (k v : string) : spair := Pair rp (pair_text k v) [Pair Rattr_key k []; value_tok rv v].
Lemma t_key_pair k v r : name_ok k -> quotable v = true -> takes false (PRul Rkey_pair) (pair_text k v) [kv_tok Rkey_pair Rkey_value k v] r.
Proof.
  intros Hk Hv. eapply t_conv; [eapply t_rul; [reflexivity|]|reflexivity|reflexivity].
  apply (t_eq true _ _ k (Q +:+ v +:+ Q) [_] [_]); [done|by apply t_attr_key|by apply t_key_value].
Qed.
Lemma t_unit_pair k v r : name_ok k -> quotable v = true -> takes false (PRul Runit_key_pair) (pair_text k v) [kv_tok Runit_key_pair Runit_value k v] r.
Proof.
  intros Hk Hv. eapply t_conv; [eapply t_rul; [reflexivity|]|reflexivity|reflexivity].
  apply (t_eq true _ _ k (Q +:+ v +:+ Q) [_] [_]); [done|by apply t_attr_key|by apply t_unit_value].
Qed.

(** ** Lists of pairs *)
Record item := Item { it_sep : string; it_text : string; it_tok : spair }.
Definition items_text (l : list item) : string := cat_map (fun i => (it_sep i +:+ it_text i)%string) l.
Lemma items_cons i l : items_text (i :: l) = (it_sep i +:+ it_text i +:+ items_text l)%string.
Proof.
  unfold items_text, cat_map. cbn [map]. destruct l as [|j l]; cbn [map String.concat]; [by rewrite !append_nil_r|].
  rewrite append_assoc. reflexivity.
Qed.
(** What the grammar takes for one item, in front of anything. *)
Definition item_ok (p : pe srule) (i : item) : Prop :=
  all_chars ws_c (it_sep i) = true /\ (forall r, stops aws_c (it_text i +:+ r)) /\ (forall r, takes false p (it_text i) [it_tok i] r).
Lemma t_spaced0 p : forall l s, all_chars ws_c s = true -> forall i r, item_ok p i -> Forall (item_ok p) l -> stops aws_c r -> rejects false p r ->
  takes false (PStar (PSeq (POpt g_arg_ws) (PSeq p (POpt g_arg_ws)))) (s +:+ it_text i +:+ items_text l) (map it_tok (i :: l)) r.
Proof.
  induction l as [|j l IH]; intros s Hs i r [Hi1 [Hi2 Hi3]] Hl Hr Hp.
  - eapply t_conv; [eapply (t_star sg false _ (s +:+ it_text i) "" [it_tok i] [])| | reflexivity].
    + apply (t_seq sg false _ _ s _ [] _); [by apply t_oaws|]. eapply t_conv; [apply (t_seq sg false _ _ (it_text i) "" [it_tok i] []); [done|by apply t_opt0, r_aws]|by rewrite append_nil_r|done].
    + apply t_star0. apply (r_seq2 sg false _ _ "" [] r); [by apply t_opt0, r_aws|]. by apply r_seq1.
    + unfold items_text, cat_map. cbn. by rewrite !append_nil_r.
  - inversion Hl as [|x y Hj Hl']; subst. pose proof Hj as [Hj1 [Hj2 Hj3]].
    eapply t_conv; [eapply (t_star sg false _ (s +:+ it_text i +:+ it_sep j) (it_text j +:+ items_text l) [it_tok i] (map it_tok (j :: l)))| |reflexivity].
    + apply (t_seq sg false _ _ s _ [] _); [by apply t_oaws; [|rewrite append_assoc]|].
      eapply t_conv; [apply (t_seq sg false _ _ (it_text i) (it_sep j) [it_tok i] []); [done|]|done|done]. apply t_oaws; [done|]. rewrite append_assoc. apply Hj2.
    + by apply (IH "").
    + rewrite items_cons, !append_assoc. reflexivity.
Qed.
Lemma t_plus at_ a c ts r : takes at_ (PStar a) c ts r -> c <> "" -> takes at_ (PPlus a) c ts r.
Proof.
  unfold Takes.takes. intros H Hc. inversion H; subst; [done|]. by eapply ev_seq.
Qed.
Lemma t_spaced p i l r : item_ok p i -> Forall (item_ok p) l -> it_text i <> "" -> stops aws_c r -> rejects false p r ->
  takes false (g_spaced p) (it_text i +:+ items_text l) (map it_tok (i :: l)) r.
Proof. intros Hi Hl Hn Hr Hp. apply t_plus; [by apply (t_spaced0 p l "")|]. by destruct (it_text i). Qed.
End OcaItems.
