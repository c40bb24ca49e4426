(** The texts and tables of the commands of any text that is read: what the grammar says about them beyond Spec_Read. *)
From Coq Require Import Lia.
From Verif Require Export OcaForms Spec_Rewrite.
From Verif Require Import OcaTakes Props_Framing.
From Verif Require Condition_proofs.

(** Every text and every name in the value can stand between double quotes. *)
Inductive fine : nvalue -> Prop :=
| fine_text s : quotable s = true -> fine (VVal s)
| fine_ref r : fine (VRef r)
| fine_list l : Forall fine l -> fine (VArr l)
| fine_object m : Forall (fun kv => quotable kv.1 = true /\ fine kv.2) m -> fine (VObj m).
Lemma fine_not_bad v : fine v -> ~ bad_in v.
Proof.
  intros Hf Hb. induction Hb as [s E|l v Hi Hb IH|m k v Hi E|m k v Hi Hb IH]; inversion Hf as [s' Es|r Er|l' Hl Es|m' Hm Es]; subst; [congruence| | |].
  - rewrite Forall_forall in Hl. by apply IH, Hl.
  - rewrite Forall_forall in Hm. destruct (Hm _ Hi) as [Hq _]. cbn in Hq. congruence.
  - rewrite Forall_forall in Hm. by apply IH, (Hm _ Hi).
Qed.

(** Objects with at least one pair each. *)
Inductive full : nvalue -> Prop :=
| full_text s : full (VVal s)
| full_object m : m <> [] -> Forall (fun kv => full kv.2) m -> full (VObj m).

Section Texts.
Variable wide : ascii -> bool.
Notation W := (wft (g1 wide)).
Notation G := (g1 wide).

(** ** Words *)
Lemma char_dq c : char_c wide c = true -> dq_c c = true.
Proof. unfold char_c. destruct (wide c); destruct c as [[] [] [] [] [] [] [] []]; vm_compute; done. Qed.
Lemma chars_quotable v : all_chars (char_c wide) v = true -> quotable v = true.
Proof.
  induction v as [|c v IH]; [done|]. cbn [all_chars]. intros H. apply andb_prop in H as [H1 H2]. cbn [quotable]. apply char_dq in H1. destruct (dq_plain _ H1) as [-> _].
  by rewrite H1, IH.
Qed.
Lemma ev_rul_inv at_ r s c ts rest : ev G at_ (PRul r) s (Some (c, ts, rest)) -> exists ts', ev G (rinside (G r).1 at_) (G r).2 s (Some (c, ts', rest)) /\
  ts = if rshown (G r).1 at_ then [Pair r c ts'] else ts'.
Proof. intros H. inversion H as [| | | | | | | | | | | | | | | | | | | |at1 r1 m1 b1 s1 c1 ts1 rest1 Hg H1|]; subst. rewrite Hg. cbn [fst snd]. eauto. Qed.
Lemma star_char at_ s o : ev G at_ (PStar (PRul Rchar)) s o -> forall c ts r, o = Some (c, ts, r) -> all_chars (char_c wide) c = true /\ Forall (fun p : spair => p_rule p = Rchar) ts.
Proof.
  intros H. remember (PStar (PRul Rchar)) as e eqn:Ee. revert Ee.
  induction H as [| | | | | | | | | | | | | |at_ a s H1 _|at_ a s c ts r c' ts' r' H1 _ H2 IH2| | | | | |]; intros Ee c0 t0 r0 Eo; try done.
  - injection Eo as <- <- <-. done.
  - injection Ee as ->. injection Eo as <- <- <-. destruct (IH2 eq_refl _ _ _ eq_refl) as [A B]. apply ev_rul_inv in H1 as (t1 & H1 & ->). cbn [G g1 sgrammar fst snd] in H1.
    apply ev_cls_inv in H1 as (x & -> & Hx & ->). split; [cbn; by rewrite Hx, A|]. apply Forall_app. split; [|done]. destruct (rshown _ at_); [by constructor|constructor].
Qed.
Lemma plus_char at_ s c ts r : ev G at_ (PPlus (PRul Rchar)) s (Some (c, ts, r)) -> word_ok wide c /\ Forall (fun p : spair => p_rule p = Rchar) ts.
Proof.
  intros H. apply ev_seq_inv in H as (c1 & t1 & r1 & c2 & t2 & H1 & H2 & -> & ->). apply ev_rul_inv in H1 as (t0 & H1 & ->). cbn [G g1 sgrammar fst snd] in H1.
  apply ev_cls_inv in H1 as (x & -> & Hx & ->). destruct (star_char _ _ _ H2 _ _ _ eq_refl) as [A B]. split; [split; [done|]; cbn; by rewrite Hx, A|].
  apply Forall_app. split; [|done]. destruct (rshown _ at_); [by constructor|constructor].
Qed.
Ltac body H := inversion H as [rr mm bb ss cc tt rest Hg He Hw Hi]; subst; cbn in Hg; injection Hg as <- <-; cbn [rinside] in He.
Lemma said_word c ts : W (Pair Rsaid c ts) -> word_ok wide c.
Proof. intros H. body H. by apply plus_char in He as [H1 _]. Qed.

(** ** Texts between double quotes *)
Lemma plain_star at_ s o : ev G at_ (PStar (PSeq (PNot (PCls (fun c => negb (dq_c c)))) PAny)) s o -> forall c ts r, o = Some (c, ts, r) -> all_chars dq_c c = true.
Proof.
  intros H. remember (PStar _) as e eqn:Ee. revert Ee.
  induction H as [| | | | | | | | | | | | | |at_ a s H1 _|at_ a s c ts r c' ts' r' H1 _ H2 IH2| | | | | |]; intros Ee c0 t0 r0 Eo; try done.
  - by injection Eo as <- <- <-.
  - injection Ee as ->. injection Eo as <- <- <-. specialize (IH2 eq_refl _ _ _ eq_refl). rename IH2 into A.
    apply ev_seq_inv in H1 as (c1 & t1 & r1 & c2 & t2 & H1 & H3 & -> & _). inversion H1 as [| | | | | | | | | | | | | | | | | |at2 a2 s2 Hn| | |]; subst.
    inversion H3; subst. inversion Hn as [|at3 f3 x3 r3 Hx| | | | | | | | | | | | | | | | | | | |]; subst. cbn. apply negb_false_iff in Hx. by rewrite Hx, A.
Qed.
Lemma quotable_pair d v : is_c DQ d || is_c BSL d = true -> quotable (String BSL (String d v)) = quotable v.
Proof. intros H. change (quotable (String BSL (String d v))) with (if is_c DQ d || is_c BSL d then quotable v else quotable (String d v)). by rewrite H. Qed.
Lemma quotable_other d v : is_c DQ d || is_c BSL d = false -> quotable (String BSL (String d v)) = quotable (String d v).
Proof. intros H. change (quotable (String BSL (String d v))) with (if is_c DQ d || is_c BSL d then quotable v else quotable (String d v)). by rewrite H. Qed.
Lemma ev_opt_cases at_ a s c ts r : ev G at_ (POpt a) s (Some (c, ts, r)) -> ev G at_ a s (Some (c, ts, r)) \/ (ev G at_ a s None /\ c = "" /\ ts = [] /\ r = s).
Proof. inversion 1; subst; auto. Qed.
Lemma hex_run n : forall at_ s c ts r, ev G at_ (PRep (S n) (PCls hex_c)) s (Some (c, ts, r)) -> all_chars dq_c c = true /\ c <> "".
Proof.
  induction n as [|n IH]; intros at_ s c ts r H.
  - apply ev_cls_inv in H as (x & -> & Hx & _). cbn. by rewrite hex_dq.
  - change (PRep (S (S n)) (@PCls srule hex_c)) with (PSeq (@PCls srule hex_c) (PRep (S n) (PCls hex_c))) in H.
    apply ev_seq_inv in H as (c1 & t1 & r1 & c2 & t2 & H1 & H2 & -> & _). apply ev_cls_inv in H1 as (x & -> & Hx & _). destruct (IH _ _ _ _ _ H2) as [A _]. cbn. by rewrite hex_dq, A.
Qed.
Lemma newline_run at_ s c ts r : ev G at_ PNewline s (Some (c, ts, r)) -> all_chars dq_c c = true /\ c <> "".
Proof. intros H. unfold PNewline in H. repeat (apply ev_alt_inv in H as [H|H]); apply ev_lit_inv in H as [-> _]; by split. Qed.
Lemma unicode_run at_ s c ts r : ev G at_ (PRul Runicode) s (Some (c, ts, r)) -> all_chars dq_c c = true /\ c <> "".
Proof.
  intros H. apply ev_rul_inv in H as (t0 & H & _). cbn [G g1 sgrammar fst snd] in H.
  apply ev_alt_inv in H as [H|H]; apply ev_seq_inv in H as (c1 & t1 & r1 & c2 & t2 & H1 & H2 & -> & _); apply ev_lit_inv in H1 as [-> _]; apply hex_run in H2 as [A _]; split; [done|done|done|done].
Qed.
Lemma escape_text s c ts r : ev G true (PRul Rescape) s (Some (c, ts, r)) -> exists x, c = String BSL x /\
  ((exists d, x = String d "" /\ is_c DQ d || is_c BSL d = true) \/ (all_chars dq_c x = true /\ x <> "") \/
   (x = "" /\ forall d r', r = String d r' -> is_c DQ d || is_c BSL d = false)).
Proof.
  intros H. apply ev_rul_inv in H as (t0 & H & _). cbn [G g1 sgrammar fst snd] in H. apply ev_seq_inv in H as (c1 & t1 & r1 & c2 & t2 & H1 & H2 & -> & _).
  apply ev_lit_inv in H1 as [-> _]. exists c2. split; [done|]. apply ev_opt_cases in H2 as [H2|(H2 & -> & _ & ->)].
  - cbn [PAlts] in H2. do 5 (apply ev_alt_inv in H2 as [H2|H2]; [apply ev_lit_inv in H2 as [-> _]; right; left; by split|]).
    do 2 (apply ev_alt_inv in H2 as [H2|H2]; [apply ev_lit_inv in H2 as [-> _]; left; by eexists|]).
    apply ev_alt_inv in H2 as [H2|H2]; [apply ev_lit_inv in H2 as [-> _]; right; left; by split|].
    apply ev_alt_inv in H2 as [H2|H2]; right; left; [by eapply unicode_run|by eapply newline_run].
  - right. right. split; [done|]. intros d r' ->. cbn [PAlts] in H2.
    assert (N : forall a b s, ev G true (PAlt a b) s None -> ev G true a s None /\ ev G true b s None) by (clear; intros a b s H; inversion H; by subst).
    do 5 apply N in H2 as [_ H2]. apply N in H2 as [Hd H2]. apply N in H2 as [Hb _].
    assert (L : forall q, ev G true (PLit (String q "")) (String d r') None -> is_c q d = false).
    { clear. intros q H. inversion H as [| | | |at1 p1 s1 E| | | | | | | | | | | | | | | | |]; subst. cbn [strip] in E. unfold is_c. by destruct (Ascii.eqb q d). }
    apply L in Hd, Hb. by rewrite Hd, Hb.
Qed.
Lemma inner_quotable n : forall s c ts r, String.length c <= n -> ev G true (PRul Rinner) s (Some (c, ts, String DQ r)) -> quotable c = true.
Proof.
  induction n as [|n IH]; intros s c ts r Hn H; [destruct c; [done|cbn in Hn; lia]|].
  apply ev_rul_inv in H as (t0 & H & _). cbn [G g1 sgrammar fst snd rinside] in H. apply ev_seq_inv in H as (x & t1 & r1 & y & t2 & H1 & H2 & -> & _).
  apply (fun H => plain_star _ _ _ H _ _ _ eq_refl) in H1. rewrite quotable_plain by done.
  apply ev_opt_cases in H2 as [H2|(_ & -> & _)]; [|done]. apply ev_seq_inv in H2 as (e & t3 & r3 & c' & t4 & H2 & H3 & -> & _).
  pose proof (ev_split _ _ _ _ _ _ _ H3) as Es. apply escape_text in H2 as (z & -> & Hz). rewrite !Condition_proofs.length_append in Hn. cbn [String.length] in Hn.
  assert (Q : quotable c' = true) by (eapply (IH r3 c' t4 r); [lia|exact H3]).
  destruct Hz as [(d & -> & Hd)|[[Hz Hne]|[-> Hd]]].
  - cbn [append]. by rewrite quotable_pair.
  - destruct z as [|d z]; [done|]. cbn [append]. cbn [all_chars] in Hz. apply andb_prop in Hz as [Hd Hz]. destruct (dq_plain _ Hd) as [E1 E2].
    rewrite quotable_other by (by rewrite E1, E2). change (String d (z +:+ c'))%string with ((String d z) +:+ c')%string. rewrite quotable_plain; [done|]. cbn [all_chars]. by rewrite Hd.
  - cbn [append]. destruct c' as [|d c']; [exfalso; rewrite Es in Hd; cbn [append] in Hd; by specialize (Hd _ _ eq_refl)|].
    rewrite quotable_other; [done|]. apply (Hd d (c' +:+ String DQ r)%string). by rewrite Es.
Qed.
(** A string token: a text between single quotes, or a quotable one between double quotes. *)
Lemma string_text c ts : W (Pair Rstring c ts) -> exists t, quoted (Pair Rstring c ts) = Ok t /\
  (c = ("'" +:+ t +:+ "'")%string \/ (c = (Q +:+ t +:+ Q)%string /\ quotable t = true)).
Proof.
  intros H. body H. apply ev_alt_inv in He as [He|He];
    apply ev_seq_inv in He as (c1 & t1 & r1 & c2 & t2 & H1 & H2 & -> & ->); apply ev_lit_inv in H1 as [-> ->];
    apply ev_seq_inv in H2 as (c3 & t3 & r3 & c4 & t4 & H2 & H3 & -> & ->); pose proof (ev_split _ _ _ _ _ _ _ H3) as Es; apply ev_lit_inv in H3 as [-> ->].
  - apply ev_rul_inv in H2 as (t0 & H2 & ->). exists c3. split; [done|]. by left.
  - inversion H2 as [| | | | | | | | | | | | | | | | | | | |at1 rl m1 b1 s1 x1 ts1 rest1 Hg H4|]; subst. cbn in Hg. injection Hg as <- <-. exists c3. split; [done|]. right. split; [done|].
    eapply (inner_quotable (String.length c3)); [done|]. cbn [append] in *.
    change (Some (c3, [], String DQ rest)) with (Some (c3, (if rshown Atomic true then [Pair Rinner c3 ts1] else []), String DQ rest)).
    eapply ev_rul; [reflexivity|]. cbn [rinside] in *. exact H4.
Qed.
End Texts.

Definition sqf (c : ascii) : bool := Ascii.eqb "'" c.
Section Fine.
Variable wide : ascii -> bool.
(** [sq]: the text has a single quote. *)
Variable sq : bool.
(** [cont]: it has a backslash. *)
Variable cont : bool.
Notation W := (wft (g1 wide)).
Notation Plain c := ((sq = false -> clean sqf c) /\ (cont = false -> clean bsl c)).
Ltac kids H := let Hs := fresh "Hs" in let Hk := fresh "Hk" in let Hm := fresh "Hm" in
  match type of H with wft _ (Pair ?r ?c ?ts) =>
    destruct (wft_fits (g1 wide) no_forb r c ts _ H (clean_none c) ltac:(vm_compute; reflexivity)) as (Hs & Hk & Hm) end.
Ltac cases H := cbn [In p_rule] in H; repeat (destruct H as [H|H]; [try subst|]); [..|destruct H].
Ltac body H := inversion H as [rr mm bb ss cc tt rest Hg He Hw Hi]; subst; cbn in Hg; injection Hg as <- <-; cbn [rinside] in He.
Ltac pick Hk Hp := let Hr := fresh "Hr" in pose proof (kin _ _ _ Hk Hp) as Hr; cases Hr; cbn [In p_rule]; tauto.
Ltac kids_clean H Hc := let Hs := fresh "Hs" in let Hk := fresh "Hk" in let Hm := fresh "Hm" in
  match type of H with wft _ (Pair ?r ?c ?ts) =>
    destruct (wft_fits (g1 wide) bsl r c ts _ H Hc ltac:(vm_compute; reflexivity)) as (Hs & Hk & Hm) end.
Definition okq (t : string) : Prop := sq = false -> quotable t = true.
Definition okv (v : nvalue) : Prop := sq = false -> fine v.
Definition okm (m : imap nvalue) : Prop := sq = false -> Forall (fun kv => quotable kv.1 = true /\ fine kv.2) m.

Lemma plain_in p q : W p -> Plain (p_text p) -> q ∈ p_inner p -> W q /\ Plain (p_text q).
Proof. intros Hw Hq Hi. split; [by eapply inner_w|]. split; intros Hc; (eapply clean_within; [|by apply Hq]); by apply (inner_within wide p). Qed.
Lemma quoted_ok p t : W p -> p_rule p = Rstring -> Plain (p_text p) -> quoted p = Ok t -> okq t.
Proof.
  destruct p as [r c ts]. cbn [p_rule p_text]. intros H -> Hp E Hs. apply string_text in H as (t' & E' & H). rewrite E in E'. injection E' as <-.
  destruct H as [->|[_ H]]; [|done]. exfalso. destruct Hp as [Hp _]. specialize (Hp Hs). unfold clean in Hp. by cbn in Hp.
Qed.
Lemma word_fine c : word_ok wide c -> okv (VVal c).
Proof. intros [_ H] _. constructor. by apply (chars_quotable wide). Qed.
Lemma value_token r c n ts : In r [Rkey_value; Rframing_metadata_value; Rmeta_attr_value; Rclassification_value] -> W (Pair r c (n :: ts)) ->
  (p_rule n = Rstring /\ p_text n = c) \/ (p_rule n = Rchar /\ word_ok wide c).
Proof.
  intros Hr H. cases Hr.
  all: body H; apply ev_alt_inv in He as [He|He]; [left; apply ev_rul_inv in He as (t0 & _ & E); cbn in E; by injection E as -> ->|right].
  all: apply plus_char in He as [Hw' F]; split; [by apply (Forall_inv F)|done].
Qed.
Lemma text_fine r c n ts item v : In r [Rkey_value; Rframing_metadata_value] -> W (Pair r c (n :: ts)) -> Plain c -> p_text item = c -> text_value item n = Ok v -> okv v.
Proof.
  intros Hr H Hp Ei E. assert (Hr' : In r [Rkey_value; Rframing_metadata_value; Rmeta_attr_value; Rclassification_value]) by (cbn [In] in *; tauto).
  destruct (plain_in _ n H Hp (elem_of_list_here _ _)) as [Wn Pn]. unfold text_value in E. destruct (value_token _ _ _ _ Hr' H) as [[En _]|[En Hw]]; rewrite En in E.
  - apply obind_done in E as (t & Et & E). injection E as <-. intros Hs. constructor. by apply (quoted_ok n t Wn En Pn Et).
  - injection E as <-. rewrite Ei. by apply word_fine.
Qed.
Lemma inner_text r c c' is ts : In r [Rentry_code_key_value; Rentry_key_value] -> W (Pair r c (Pair Rkey_value c' is :: ts)) -> c' = c.
Proof.
  intros Hr H. cases Hr; body H; cbn [PAlts] in He; apply ev_alt_inv in He as [He|He].
  - apply ev_rul_inv in He as (t0 & _ & E). cbn in E. by injection E.
  - apply ev_alt_inv in He as [He|He]; apply ev_rul_inv in He as (t0 & _ & E); cbn in E; by injection E.
  - apply ev_rul_inv in He as (t0 & _ & E). cbn in E. by injection E.
  - apply ev_rul_inv in He as (t0 & _ & E); cbn in E; by injection E.
Qed.
Lemma codes_fine l : Forall (fun p => W p /\ Plain (p_text p)) l -> forall v, code_list l = Ok v -> sq = false -> Forall fine v.
Proof.
  induction 1 as [|p l [Hw Hp] Hl IH]; intros v E Hs; cbn [code_list] in E; [by injection E as <-|]. destruct (p_rule p) eqn:Er; try done.
  apply obind_done in E as (t & Et & E). apply obind_done in E as (r & El & E). injection E as <-. constructor; [|by apply (IH r)]. constructor. by apply (quoted_ok p t).
Qed.
Lemma insert_fine k v m : okm m -> okq k -> okv v -> okm (imap_insert k v m).
Proof.
  intros Hm Hk Hv Hs. specialize (Hm Hs). specialize (Hk Hs). specialize (Hv Hs). clear -Hm Hk Hv.
  induction Hm as [|[k' v'] m [Ha Hb] Hm IH]; cbn [imap_insert]; [by repeat constructor|]. cbn [fst snd] in *. destruct (String.eqb_spec k k') as [->|Hne]; by constructor.
Qed.
Lemma insert_kvs_fine l : (forall p kv, p ∈ l -> extract_kv p = Ok kv -> okq kv.1 /\ okv kv.2) -> forall acc m, okm acc -> insert_kvs l acc = Ok m -> okm m.
Proof.
  induction l as [|p l IH]; intros H acc m Ha E; cbn [insert_kvs] in E; [by injection E as <-|]. apply obind_done in E as (kv & Ek & E).
  destruct (H p kv ltac:(apply elem_of_list_here) Ek) as [Hk Hv]. eapply IH; [|by apply insert_fine|exact E]. intros q kv' Hq. apply H. by apply elem_of_list_further.
Qed.
Lemma inner_all p : W p -> Plain (p_text p) -> Forall (fun q => W q /\ Plain (p_text q)) (p_inner p).
Proof. intros H Hp. apply Forall_forall. intros q Hq. by apply (plain_in p). Qed.
Lemma okv_empty : okv (VVal "").
Proof. intros _. by constructor. Qed.
Lemma okq_empty : okq "".
Proof. by intros _. Qed.
(** A pair of a group of entry codes or of an entry. *)
Lemma group_fine r c ts kv : W (Pair r c ts) -> Plain c -> In r [Rentry_code_key_value_pair; Rentry_key_value_pair] -> extract_kv (Pair r c ts) = Ok kv -> okq kv.1 /\ okv kv.2.
Proof.
  intros H Hp Hr E. rewrite extract_kv_fold in E. revert E. apply (ofold_inv kv_item (fun kv => okq kv.1 /\ okv kv.2)); [|split; [apply okq_empty|apply okv_empty]].
  intros [rx tx ix] b b' Hx [Hb1 Hb2] E. destruct (plain_in _ _ H Hp Hx) as [Wx Px]. cbn [p_text] in Px.
  cases Hr; kids H; pose proof (kin _ _ _ Hk Hx) as Hr; cases Hr; cbn [kv_item] in E.
  - destruct ix as [|n ix]; [by injection E as <-|]. destruct (plain_in _ _ Wx Px (elem_of_list_here _ _)) as [Wn Pn]. destruct (p_rule n) eqn:En; try (by injection E as <-).
    apply obind_done in E as (t & Et & E). injection E as <-. cbn [fst snd]. split; [|done]. by apply (quoted_ok n).
  - apply obind_done in E as (l & El & E). injection E as <-. cbn [fst snd]. split; [done|]. intros Hz. constructor. eapply codes_fine; [|exact El|done].
    apply (inner_all (Pair Rentry_code_list tx ix)); done.
  - destruct ix as [|n ix]; [by injection E as <-|]. destruct (plain_in _ _ Wx Px (elem_of_list_here _ _)) as [Wn Pn]. destruct (p_rule n) eqn:En; try (by injection E as <-).
    apply obind_done in E as (t & Et & E). injection E as <-. cbn [fst snd]. split; [|done]. by apply (quoted_ok n).
  - destruct ix as [|n ix]; [by injection E as <-|]. destruct (plain_in _ _ Wx Px (elem_of_list_here _ _)) as [Wn Pn]. destruct (p_rule n) eqn:En; try (by injection E as <-).
    apply obind_done in E as (t & Et & E). injection E as <-. cbn [fst snd]. split; [done|]. intros Hz. constructor. by apply (quoted_ok n).
Qed.
Lemma insert_some {V} k (v : V) m : imap_insert k v m <> [].
Proof. destruct m as [|[k' v'] m]; cbn [imap_insert]; [done|]. by destruct (String.eqb k k'). Qed.
Lemma insert_full k v m : Forall (fun kv => full kv.2) m -> full v -> Forall (fun kv => full kv.2) (imap_insert k v m).
Proof.
  intros Hm Hv. induction Hm as [|[k' v'] m Ha Hm IH]; cbn [imap_insert]; [by repeat constructor|]. cbn [fst snd] in *. destruct (String.eqb_spec k k') as [->|Hne]; by constructor.
Qed.
Lemma json_fine p : W p -> Plain (p_text p) -> (p_rule p = Rjson_object -> forall v, extract_json_object p = Ok v -> okv v /\ full v) /\
  (match p_rule p with
   | Rjson_pair => forall kv kv', (okq kv.1 /\ okv kv.2) /\ full kv.2 -> ofold json_elem (p_inner p) kv = Ok kv' -> (okq kv'.1 /\ okv kv'.2) /\ full kv'.2
   | Rjson_value => forall kv kv', (okq kv.1 /\ okv kv.2) /\ full kv.2 -> json_elem p kv = Ok kv' -> (okq kv'.1 /\ okv kv'.2) /\ full kv'.2
   | _ => True
   end).
Proof.
  induction p as [r t l IH] using pair_ind2. intros H Hp.
  assert (IH' := fun q Hq => proj1 (Forall_forall _ _) IH q Hq (proj1 (plain_in _ q H Hp Hq)) (proj2 (plain_in _ q H Hp Hq))). clear IH. cbn beta in IH'. cbn [p_rule p_inner p_text] in *. split.
  - intros -> v E. kids H. rewrite extract_json_fold in E. apply obind_done in E as (m & E & E2). injection E2 as <-.
    assert (Step : forall x b b', x ∈ l -> json_pair_item x b = Ok b' -> exists kv, b' = imap_insert kv.1 kv.2 b /\ (okq kv.1 /\ okv kv.2) /\ full kv.2).
    { intros [rx tx ix] b b' Hx Ex. destruct rx; try done. cbn [json_pair_item] in Ex. apply obind_done in Ex as (kv & Ek & Ex). injection Ex as <-. exists kv. split; [done|].
      destruct (IH' _ Hx) as [_ X]. cbn [p_rule p_inner] in X. apply (X ("", VVal "") kv); [|done]. split; [split; [apply okq_empty|apply okv_empty]|constructor]. }
    assert (F : okm m /\ Forall (fun kv => full kv.2) m).
    { revert E. apply (ofold_inv json_pair_item (fun m => okm m /\ Forall (fun kv => full kv.2) m)).
      - intros x b b' Hx [Hb1 Hb2] Ex. destruct (Step x b b' Hx Ex) as (kv & -> & [K1 K2] & K3). split; [by apply insert_fine|by apply insert_full].
      - split; [intros _; constructor|constructor]. }
    assert (N : m <> []).
    { apply Forall_inv in Hm as (p & Hpi & Er). revert E. apply (ofold_est json_pair_item (fun m => m <> [])).
      - exists p. split; [done|]. intros b b' Ex. destruct (Step p b b' Hpi Ex) as (kv & -> & _). apply insert_some.
      - intros x b b' Hx _ Ex. destruct (Step x b b' Hx Ex) as (kv & -> & _). apply insert_some. }
    destruct F as [F1 F2]. split; [|by constructor]. intros Hz. constructor. by apply F1.
  - destruct r; try done.
    + intros kv kv' [[Hj1 Hj2] Hj3] E. cbn [json_elem] in E. destruct l as [|v l]; [by injection E as <-|].
      destruct (plain_in _ _ H Hp (elem_of_list_here _ _)) as [Wv Pv]. destruct (IH' _ (elem_of_list_here _ _)) as [X _].
      destruct v as [rv tv iv]. destruct rv; try done.
      * apply obind_done in E as (x & Ex & E). injection E as <-. cbn [fst snd]. split; [|constructor]. split; [done|]. intros Hz. constructor. by apply (quoted_ok (Pair Rstring tv iv) x).
      * apply obind_done in E as (x & Ex & E). injection E as <-. cbn [fst snd]. destruct (X eq_refl _ Ex). done.
    + intros kv kv' Hj E. revert Hj E. apply (ofold_inv json_elem (fun kv => (okq kv.1 /\ okv kv.2) /\ full kv.2)).
      intros [rx tx ix] b b' Hx [[Hb1 Hb2] Hb3] E. destruct (plain_in _ _ H Hp Hx) as [Wx Px]. destruct rx; try done.
      * cbn [json_elem] in E. destruct (last ix) as [k|] eqn:El; [|done]. apply obind_done in E as (x & Ex & E). injection E as <-. cbn [fst snd]. split; [|done]. split; [|done].
        intros Hz. rewrite lower_quotable. apply last_Some_elem_of in El. destruct (plain_in _ _ Wx Px El) as [Wk Pk].
        kids Wx. pose proof (kin _ _ _ Hk El) as Hr. destruct k as [rk tk ik]. cases Hr. by apply (quoted_ok (Pair Rstring tk ik) x).
      * destruct (IH' _ Hx) as [_ X]. cbn [p_rule] in X. apply (X b); [|done]. done.
Qed.

(** ** Pairs and tables *)
Lemma pair_fine r c ts kv : W (Pair r c ts) -> Plain c -> In r kv_rules -> r <> Runit_key_pair -> extract_kv (Pair r c ts) = Ok kv ->
  okv kv.2 /\ (r = Rattr_framing_key_pair -> full kv.2).
Proof.
  intros H Hp Hr Hu E. rewrite extract_kv_fold in E. revert E.
  apply (ofold_inv kv_item (fun kv => okv kv.2 /\ (r = Rattr_framing_key_pair -> full kv.2))); [|split; [apply okv_empty|constructor]].
  intros [rx tx ix] b b' Hx [Hb Hf] E. destruct (plain_in _ _ H Hp Hx) as [Wx Px]. cbn [p_text] in Px.
  unfold kv_rules in Hr. cases Hr; try done; kids H; pose proof (kin _ _ _ Hk Hx) as Hr; cases Hr; cbn [kv_item] in E; try (by injection E as <-).
  all: (split; [|try done]).
  all: try (destruct ix as [|n ix]; [by injection E as <-|]).
  - apply obind_done in E as (v & Ev & E). injection E as <-. eapply (text_fine Rkey_value); [cbn; tauto|exact Wx|exact Px| |exact Ev]; done.
  - destruct (plain_in _ _ Wx Px (elem_of_list_here _ _)) as [Wn Pn]. destruct n as [rn tn nn]. cbn [p_text] in Pn. destruct rn; try done.
    + destruct nn as [|n nn]; [by injection E as <-|]. apply obind_done in E as (v & Ev & E). injection E as <-.
      eapply (text_fine Rkey_value); [cbn; tauto|exact Wn|exact Pn| |exact Ev]. cbn [p_text]. symmetry. eapply (inner_text Rentry_code_key_value); [cbn; tauto|exact Wx].
    + apply obind_done in E as (v & Ev & E). injection E as <-. intros Hz. constructor. eapply codes_fine; [apply (inner_all _ Wn Pn)|exact Ev|done].
    + apply obind_done in E as (m & Em & E). injection E as <-. intros Hz. constructor. revert Hz. change (okm m). revert Em. apply insert_kvs_fine; [|intros _; constructor].
      intros [rp tp ip] kv0 Hpi Ekv. destruct (plain_in _ _ Wn Pn Hpi) as [Wp Pp]. apply (group_fine rp tp ip kv0 Wp Pp); [|done].
      kids Wn. pose proof (kin _ _ _ Hk0 Hpi) as Hr. cases Hr; cbn; tauto.
  - destruct (plain_in _ _ Wx Px (elem_of_list_here _ _)) as [Wn Pn]. destruct n as [rn tn nn]. cbn [p_text] in Pn. destruct rn; try done.
    + destruct nn as [|n nn]; [by injection E as <-|]. apply obind_done in E as (v & Ev & E). injection E as <-.
      eapply (text_fine Rkey_value); [cbn; tauto|exact Wn|exact Pn| |exact Ev]. cbn [p_text]. symmetry. eapply (inner_text Rentry_key_value); [cbn; tauto|exact Wx].
    + apply obind_done in E as (m & Em & E). injection E as <-. intros Hz. constructor. revert Hz. change (okm m). revert Em. apply insert_kvs_fine; [|intros _; constructor].
      intros [rp tp ip] kv0 Hpi Ekv. destruct (plain_in _ _ Wn Pn Hpi) as [Wp Pp]. apply (group_fine rp tp ip kv0 Wp Pp); [|done].
      kids Wn. pose proof (kin _ _ _ Hk0 Hpi) as Hr. cases Hr; cbn; tauto.
  - apply obind_done in E as (v & Ev & E). injection E as <-. by apply (json_fine (Pair Rjson_object tx ix) Wx Px).
  - intros _. apply obind_done in E as (v & Ev & E). injection E as <-. by apply (json_fine (Pair Rjson_object tx ix) Wx Px).
  - apply obind_done in E as (v & Ev & E). injection E as <-. eapply (text_fine Rframing_metadata_value); [cbn; tauto|exact Wx|exact Px| |exact Ev]; done.
Qed.
Definition okl (m : imap nvalue) : Prop := sq = false -> Forall (fun kv => fine kv.2) m.
Lemma insert_okl k v m : okl m -> okv v -> okl (imap_insert k v m).
Proof.
  intros Hm Hv Hs. specialize (Hm Hs). specialize (Hv Hs). clear -Hm Hv.
  induction Hm as [|[k' v'] m Hb Hm IH]; cbn [imap_insert]; [by repeat constructor|]. cbn [fst snd] in *. destruct (String.eqb_spec k k') as [->|Hne]; by constructor.
Qed.
Lemma table_pairs r c ts p : W (Pair r c ts) -> In r table_rules -> p ∈ ts -> In (p_rule p) [table_pair r; Rcomment; Rempty_line].
Proof. intros H Hr Hp. unfold table_rules in Hr. cases Hr; kids H; pose proof (kin _ _ _ Hk Hp) as Hr; cases Hr; cbn [In table_pair]; tauto. Qed.
Lemma insert_kvs_some l : forall acc m, l <> [] \/ acc <> [] -> insert_kvs l acc = Ok m -> m <> [].
Proof.
  induction l as [|p l IH]; intros acc m H E; cbn [insert_kvs] in E; [injection E as <-; by destruct H|]. apply obind_done in E as (kv & _ & E).
  eapply IH; [|exact E]. right. apply insert_some.
Qed.
Lemma table_fine r c ts acc m : W (Pair r c ts) -> Plain c -> In r table_rules -> insert_kvs ts acc = Ok m ->
  m <> [] /\ (r <> Runit_attr_key_pairs -> okl acc -> okl m) /\ (r = Rattr_framing_key_pairs -> Forall (fun kv => full kv.2) acc -> Forall (fun kv => full kv.2) m).
Proof.
  intros H Hp Hr E. split; [|split].
  - eapply insert_kvs_some; [|exact E]. left. unfold table_rules in Hr. cases Hr; kids H; by apply Hs.
  - intros Hu Ha. assert (A : forall p kv, p ∈ ts -> extract_kv p = Ok kv -> okv kv.2).
    { intros [rp tp ip] kv Hi Ek. destruct (plain_in _ _ H Hp Hi) as [Wp Pp]. pose proof (table_pairs _ _ _ _ H Hr Hi) as Hx. cbn [p_rule] in Hx.
      apply (pair_fine rp tp ip kv Wp Pp); [| |done].
      - unfold table_rules in Hr. unfold kv_rules. cases Hr; cbn [table_pair In] in *; tauto.
      - intros ->. unfold table_rules in Hr. cases Hr; cbn [table_pair In] in Hx; try done; by (destruct Hx as [Hx|[Hx|[Hx|[]]]]). }
    clear -A E Ha. revert acc m Ha E. induction ts as [|p ts IH]; intros acc m Ha E; cbn [insert_kvs] in E; [by injection E as <-|]. apply obind_done in E as (kv & Ek & E).
    eapply IH; [|apply insert_okl; [exact Ha|by apply (A p); [apply elem_of_list_here|]]|exact E]. intros q kv' Hq. apply A. by apply elem_of_list_further.
  - intros -> Ha. assert (A : forall p kv, p ∈ ts -> extract_kv p = Ok kv -> full kv.2).
    { intros [rp tp ip] kv Hi Ek. destruct (plain_in _ _ H Hp Hi) as [Wp Pp]. pose proof (table_pairs _ _ _ _ H Hr Hi) as Hx. cbn [p_rule table_pair In] in Hx.
      destruct Hx as [<-|[Hx|[Hx|[]]]].
      - apply (pair_fine Rattr_framing_key_pair tp ip kv Wp Pp); [unfold kv_rules; cbn; tauto|done|done|done].
      - subst rp. kids Wp. destruct ip as [|q ip]; [|inversion Hk as [|? ? Hq _]; destruct Hq]. rewrite extract_kv_fold in Ek. injection Ek as <-. constructor.
      - subst rp. kids Wp. destruct ip as [|q ip]; [|inversion Hk as [|? ? Hq _]; destruct Hq]. rewrite extract_kv_fold in Ek. injection Ek as <-. constructor. }
    clear -A E Ha. revert acc m Ha E. induction ts as [|p ts IH]; intros acc m Ha E; cbn [insert_kvs] in E; [by injection E as <-|]. apply obind_done in E as (kv & Ek & E).
    eapply IH; [|apply insert_full; [exact Ha|by apply (A p); [apply elem_of_list_here|]]|exact E]. intros q kv' Hq. apply A. by apply elem_of_list_further.
Qed.

(** ** Contents *)
Variable said_ok : string -> bool.
(** The attributes of an overlay with a table [T]. *)
Lemma attrs_fine T l ats : In T table_rules -> T <> Rprop_key_pairs -> T <> Rframing_metadata -> (exists p, p ∈ l /\ p_rule p = T) ->
  (forall p, p ∈ l -> W p /\ Plain (p_text p) /\ In (p_rule p) [T; Rcomment; Rempty_line; Rlang; Rsaid; Ralias; Rframing_metadata; Rprop_key_pairs]) ->
  ofold attrs_item l [] = Ok ats -> ats <> [] /\ (T <> Runit_attr_key_pairs -> okl ats) /\ (T = Rattr_framing_key_pairs -> Forall (fun kv => full kv.2) ats).
Proof.
  intros HT N1 N2 (p0 & Hp0 & E0) H E.
  assert (Tab : forall t i b b', attrs_item (Pair T t i) b = Ok b' -> insert_kvs i b = Ok b').
  { intros t i b b' Ex. unfold table_rules in HT. cases HT; cbn [attrs_item] in Ex; done. }
  assert (Other : forall r t i b b', In r [Rcomment; Rempty_line; Rlang; Rsaid; Ralias; Rframing_metadata; Rprop_key_pairs] -> attrs_item (Pair r t i) b = Ok b' -> b' = b).
  { intros r t i b b' Hr Ex. cases Hr; cbn [attrs_item] in Ex; by injection Ex. }
  split; [|split].
  - revert E. apply (ofold_est attrs_item (fun m => m <> [])).
    + exists p0. split; [done|]. intros b b' Ex. destruct p0 as [r t i]. cbn [p_rule] in E0. subst r. apply Tab in Ex. destruct (H _ Hp0) as (Hw & Hq & _). by eapply (table_fine T t i).
    + intros [r t i] b b' Hx Hb Ex. destruct (H _ Hx) as (Hw & Hq & Hr). cbn [p_rule] in Hr. destruct Hr as [<-|Hr]; [apply Tab in Ex; by eapply (table_fine T t i)|]. by apply Other in Ex as ->.
  - intros Hu. revert E. apply (ofold_inv attrs_item okl); [|intros _; constructor]. intros [r t i] b b' Hx Hb Ex. destruct (H _ Hx) as (Hw & Hq & Hr). cbn [p_rule] in Hr.
    destruct Hr as [<-|Hr]; [apply Tab in Ex; by eapply (table_fine T t i)|]. by apply Other in Ex as ->.
  - intros Hu. revert E. apply (ofold_inv attrs_item (fun ats => Forall (fun kv => full kv.2) ats)); [|constructor]. intros [r t i] b b' Hx Hb Ex. destruct (H _ Hx) as (Hw & Hq & Hr).
    cbn [p_rule] in Hr. destruct Hr as [<-|Hr]; [apply Tab in Ex; by eapply (table_fine T t i)|]. by apply Other in Ex as ->.
Qed.
Lemma lang_fine c ts : W (Pair Rlang c ts) -> okv (VVal c).
Proof.
  intros H _. constructor. apply lang_token_text in H as (a & b & Ha & Hb & H).
  assert (A : forall c, alpha_c c = true -> char_c wide c = true) by (intros c0 Hc; unfold char_c; by rewrite Hc).
  destruct H as [->|(x & y & Hx & Hy & ->)]; apply (chars_quotable wide); cbn [all_chars]; rewrite (A a Ha), (A b Hb); [done|]. by rewrite (A x Hx), (A y Hy).
Qed.
Lemma props_fine l ps : (forall p, p ∈ l -> W p /\ Plain (p_text p) /\
    In (p_rule p) [Rprop_key_pairs; Rframing_metadata; Rlang; Rsaid; Ralias; Rcomment; Rempty_line; Rattr_key_pairs; Rattr_entry_code_key_pairs; Rattr_entry_key_pairs; Runit_attr_key_pairs; Rattr_framing_key_pairs]) ->
  ofold (props_item said_ok) l [] = Ok ps -> okl ps.
Proof.
  intros H. apply (ofold_inv (props_item said_ok) okl); [|intros _; constructor]. intros [r t i] b b' Hx Hb Ex. destruct (H _ Hx) as (Hw & Hq & Hr). cbn [p_rule p_text] in *.
  cases Hr; cbn [props_item] in Ex.
  all: try (injection Ex as <-; done).
  - apply (fun Hi => proj1 (proj2 (table_fine Rprop_key_pairs t i b b' Hw Hq Hi Ex))); [unfold table_rules; cbn; tauto|done|done].
  - apply (fun Hi => proj1 (proj2 (table_fine Rframing_metadata t i b b' Hw Hq Hi Ex))); [unfold table_rules; cbn; tauto|done|done].
  - injection Ex as <-. apply insert_okl; [done|]. by eapply lang_fine.
  - injection Ex as <-. destruct (said_ok t); [|done]. apply insert_okl; [done|]. intros _. constructor.
  - injection Ex as <-. apply insert_okl; [done|]. intros _. constructor.
Qed.
(** META: the language comes first. *)
Definition lang_first (ps : imap nvalue) : Prop := exists v l, ps = ("lang", v) :: l.
Lemma insert_first k v m : lang_first m -> lang_first (imap_insert k v m).
Proof. intros (v0 & l & ->). cbn [imap_insert]. destruct (String.eqb_spec k "lang") as [->|Hn]; by eexists _, _. Qed.
Lemma insert_kvs_first l : forall acc m, lang_first acc -> insert_kvs l acc = Ok m -> lang_first m.
Proof.
  induction l as [|p l IH]; intros acc m H E; cbn [insert_kvs] in E; [by injection E as <-|]. apply obind_done in E as (kv & _ & E). eapply IH; [|exact E]. by apply insert_first.
Qed.
Lemma ofold_app {A B} (f : A -> B -> outcome B) l l' : forall b b', ofold f (l ++ l') b = Ok b' -> exists b1, ofold f l b = Ok b1 /\ ofold f l' b1 = Ok b'.
Proof. induction l as [|x l IH]; intros b b' E; cbn [app ofold] in *; [eauto|]. destruct (f x b); cbn [obind] in *; try done. by apply IH. Qed.
Lemma meta_first c ts ps : W (Pair Rmeta c ts) -> ofold (props_item said_ok) ts [] = Ok ps -> lang_first ps.
Proof.
  intros H E. kids H. body H. cbn [rinside] in He. unfold g_lang_overlay in He.
  apply ev_seq_inv in He as (c1 & t1 & r1 & c2 & t2 & H1 & H2 & -> & ->). apply ev_seq_inv in H2 as (c3 & t3 & r3 & c4 & t4 & H3 & H4 & -> & ->).
  apply ev_seq_inv in H4 as (c5 & t5 & r5 & c6 & t6 & H5 & H6 & -> & ->). assert (t1 = []) as -> by (inversion H1; done). cbn [app] in *.
  destruct (emit_sound _ no_forb _ _ _ _ H3 6 _ _ _ _ eq_refl ltac:(vm_compute; reflexivity) (clean_none _)) as (_ & F3 & _).
  apply ev_rul_inv in H5 as (t0 & _ & ->). cbn [g1 sgrammar fst rshown] in *.
  apply ofold_app in E as (b1 & E1 & E). cbn [app ofold props_item obind] in E.
  assert (b1 = []) as ->.
  { revert E1. apply (ofold_inv (props_item said_ok) (fun b => b = [])); [|done]. intros [rx tx ix] b b' Hx -> Ex. pose proof (kin _ _ _ F3 Hx) as Hr. cases Hr; by injection Ex as <-. }
  cbn [imap_insert] in E. revert E. apply (ofold_inv (props_item said_ok) lang_first); [|by eexists _, _].
  intros [rx tx ix] b b' Hx Hb Ex. assert (Hx' : Pair rx tx ix ∈ (t3 ++ [Pair Rlang c5 t0] ++ t6)) by (rewrite !elem_of_app; auto).
  pose proof (kin _ _ _ Hk Hx') as Hr. cases Hr; cbn [props_item] in Ex; try (by injection Ex as <-).
  - injection Ex as <-. by apply insert_first.
  - by eapply insert_kvs_first.
Qed.
Lemma props_some l ps : (exists p, p ∈ l /\ p_rule p = Rframing_metadata) -> (forall p, p ∈ l -> W p /\ Plain (p_text p) /\ In (p_rule p) [Rframing_metadata; Rcomment; Rempty_line; Rattr_framing_key_pairs]) ->
  ofold (props_item said_ok) l [] = Ok ps -> ps <> [].
Proof.
  intros (p0 & Hp0 & E0) H. apply (ofold_est (props_item said_ok) (fun m => m <> [])).
  - exists p0. split; [done|]. intros b b' Ex. destruct p0 as [r t i]. cbn [p_rule] in E0. subst r. destruct (H _ Hp0) as (Hw & Hq & _).
    eapply (table_fine Rframing_metadata t i b b' Hw Hq); [unfold table_rules; cbn; tauto|exact Ex].
  - intros [r t i] b b' Hx Hb Ex. destruct (H _ Hx) as (Hw & Hq & Hr). cases Hr; cbn [props_item] in Ex; try (by injection Ex as <-).
    eapply (table_fine Rframing_metadata t i b b' Hw Hq); [unfold table_rules; cbn; tauto|exact Ex].
Qed.
Lemma props_said l ps : (forall p, p ∈ l -> W p) -> (forall p, p ∈ l -> In (p_rule p) [Rsaid; Ralias; Rcomment; Rempty_line; Rattr_key_pairs]) ->
  ofold (props_item said_ok) l [] = Ok ps -> forall s, imap_get "target" ps = Some (VRef (RSaid s)) -> word_ok wide s.
Proof.
  intros Hw H. apply (ofold_inv (props_item said_ok) (fun ps => forall s, imap_get "target" ps = Some (VRef (RSaid s)) -> word_ok wide s)); [|done].
  intros [r t i] b b' Hx Hb Ex. pose proof (H _ Hx) as Hr. pose proof (Hw _ Hx) as Wx. cases Hr; cbn [props_item] in Ex; try (by injection Ex as <-); injection Ex as <-.
  - destruct (said_ok t); [|done]. intros s. rewrite get_insert. cbn. intros [= <-]. by eapply said_word.
  - intros s. rewrite get_insert. cbn. done.
Qed.

(** What the grammar gives for a command. *)
Inductive said_words : nattr -> Prop :=
| sw_val t : said_words (NVal t)
| sw_name n : said_words (NRef (RName n))
| sw_said s : word_ok wide s -> said_words (NRef (RSaid s))
| sw_arr t : said_words t -> said_words (NArr t).
Inductive given : command -> Prop :=
| gv_attrs l : l <> [] -> Forall (fun kv => said_words kv.2) l -> given (add_capture_command (Some l) None None)
| gv_class v : word_ok wide v \/ (exists w, v = (Q +:+ w +:+ Q)%string /\ quotable w = true) \/ (sq = true /\ exists w, v = ("'" +:+ w +:+ "'")%string) \/ (cont = true /\ noise v) ->
    given (add_capture_command None (Some [("classification", VVal v)]) None)
| gv_flagged l : given (add_capture_command None None (Some l))
| gv_meta ps : lang_first ps -> okl ps -> given (add_overlay_command KMeta [] ps)
| gv_encoding ps : okl ps -> given (add_overlay_command KCharacterEncoding [] ps)
| gv_overlay k ats ps : k <> KMeta -> ats <> [] -> (k <> KUnit -> okl ats) -> okl ps -> (k = KAttributeFraming -> ps <> [] /\ Forall (fun kv => full kv.2) ats) ->
    (k = KLink -> forall s, imap_get "target" ps = Some (VRef (RSaid s)) -> word_ok wide s) -> given (add_overlay_command k ats ps)
| gv_other k o : k <> CAdd -> given (Command k o).
Lemma overlay_given r c ts k ct : W (Pair r c ts) -> Plain c -> overlay_rule r = Some k -> extract_content said_ok (Pair r c ts) = Ok ct -> given (Command CAdd (OOverlay (OType k "1.1") ct)).
Proof.
  intros Hw Hq Hk0 E. apply content_parts in E as (ats & ps & -> & Ea & Ep). cbn [p_inner] in Ea, Ep. change (given (add_overlay_command k ats ps)).
  assert (Hin : forall p, p ∈ ts -> W p /\ Plain (p_text p)) by (intros p Hp; by apply (plain_in (Pair r c ts))).
  assert (A : forall T l, Forall (fun p : spair => In (p_rule p) l) ts -> (forall r, In r l -> In r [T; Rcomment; Rempty_line; Rlang; Rsaid; Ralias; Rframing_metadata; Rprop_key_pairs]) ->
    In T [Rattr_key_pairs; Runit_attr_key_pairs; Rattr_entry_code_key_pairs; Rattr_entry_key_pairs; Rattr_framing_key_pairs] -> (exists p, p ∈ ts /\ p_rule p = T) ->
    ats <> [] /\ (T <> Runit_attr_key_pairs -> okl ats) /\ (T = Rattr_framing_key_pairs -> Forall (fun kv => full kv.2) ats)).
  { intros T l Hl Hsub HT Hm. assert (X : In T table_rules /\ T <> Rprop_key_pairs /\ T <> Rframing_metadata) by (cases HT; (split; [unfold table_rules; cbn [In]; tauto|]); split; discriminate).
    destruct X as (X1 & X2 & X3). apply (attrs_fine T ts ats X1 X2 X3 Hm); [|exact Ea]. intros p Hp. destruct (Hin p Hp). split; [done|]. split; [done|]. apply Hsub. by apply (kin ts). }
  assert (P : forall l, Forall (fun p : spair => In (p_rule p) l) ts -> (forall r, In r l -> In r [Rprop_key_pairs; Rframing_metadata; Rlang; Rsaid; Ralias; Rcomment; Rempty_line;
    Rattr_key_pairs; Rattr_entry_code_key_pairs; Rattr_entry_key_pairs; Runit_attr_key_pairs; Rattr_framing_key_pairs]) -> okl ps).
  { intros l Hl Hsub. apply (props_fine ts ps); [|exact Ep]. intros p Hp. destruct (Hin p Hp). split; [done|]. split; [done|]. apply Hsub. by apply (kin ts). }
  assert (N : (forall p, p ∈ ts -> In (p_rule p) [Rcomment; Rempty_line; Rlang; Rsaid; Ralias; Rframing_metadata; Rprop_key_pairs]) -> ats = []).
  { intros X. by apply (attrs_none ts ats). }
  destruct r; try done; injection Hk0 as <-; kids Hw;
    (assert (Ps : okl ps) by (apply (P _ Hk); intros r Hr; cases Hr; cbn [In]; tauto)).
  all: try (match goal with |- given (add_overlay_command KMeta _ _) => fail 1 | _ => idtac end;
    match type of Hk with Forall (fun p => In _ ?l) _ =>
      match l with context [?T] => match T with Rattr_key_pairs => idtac | Runit_attr_key_pairs => idtac | Rattr_entry_code_key_pairs => idtac | Rattr_entry_key_pairs => idtac end;
        destruct (A T _ Hk) as (A1 & A2 & _); [intros r Hr; cases Hr; cbn [In]; tauto|cbn [In]; tauto|first [apply (Forall_inv Hm)|apply (Forall_inv (Forall_inv_tail Hm))]|];
        apply gv_overlay; [done|exact A1|intros Hu; first [by apply A2|done]|exact Ps|done|]
      end end; first [done|idtac]).
  - rewrite N by (intros [rp tp ip] Hp; pick Hk Hp). apply gv_meta; [|exact Ps]. by eapply (meta_first c ts).
  - rewrite N by (intros [rp tp ip] Hp; pick Hk Hp). by apply gv_encoding.
  - intros _. apply (props_said ts ps); [intros p Hp; by apply Hin| |exact Ep]. intros [rp tp ip] Hp. pick Hk Hp.
  - destruct (A Rattr_framing_key_pairs _ Hk) as (A1 & A2 & A3); [intros r Hr; cases Hr; cbn [In]; tauto|cbn [In]; tauto|apply (Forall_inv (Forall_inv_tail Hm))|].
    apply gv_overlay; [done|exact A1|intros _; by apply A2|exact Ps| |done]. intros _. split; [|by apply A3].
    apply (props_some ts ps); [apply (Forall_inv Hm)| |exact Ep]. intros p Hp. destruct (Hin p Hp). split; [done|]. split; [done|]. destruct p as [rp tp ip]. pick Hk Hp.
Qed.

(** ** ADD ATTRIBUTE *)
Lemma type_given p : W p -> forall t, extract_attr_type said_ok p = Ok t -> said_words t.
Proof.
  induction p as [r c l IH] using pair_ind2. intros H t E. destruct r; cbn [extract_attr_type] in E; try done.
  - destruct (attr_type_parse c); [|done]. injection E as <-. constructor.
  - destruct l as [|q l]; [done|]. apply obind_done in E as (u & Eu & E). injection E as <-. constructor. apply (Forall_inv IH); [|done]. apply (inner_w _ _ _ H). apply elem_of_list_here.
  - injection E as <-. constructor.
  - destruct (said_ok c) eqn:Es; [|done]. injection E as <-. constructor. by eapply said_word.
Qed.
Lemma attribute_given p kv : W p -> extract_attribute said_ok p = Ok kv -> said_words kv.2.
Proof.
  intros H E. unfold extract_attribute in E. rewrite attr_fold in E. revert E. apply (ofold_inv (attr_item said_ok) (fun kv => said_words kv.2)); [|constructor].
  intros [rx tx ix] b b' Hx Hb E. destruct rx; cbn [attr_item] in E; try done; try (by injection E as <-).
  destruct ix as [|i ix]; [done|]. apply obind_done in E as (t & Et & E). injection E as <-. cbn [snd]. eapply type_given; [|exact Et]. pose proof (inner_w _ _ _ H Hx) as Wx.
  apply (inner_w _ _ _ Wx). apply elem_of_list_here.
Qed.
Definition attrs_given (m : imap nattr) : Prop := Forall (fun kv => said_words kv.2) m.
Lemma insert_attrs_given ts : Forall W ts -> forall acc m, attrs_given acc -> insert_attrs said_ok ts acc = Ok m -> attrs_given m /\ (ts <> [] \/ acc <> [] -> m <> []).
Proof.
  induction 1 as [|p ts Hw Hts IH]; intros acc m Ha E; cbn [insert_attrs] in E; [injection E as <-; split; [done|by intros []]|]. apply obind_done in E as (kv & Ek & E).
  assert (Hi : attrs_given (imap_insert kv.1 kv.2 acc)); [|destruct (IH _ _ Hi E) as [H1 H2]; split; [done|]; intros _; apply H2; right; apply insert_some].
  apply attribute_given in Ek; [|done]. clear -Ha Ek. unfold attrs_given in *.
  induction Ha as [|[k' v'] l Hv Hl IHl]; cbn [imap_insert]; [by repeat constructor|]. destruct (String.eqb kv.1 k'); by constructor.
Qed.
Lemma attributes_given l : Forall W l -> forall acc m, attrs_given acc -> attribute_pairs said_ok l acc = Ok m -> attrs_given m /\ (l <> [] \/ acc <> [] -> m <> []).
Proof.
  induction 1 as [|[r t i] l Hw Hl IH]; intros acc m Ha E; [cbn in E; injection E as <-; split; [done|by intros []]|]. destruct r; cbn [attribute_pairs] in E; try done.
  apply obind_done in E as (a & Ea & E). destruct (insert_attrs_given i (wft_inner _ _ Hw) acc a Ha Ea) as [H1 H2]. destruct (IH a m H1 E) as [H3 H4].
  split; [done|]. intros _. apply H4. right. apply H2. left. kids Hw. by apply Hs.
Qed.
Definition found_given (k : cmd_type) (o : option obj_kind) : Prop := match o with Some o => given (Command k o) | None => True end.
Lemma class_given c ts q : W (Pair Rclassification c ts) -> Plain c -> head ts = Some q -> given (add_capture_command None (Some [("classification", VVal (p_text q))]) None).
Proof.
  intros H Hp Hq. destruct ts as [|q' ts]; [done|]. injection Hq as ->. destruct (plain_in _ _ H Hp (elem_of_list_here _ _)) as [Wq Pq]. destruct q as [r t i]. cbn [p_text] in *.
  apply gv_class. assert (Hr : r = Rclassification_value \/ (cont = true /\ (r = Rcomment \/ r = Rempty_line))).
  { destruct cont eqn:Ec.
    - kids H. pose proof (kin _ _ _ Hk (elem_of_list_here _ _)) as Hr. cases Hr; auto.
    - destruct Hp as [_ Hc]. specialize (Hc eq_refl). kids_clean H Hc. pose proof (kin _ _ _ Hk (elem_of_list_here _ _)) as Hr. cases Hr; auto. }
  destruct Hr as [->|[Hc Hr]].
  - destruct i as [|n i]; [exfalso; kids Wq; by apply Hs|]. destruct (value_token Rclassification_value t n i ltac:(cbn; tauto) Wq) as [[En Et]|[_ Hw]]; [|by left].
    destruct (plain_in _ _ Wq Pq (elem_of_list_here _ _)) as [Wn Pn]. destruct n as [rn tn nn]. cbn [p_rule p_text] in *. subst rn tn.
    apply string_text in Wn as (u & _ & [->|[-> Hu]]); [|right; left; by eexists]. right. right. left. split; [|by eexists].
    destruct sq; [done|]. exfalso. destruct Pq as [Pq _]. specialize (Pq eq_refl). unfold clean in Pq. by cbn in Pq.
  - right. right. right. split; [done|]. destruct Hr as [-> | ->].
    + body Wq. apply ev_seq_inv in He as (c1 & t1 & r1 & c2 & t2 & H1 & _ & -> & _). apply ev_lit_inv in H1 as [-> _]. left. by eexists.
    + body Wq. apply ev_seq_inv in He as (c1 & t1 & r1 & c2 & t2 & H1 & H2 & -> & _). destruct (star_cls _ _ _ _ _ H1 _ _ _ eq_refl) as [A _]. right. exists c1, c2. split; [done|]. split; [done|].
      unfold PNewline in H2. repeat (apply ev_alt_inv in H2 as [H2|H2]); apply ev_lit_inv in H2 as [-> _]; set_solver.
Qed.
Lemma add_given l : Forall (fun p => W p /\ Plain (p_text p)) l -> forall o o', found_given CAdd o -> add_objects said_ok l o = Ok o' -> found_given CAdd o'.
Proof.
  induction 1 as [|p l [Hw Hq] Hl IH]; intros o o' Ho E; [cbn in E; by injection E as <-|].
  assert (Over : forall k, overlay_rule (p_rule p) = Some k -> (let! c := extract_content said_ok p in add_objects said_ok l (Some (OOverlay (OType k "1.1") c))) = Ok o' -> found_given CAdd o').
  { intros k Hk E'. apply obind_done in E' as (ct & Ec & E'). eapply IH; [|exact E']. destruct p as [r t i]. by eapply overlay_given. }
  destruct p as [r t i]. destruct r; cbn [add_objects overlay_rule] in E; try done; try (by eapply Over); try (by eapply IH).
  - eapply IH; [|exact E]. apply gv_flagged.
  - destruct i as [|q i]; [done|]. eapply IH; [|exact E]. by eapply class_given.
  - apply obind_done in E as (m & Em & E). eapply IH; [|exact E]. destruct (attributes_given i (wft_inner _ _ Hw) [] m) as [H1 H2]; [constructor|done|]. apply gv_attrs; [|done].
    apply H2. left. kids Hw. by apply Hs.
Qed.
Lemma instruction_given p cmd : W p -> Plain (p_text p) -> instruction said_ok p = Ok cmd -> given cmd.
Proof.
  intros Hw Hq E. pose proof (inner_all _ Hw Hq) as F. unfold instruction in E. destruct (p_rule p); try done.
  - unfold from_instruction in E. apply obind_done in E as (o & _ & E). destruct o as [t|]; [|done]. destruct (said_ok t) eqn:Es; [|done]. injection E as <-. by apply gv_other.
  - unfold add_instruction in E. apply obind_done in E as (o & Eo & E). destruct o as [o|]; [|done]. injection E as <-. by apply (add_given _ F None (Some o)).
  - unfold remove_instruction in E. apply obind_done in E as (o & Eo & E). destruct o as [o|]; [|done]. injection E as <-. by apply gv_other.
Qed.
Lemma lines_given l : Forall (fun p => W p /\ Plain (p_text p)) l -> forall n a a', read_lines said_ok n l a = Ok a' -> Forall given (ast_commands a) -> Forall given (ast_commands a').
Proof.
  induction 1 as [|p l [Hw Hq] Hl IH]; intros n a a' E Hc; [cbn in E; by injection E as <-|].
  assert (Cmd : (let! c := instruction said_ok p in let! _ := ast_validate a c in read_lines said_ok (S n) l (push_command a c (CmdMeta (S n) (p_text p)))) = Ok a' -> Forall given (ast_commands a')).
  { intros E'. apply obind_done in E' as (c & Ec & E'). apply obind_done in E' as (u & _ & E'). apply (IH _ _ _ E').
    apply Forall_app. split; [done|]. apply Forall_cons; split; [|constructor]. by eapply instruction_given. }
  cbn [read_lines] in E. destruct (p_rule p) eqn:Er; try (by apply Cmd); try (by apply (IH _ _ _ E)).
  apply obind_done in E as (kv & Ek & E). by apply (IH _ _ _ E).
Qed.
End Fine.

Lemma single_quote_clean s : has_single_quote s = false -> clean sqf s.
Proof. unfold has_single_quote, clean. intros H. apply negb_false_iff in H. exact H. Qed.
Lemma file_given wide said_ok s a : parse_ocafile wide said_ok s = Ok a -> Forall (given wide (has_single_quote s) (has_backslash s)) (ast_commands a).
Proof.
  unfold parse_ocafile. destruct (sparse wide Rfile s) as [| |c ts rest] eqn:E; try done.
  assert (V : ev (g1 wide) false (PRul Rfile) s (Some (c, ts, rest))).
  { destruct (sparse_unfold wide Rfile s) as (n & _ & En). rewrite En in E. apply ev_g1, (run_ev _ n). by rewrite E. }
  pose proof (ev_split _ _ _ _ _ _ _ V) as Hs. destruct (ev_wft _ _ _ _ _ V _ _ _ eq_refl) as [Hw Hin]. destruct ts as [|f ts]; [done|].
  intros H. inversion Hw as [|? ? Hf _]; subst. inversion Hin as [|? ? Hif _]; subst.
  eapply (lines_given wide (has_single_quote (c +:+ rest)) (has_backslash (c +:+ rest)) said_ok); [|exact H|by constructor].
  apply Forall_forall. intros p Hp. split; [by eapply inner_w|]. assert (X : within (p_text p) (c +:+ rest)) by (eapply within_trans; [by eapply inner_within|]; by apply within_l).
  split; intros Hb; [apply single_quote_clean in Hb|apply has_backslash_clean in Hb]; by eapply clean_within.
Qed.
