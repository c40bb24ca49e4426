(** Every command of a text that is read has one of the forms of Spec_Read. *)
From Coq Require Import Lia.
From Verif Require Export OcaNoPanic Spec_Read Spec_OcaFile.
From Verif Require AstValidator_proofs.

(** ** Maps *)
Lemma insert_form {V} (K : string -> Prop) (P : V -> Prop) k v l : map_form K P l -> K k -> P v -> map_form K P (imap_insert k v l).
Proof.
  intros [Hn Hf] Hk Hv. split.
  - clear -Hn. induction l as [|[k' v'] l IH]; cbn [imap_insert map fst]; [apply NoDup_singleton|]. inversion Hn as [|? ? Ha Hb]; subst.
    destruct (String.eqb_spec k k') as [->|Hne]; [by constructor|]. cbn [map fst]. constructor; [|by apply IH].
    rewrite AstValidator_proofs.imap_insert_keys. intros [E|E]; [by apply Hne|by apply Ha].
  - clear -Hf Hk Hv. induction l as [|[k' v'] l IH]; cbn [imap_insert]; [by repeat constructor|]. inversion Hf as [|? ? [Ha Hb] Hc]; subst. cbn [fst snd] in *.
    destruct (String.eqb_spec k k') as [->|Hne]; constructor; auto.
Qed.
Lemma empty_form {V} (K : string -> Prop) (P : V -> Prop) : map_form K P [].
Proof. split; constructor. Qed.
Lemma get_insert {V} k k' (v : V) l : imap_get k (imap_insert k' v l) = if String.eqb k k' then Some v else imap_get k l.
Proof.
  induction l as [|[k2 v2] l IH]; cbn [imap_insert imap_get]; [by destruct (String.eqb k k')|].
  destruct (String.eqb_spec k' k2) as [->|Hne]; cbn [imap_get].
  - by destruct (String.eqb k k2).
  - rewrite IH. destruct (String.eqb_spec k k2) as [->|Hn2]; [|done]. destruct (String.eqb_spec k2 k') as [E|E]; [by rewrite E in Hne|done].
Qed.

(** ** Loops *)
Lemma ofold_inv {A B} (f : A -> B -> outcome B) (P : B -> Prop) l : forall b b', (forall x b b', x ∈ l -> P b -> f x b = Ok b' -> P b') ->
  P b -> ofold f l b = Ok b' -> P b'.
Proof.
  induction l as [|x l IH]; intros b b' H Hb E; cbn [ofold] in E; [by injection E as <-|].
  destruct (f x b) as [b1|es|] eqn:E1; cbn [obind] in E; try done. apply (IH b1); [|apply (H x b); [apply elem_of_list_here|done|done]|done].
  intros y c c' Hy. apply H. by apply elem_of_list_further.
Qed.
Lemma ofold_est {A B} (f : A -> B -> outcome B) (P : B -> Prop) l b b' : (exists x, x ∈ l /\ forall b b', f x b = Ok b' -> P b') ->
  (forall x b b', x ∈ l -> P b -> f x b = Ok b' -> P b') -> ofold f l b = Ok b' -> P b'.
Proof.
  intros (x & Hx & He) Hp. revert b. induction l as [|y l IH]; intros b E; [by apply elem_of_nil in Hx|].
  cbn [ofold] in E. destruct (f y b) as [b1|es|] eqn:E1; cbn [obind] in E; try done. apply elem_of_cons in Hx as [->|Hx].
  - eapply (ofold_inv f P l b1); [|by eapply He|done]. intros z c c' Hz. apply Hp. by apply elem_of_list_further.
  - apply (IH Hx) in E; [done|]. intros z c c' Hz. apply Hp. by apply elem_of_list_further.
Qed.
Lemma obind_done {A B} (x : outcome A) (f : A -> outcome B) b : obind x f = Ok b -> exists a, x = Ok a /\ f a = Ok b.
Proof. destruct x; cbn; try done. eauto. Qed.

(** ** Texts of tokens *)
Section Texts.
Variable wide : ascii -> bool.
Notation W := (wft (g1 wide)).
Notation G := (g1 wide).

Lemma ev_cls_inv at_ f s c ts r : ev G at_ (PCls f) s (Some (c, ts, r)) -> exists x, c = String x "" /\ f x = true /\ ts = [].
Proof. inversion 1; subst. by eexists. Qed.
Lemma ev_seq_inv at_ a b s c ts r : ev G at_ (PSeq a b) s (Some (c, ts, r)) ->
  exists c1 t1 r1 c2 t2, ev G at_ a s (Some (c1, t1, r1)) /\ ev G at_ b r1 (Some (c2, t2, r)) /\ c = (c1 +:+ c2)%string /\ ts = t1 ++ t2.
Proof. inversion 1; subst. by eexists _, _, _, _, _. Qed.
Lemma ev_lit_inv at_ p s c ts r : ev G at_ (PLit p) s (Some (c, ts, r)) -> c = p /\ ts = [].
Proof. inversion 1; subst. split; [by eapply strip_eq|done]. Qed.
Lemma ev_alt_inv at_ a b s x : ev G at_ (PAlt a b) s (Some x) -> ev G at_ a s (Some x) \/ ev G at_ b s (Some x).
Proof. inversion 1; subst; auto. Qed.
Lemma ev_opt_inv at_ a s c ts r : ev G at_ (POpt a) s (Some (c, ts, r)) -> ev G at_ a s (Some (c, ts, r)) \/ (c = "" /\ ts = []).
Proof. inversion 1; subst; auto. Qed.
Lemma star_cls at_ f s o : ev G at_ (PStar (PCls f)) s o -> forall c ts r, o = Some (c, ts, r) -> all_chars f c = true /\ ts = [].
Proof.
  intros H. remember (PStar (PCls f)) as e eqn:Ee. revert Ee.
  induction H as [| | | | | | | | | | | | | |at_ a s H1 _|at_ a s c ts r c' ts' r' H1 _ H2 IH2| | | | | |]; intros Ee c0 t0 r0 Eo; try done.
  - by injection Eo as <- <- <-.
  - injection Ee as ->. injection Eo as <- <- <-. destruct (IH2 eq_refl _ _ _ eq_refl) as [A ->]. apply ev_cls_inv in H1 as (x & -> & Hx & ->).
    split; [|done]. cbn. by rewrite Hx, A.
Qed.
Lemma plus_cls at_ f s c ts r : ev G at_ (PPlus (PCls f)) s (Some (c, ts, r)) -> c <> "" /\ all_chars f c = true /\ ts = [].
Proof.
  intros H. apply ev_seq_inv in H as (c1 & t1 & r1 & c2 & t2 & H1 & H2 & -> & ->). apply ev_cls_inv in H1 as (x & -> & Hx & ->).
  destruct (star_cls _ _ _ _ H2 _ _ _ eq_refl) as [A ->]. split; [done|]. split; [|done]. cbn. by rewrite Hx, A.
Qed.
Ltac body H := inversion H as [rr mm bb ss cc tt rest Hg He Hw Hi]; subst; cbn in Hg; injection Hg as <- <-; cbn [rinside] in He.
Lemma attr_key_text c ts : W (Pair Rattr_key c ts) -> name_ok c.
Proof. intros H. body H. apply plus_cls in He as (A & B & _). by split. Qed.
Lemma two_alpha at_ s c ts r : ev G at_ (PRep 2 (PCls alpha_c)) s (Some (c, ts, r)) -> exists a b, c = String a (String b "") /\ alpha_c a = true /\ alpha_c b = true.
Proof.
  intros H. apply ev_seq_inv in H as (c1 & t1 & r1 & c2 & t2 & H1 & H2 & -> & ->). apply ev_cls_inv in H1 as (x & -> & Hx & ->).
  apply ev_cls_inv in H2 as (y & -> & Hy & ->). by exists x, y.
Qed.
Lemma lang_token_text c ts : W (Pair Rlang c ts) -> lang_text_ok c.
Proof.
  intros H. body H. apply ev_seq_inv in He as (c1 & t1 & r1 & c2 & t2 & H1 & H2 & -> & ->). apply two_alpha in H1 as (a & b & -> & Ha & Hb).
  exists a, b. split; [done|]. split; [done|]. apply ev_opt_inv in H2 as [H2|[-> _]]; [|by left]. right.
  apply ev_seq_inv in H2 as (c3 & t3 & r3 & c4 & t4 & H3 & H4 & -> & _). apply ev_lit_inv in H3 as [-> _]. apply two_alpha in H4 as (x & y & -> & Hx & Hy).
  exists x, y. done.
Qed.
Lemma meta_key_text c ts : W (Pair Rmeta_attr_key c ts) -> c ∈ ["name"; "version"; "precompiler"].
Proof.
  intros H. body H. cbn [PAlts] in He. apply ev_alt_inv in He as [He|He]; [apply ev_lit_inv in He as [-> _]; set_solver|].
  apply ev_alt_inv in He as [He|He]; apply ev_lit_inv in He as [-> _]; set_solver.
Qed.
Lemma frame_key_text c ts : W (Pair Rframing_metadata_key c ts) -> c ∈ ["id"; "label"; "location"; "version"].
Proof.
  intros H. body H. cbn [PAlts] in He. apply ev_alt_inv in He as [He|He]; [apply ev_lit_inv in He as [-> _]; set_solver|].
  apply ev_alt_inv in He as [He|He]; [apply ev_lit_inv in He as [-> _]; set_solver|].
  apply ev_alt_inv in He as [He|He]; apply ev_lit_inv in He as [-> _]; set_solver.
Qed.
End Texts.

(** ** Values *)
Section Forms.
Variable wide : ascii -> bool.
Variable cont : bool.
Notation W := (wft (g1 wide)).
(** Without continued lines there is no backslash. *)
Notation Quiet c := (cont = false -> clean bsl c).

Ltac kids H := let Hs := fresh "Hs" in let Hk := fresh "Hk" in let Hm := fresh "Hm" in
  match type of H with wft _ (Pair ?r ?c ?ts) =>
    destruct (wft_fits (g1 wide) no_forb r c ts _ H (clean_none c) ltac:(vm_compute; reflexivity)) as (Hs & Hk & Hm) end.
Ltac kids_clean H Hc := let Hs := fresh "Hs" in let Hk := fresh "Hk" in let Hm := fresh "Hm" in
  match type of H with wft _ (Pair ?r ?c ?ts) =>
    destruct (wft_fits (g1 wide) bsl r c ts _ H Hc ltac:(vm_compute; reflexivity)) as (Hs & Hk & Hm) end.
Ltac cases H := cbn [In p_rule] in H; repeat (destruct H as [H|H]; [try subst|]); [..|destruct H].

Lemma text_plain item n v : text_value item n = Ok v -> plain_form v.
Proof.
  unfold text_value. destruct (p_rule n); try (intros [= <-]; by eexists). intros E. apply obind_done in E as (t & _ & E). injection E as <-. by eexists.
Qed.
Lemma code_list_plain l v : code_list l = Ok v -> Forall plain_form v.
Proof.
  revert v. induction l as [|p l IH]; intros v E; cbn [code_list] in E; [by injection E as <-|]. destruct (p_rule p); try done.
  apply obind_done in E as (t & _ & E). apply obind_done in E as (r & Er & E). injection E as <-. constructor; [by eexists|by apply IH].
Qed.
Lemma insert_kvs_form K P l : (forall p kv, p ∈ l -> extract_kv p = Ok kv -> K kv.1 /\ P kv.2) -> forall acc m, map_form K P acc -> insert_kvs l acc = Ok m -> map_form K P m.
Proof.
  induction l as [|p l IH]; intros H acc m Ha E; cbn [insert_kvs] in E; [by injection E as <-|]. apply obind_done in E as (kv & Ek & E).
  destruct (H p kv ltac:(apply elem_of_list_here) Ek) as [Hk Hv]. eapply IH; [|by apply insert_form|exact E]. intros q kv' Hq. apply H. by apply elem_of_list_further.
Qed.
Lemma group_value r c ts kv : W (Pair r c ts) -> extract_kv (Pair r c ts) = Ok kv ->
  (r = Rentry_code_key_value_pair -> exists l, kv.2 = VArr l /\ Forall plain_form l) /\ (r = Rentry_key_value_pair -> plain_form kv.2).
Proof.
  intros H E. rewrite extract_kv_fold in E. split; intros ->.
  - kids H. pose proof (Forall_inv Hm) as (_ & _). apply Forall_inv_tail, Forall_inv in Hm as (p & Hp & Er).
    revert E. apply (ofold_est kv_item (fun kv => exists l, kv.2 = VArr l /\ Forall plain_form l)).
    + exists p. split; [done|]. intros b b' E. destruct p as [rp tp ip]. cbn [p_rule] in Er. subst rp. cbn [kv_item] in E.
      apply obind_done in E as (l & El & E). injection E as <-. exists l. split; [done|]. by eapply code_list_plain.
    + intros [rx tx ix] b b' Hx Hb E. pose proof (kin _ _ _ Hk Hx) as Hr. cases Hr; cbn [kv_item] in E.
      * destruct ix as [|n ix]; [by injection E as <-|]. destruct (p_rule n); try (by injection E as <-). apply obind_done in E as (t & _ & E). by injection E as <-.
      * apply obind_done in E as (l & El & E). injection E as <-. exists l. split; [done|]. by eapply code_list_plain.
  - kids H. revert E. apply (ofold_inv kv_item (fun kv => plain_form kv.2)); [|by eexists].
    intros [rx tx ix] b b' Hx Hb E. pose proof (kin _ _ _ Hk Hx) as Hr. cases Hr; cbn [kv_item] in E.
    * destruct ix as [|n ix]; [by injection E as <-|]. destruct (p_rule n); try (by injection E as <-). apply obind_done in E as (t & _ & E). by injection E as <-.
    * destruct ix as [|n ix]; [by injection E as <-|]. destruct (p_rule n); try (by injection E as <-). apply obind_done in E as (t & _ & E). injection E as <-. by eexists.
Qed.
Lemma lower_no_capital c : capital (lower c) = false.
Proof. destruct c as [[] [] [] [] [] [] [] []]; vm_compute; done. Qed.
Lemma lower_no_capitals s : no_capitals (lower_str s).
Proof. unfold no_capitals. induction s as [|c s IH]; [done|]. cbn [lower_str all_chars]. by rewrite lower_no_capital, IH. Qed.
Lemma json_value_form p : (forall v, extract_json_object p = Ok v -> json_form v) /\
  (match p_rule p with
   | Rjson_pair => forall kv kv', no_capitals kv.1 /\ json_form kv.2 -> ofold json_elem (p_inner p) kv = Ok kv' -> no_capitals kv'.1 /\ json_form kv'.2
   | Rjson_value => forall kv kv', no_capitals kv.1 /\ json_form kv.2 -> json_elem p kv = Ok kv' -> no_capitals kv'.1 /\ json_form kv'.2
   | _ => True
   end).
Proof.
  induction p as [r t l IH] using pair_ind2. assert (IH' := fun q Hq => proj1 (Forall_forall _ _) IH q Hq). clear IH. cbn beta in IH'. cbn [p_rule p_inner]. split.
  - intros v E. rewrite extract_json_fold in E. apply obind_done in E as (m & E & E2). injection E2 as <-.
    assert (F : map_form no_capitals json_form m).
    { revert E. apply (ofold_inv json_pair_item (map_form no_capitals json_form)); [|apply empty_form].
      intros [rx tx ix] b b' Hx Hb E. destruct rx; try done. cbn [json_pair_item] in E. apply obind_done in E as (kv & Ek & E). injection E as <-.
      destruct (IH' _ Hx) as [_ X]. cbn [p_rule p_inner] in X. destruct (X ("", VVal "") kv) as [K1 K2]; [split; [done|constructor]|done|]. by apply insert_form. }
    destruct F as [Hn Hf]. constructor; [done|]. eapply Forall_impl; [exact Hf|]. by intros kv [Hk Hkv].
  - destruct r; try done.
    + intros kv kv' Hj E. cbn [json_elem] in E. destruct l as [|[rv tv iv] l]; [by injection E as <-|]. destruct rv; try done.
      * apply obind_done in E as (x & _ & E). injection E as <-. split; [apply Hj|constructor].
      * apply obind_done in E as (x & Ex & E). injection E as <-. cbn [fst snd]. split; [apply Hj|]. by apply (IH' (Pair Rjson_object tv iv) ltac:(apply elem_of_list_here)).
    + intros kv kv' Hj E. revert Hj E. apply (ofold_inv json_elem (fun kv => no_capitals kv.1 /\ json_form kv.2)).
      intros [rx tx ix] b b' Hx Hb E. destruct rx; try done.
      * cbn [json_elem] in E. destruct (last ix); [|done]. apply obind_done in E as (x & _ & E). injection E as <-. split; [apply lower_no_capitals|apply Hb].
      * destruct (IH' _ Hx) as [_ X]. cbn [p_rule] in X. by apply (X b).
Qed.

(** The values each kind of pair can carry. *)
Definition value_form (r : srule) (v : nvalue) : Prop :=
  match r with
  | Rentry_code_key_pair => codes_form v
  | Rentry_key_pair => entries_form v
  | Rattr_framing_key_pair => json_form v
  | _ => plain_form v
  end.
Lemma pair_value r c ts kv : W (Pair r c ts) -> In r kv_rules -> extract_kv (Pair r c ts) = Ok kv -> value_form r kv.2.
Proof.
  intros H Hr E. rewrite extract_kv_fold in E. revert E. apply (ofold_inv kv_item (fun kv => value_form r kv.2)).
  2: { unfold kv_rules in Hr. cases Hr; cbn [value_form snd]; try (by eexists); try (left; by eexists). }
  intros [rx tx ix] b b' Hx Hb E. pose proof (inner_w _ _ _ H Hx) as Wx.
  unfold kv_rules in Hr. cases Hr; kids H; pose proof (kin _ _ _ Hk Hx) as Hr; cases Hr; cbn [kv_item] in E; cbn [value_form] in *; try (by injection E as <-).
  all: try (destruct ix as [|n ix]; [by injection E as <-|]).
  - apply obind_done in E as (v & Ev & E). injection E as <-. by eapply text_plain.
  - apply obind_done in E as (v & Ev & E). injection E as <-. by eapply text_plain.
  - destruct n as [rn tn nn]. kids Wx. pose proof (inner_w _ _ _ Wx (elem_of_list_here _ _)) as Wn. pose proof (kin _ _ _ Hk0 (elem_of_list_here _ _)) as Hr. cases Hr.
    + destruct nn as [|n nn]; [by injection E as <-|]. apply obind_done in E as (v & Ev & E). injection E as <-. left. by eapply text_plain.
    + apply obind_done in E as (v & Ev & E). injection E as <-. right. left. exists v. split; [done|]. by eapply code_list_plain.
    + apply obind_done in E as (m & Em & E). injection E as <-. right. right. exists m. split; [done|]. revert Em. apply insert_kvs_form; [|apply empty_form].
      intros [rp tp ip] kv0 Hp Ekv. split; [done|]. kids Wn. pose proof (kin _ _ _ Hk1 Hp) as Hr. cases Hr;
        by apply (group_value _ _ _ _ (inner_w _ _ _ Wn Hp) Ekv).
  - destruct n as [rn tn nn]. kids Wx. pose proof (inner_w _ _ _ Wx (elem_of_list_here _ _)) as Wn. pose proof (kin _ _ _ Hk0 (elem_of_list_here _ _)) as Hr. cases Hr.
    + destruct nn as [|n nn]; [by injection E as <-|]. apply obind_done in E as (v & Ev & E). injection E as <-. left. by eapply text_plain.
    + apply obind_done in E as (m & Em & E). injection E as <-. right. exists m. split; [done|]. revert Em. apply insert_kvs_form; [|apply empty_form].
      intros [rp tp ip] kv0 Hp Ekv. split; [done|]. kids Wn. pose proof (kin _ _ _ Hk1 Hp) as Hr. cases Hr;
        by apply (group_value _ _ _ _ (inner_w _ _ _ Wn Hp) Ekv).
  - apply obind_done in E as (v & Ev & E). injection E as <-. by apply (json_value_form (Pair Rjson_object tx ix)).
  - apply obind_done in E as (v & Ev & E). injection E as <-. by eapply text_plain.
Qed.

Lemma pair_key r c ts kv : W (Pair r c ts) -> In r kv_rules -> extract_kv (Pair r c ts) = Ok kv ->
  match r with Rcomment | Rempty_line => kv.1 = "" | Rframing_metadata_pair => kv.1 ∈ ["id"; "label"; "location"; "version"] | _ => name_ok kv.1 end.
Proof.
  intros H Hr E. rewrite extract_kv_fold in E. unfold kv_rules in Hr. cases Hr; kids H.
  1-6: apply Forall_inv in Hm as (p & Hp & Er); revert E;
    match goal with |- _ -> ?P => let Q := eval pattern (kv.1) in P in match Q with ?F _ => apply (ofold_est kv_item (fun kv => F kv.1)) end end.
  1,3,5,7,9,11: exists p; (split; [exact Hp|]); intros b b' E; destruct p as [rp tp ip]; cbn [p_rule] in Er; subst rp; cbn [kv_item] in E; injection E as <-; cbn [fst];
    first [apply (attr_key_text wide tp ip), (inner_w _ _ _ H Hp)|apply (frame_key_text wide tp ip), (inner_w _ _ _ H Hp)].
  1-6: intros [rx tx ix] b b' Hx Hb E; pose proof (inner_w _ _ _ H Hx) as Wx; pose proof (kin _ _ _ Hk Hx) as Hr; cases Hr; cbn [kv_item] in E.
  all: try (injection E as <-; cbn [fst]; first [apply (attr_key_text wide tx ix), Wx|apply (frame_key_text wide tx ix), Wx]).
  all: try (apply obind_done in E as (v & _ & E); by injection E as <-).
  all: try (destruct ix as [|[rn tn nn] ix]; [by injection E as <-|]).
  all: try (apply obind_done in E as (v & _ & E); by injection E as <-).
  all: try (destruct rn; try done; try (destruct nn; [by injection E as <-|]); apply obind_done in E as (v & _ & E); by injection E as <-).
  all: (destruct ts as [|q ts]; [by injection E as <-|]); inversion Hk as [|? ? Hq _]; subst; destruct Hq.
Qed.

Definition table_pair (r : srule) : srule :=
  match r with
  | Rattr_key_pairs | Rprop_key_pairs => Rkey_pair | Runit_attr_key_pairs => Runit_key_pair | Rattr_entry_code_key_pairs => Rentry_code_key_pair
  | Rattr_entry_key_pairs => Rentry_key_pair | Rattr_framing_key_pairs => Rattr_framing_key_pair | _ => Rframing_metadata_pair
  end.
Definition table_key (r : srule) : string -> Prop := match r with Rframing_metadata => frame_key_form cont | _ => key_form cont end.
Lemma table_kids r c ts p : W (Pair r c ts) -> In r table_rules -> Quiet c -> p ∈ ts -> p_rule p = table_pair r \/ (cont = true /\ (p_rule p = Rcomment \/ p_rule p = Rempty_line)).
Proof.
  intros H Hr Hq Hp. unfold table_rules in Hr. destruct cont; [|specialize (Hq eq_refl)].
  - cases Hr; kids H; pose proof (kin _ _ _ Hk Hp) as Hr; cases Hr; auto.
  - left. cases Hr; kids_clean H Hq; pose proof (kin _ _ _ Hk Hp) as Hr; cases Hr; auto.
Qed.
Lemma table_form r c ts acc m : W (Pair r c ts) -> In r table_rules -> Quiet c -> insert_kvs ts acc = Ok m ->
  map_form (table_key r) (value_form (table_pair r)) acc -> map_form (table_key r) (value_form (table_pair r)) m.
Proof.
  intros H Hr Hq E Ha. revert Ha E. apply insert_kvs_form. intros [rp tp ip] kv Hp E. pose proof (inner_w _ _ _ H Hp) as Wp.
  destruct (table_kids _ _ _ _ H Hr Hq Hp) as [Ep|[Hc Ep]]; cbn [p_rule] in Ep.
  - subst rp. assert (Hk : In (table_pair r) kv_rules) by (unfold table_rules in Hr; cases Hr; cbn; tauto).
    split; [|by apply (pair_value _ _ _ _ Wp Hk E)]. pose proof (pair_key _ _ _ _ Wp Hk E) as X. unfold table_rules in Hr. cases Hr; cbn [table_key table_pair] in *; by left.
  - assert (Hk : In rp kv_rules) by (destruct Ep as [-> | ->]; unfold kv_rules; cbn [In]; tauto). pose proof (pair_key _ _ _ _ Wp Hk E) as X. pose proof (pair_value _ _ _ _ Wp Hk E) as Y.
    assert (K1 : kv.1 = "") by (by destruct Ep as [-> | ->]). assert (V1 : plain_form kv.2) by (by destruct Ep as [-> | ->]).
    split.
    + unfold table_rules in Hr. cases Hr; cbn [table_key]; right; by split.
    + unfold table_rules in Hr. cases Hr; cbn [value_form table_pair]; try done; try (by left). destruct V1 as [s ->]. constructor.
Qed.

(** ** Contents *)
Definition attrs_item (p : spair) (acc : imap nvalue) : outcome (imap nvalue) :=
  match p with
  | Pair (Rattr_key_pairs | Rattr_entry_code_key_pairs | Rattr_entry_key_pairs | Runit_attr_key_pairs | Rattr_framing_key_pairs) _ ps => insert_kvs ps acc
  | _ => Ok acc
  end.
Lemma attrs_fold l : forall acc, content_attrs l acc = ofold attrs_item l acc.
Proof. induction l as [|[r t i] l IH]; intros acc; [done|]. destruct r; cbn [content_attrs ofold attrs_item obind]; try apply IH; destruct (insert_kvs i acc); cbn [obind]; try done; apply IH. Qed.
Variable said_ok : string -> bool.
Definition props_item (p : spair) (acc : imap nvalue) : outcome (imap nvalue) :=
  match p with
  | Pair (Rprop_key_pairs | Rframing_metadata) _ ps => insert_kvs ps acc
  | Pair Rlang t _ => Ok (imap_insert "lang" (VVal t) acc)
  | Pair Ralias t _ => Ok (imap_insert "target" (VRef (RName t)) acc)
  | Pair Rsaid t _ => Ok (if said_ok t then imap_insert "target" (VRef (RSaid t)) acc else acc)
  | _ => Ok acc
  end.
Lemma props_fold l : forall acc, content_props said_ok l acc = ofold props_item l acc.
Proof. induction l as [|[r t i] l IH]; intros acc; [done|]. destruct r; cbn [content_props ofold props_item obind]; try apply IH; destruct (insert_kvs i acc); cbn [obind]; try done; apply IH. Qed.
Lemma content_parts p ct : extract_content said_ok p = Ok ct -> exists ats ps, ct = Content (Some ats) (Some ps) /\
  ofold attrs_item (p_inner p) [] = Ok ats /\ ofold props_item (p_inner p) [] = Ok ps.
Proof.
  unfold extract_content. rewrite props_fold. intros E. apply obind_done in E as (ps & Ep & E). rewrite attrs_fold in E. apply obind_done in E as (ats & Ea & E). injection E as <-. eauto.
Qed.
(** The tokens below a content: noise, tables, a language, a target. *)
Lemma attrs_form T l ats : In T table_rules -> T <> Rprop_key_pairs -> T <> Rframing_metadata ->
  (forall p, p ∈ l -> W p /\ Quiet (p_text p) /\ In (p_rule p) [T; Rcomment; Rempty_line; Rlang; Rsaid; Ralias; Rframing_metadata; Rprop_key_pairs]) ->
  ofold attrs_item l [] = Ok ats -> map_form (table_key T) (value_form (table_pair T)) ats.
Proof.
  intros HT N1 N2 H. apply ofold_inv; [|apply empty_form]. intros [r t i] b b' Hp Hb E. destruct (H _ Hp) as (Hw & Hq & Hr). cbn [p_rule p_text In] in *.
  destruct Hr as [<-|Hr].
  - eapply table_form; [exact Hw|exact HT|exact Hq| |exact Hb]. unfold table_rules in HT. cases HT; cbn [attrs_item] in E; done.
  - cases Hr; cbn [attrs_item] in E; by injection E as <-.
Qed.
Lemma attrs_none l ats : (forall p, p ∈ l -> In (p_rule p) [Rcomment; Rempty_line; Rlang; Rsaid; Ralias; Rframing_metadata; Rprop_key_pairs]) -> ofold attrs_item l [] = Ok ats -> ats = [].
Proof.
  intros H. apply (ofold_inv attrs_item (fun x => x = [])); [|done]. intros [r t i] b b' Hp Hb E. pose proof (H _ Hp) as Hr. cases Hr; cbn [attrs_item] in E; by injection E as <-.
Qed.
Lemma props_none l ps : (forall p, p ∈ l -> In (p_rule p) [Rcomment; Rempty_line; Rattr_key_pairs; Rattr_entry_code_key_pairs; Rattr_entry_key_pairs; Runit_attr_key_pairs; Rattr_framing_key_pairs]) ->
  ofold props_item l [] = Ok ps -> ps = [].
Proof.
  intros H. apply (ofold_inv props_item (fun x => x = [])); [|done]. intros [r t i] b b' Hp Hb E. pose proof (H _ Hp) as Hr. cases Hr; cbn [props_item] in E; by injection E as <-.
Qed.
Lemma props_lang l ps : (forall p, p ∈ l -> W p /\ In (p_rule p) [Rlang; Rcomment; Rempty_line; Rattr_key_pairs; Rattr_entry_key_pairs]) -> (exists p, p ∈ l /\ p_rule p = Rlang) ->
  ofold props_item l [] = Ok ps -> exists t, ps = [("lang", VVal t)] /\ lang_text_ok t.
Proof.
  intros H (p & Hp & Ep) E.
  assert (A : ps <> []).
  { revert E. apply (ofold_est props_item (fun x => x <> [])).
    - exists p. split; [done|]. intros b b' E. destruct p as [r t i]. cbn [p_rule] in Ep. subst r. cbn [props_item] in E. injection E as <-.
      destruct b as [|[k v] b]; cbn [imap_insert]; [done|]. by destruct (String.eqb "lang" k).
    - intros [r t i] b b' Hx Hb E. destruct (H _ Hx) as [_ Hr]. cases Hr; cbn [props_item] in E; try (by injection E as <-). injection E as <-.
      destruct b as [|[k v] b]; cbn [imap_insert]; [done|]. by destruct (String.eqb "lang" k). }
  assert (B : ps = [] \/ exists t, ps = [("lang", VVal t)] /\ lang_text_ok t); [|by destruct B].
  clear A. revert E. apply (ofold_inv props_item (fun ps => ps = [] \/ exists t, ps = [("lang", VVal t)] /\ lang_text_ok t)); [|by left].
  intros [r t i] b b' Hx Hb E. destruct (H _ Hx) as [Hw Hr]. cases Hr; cbn [props_item] in E; try (by injection E as <-). injection E as <-.
  right. apply lang_token_text in Hw. exists t. split; [|done]. by destruct Hb as [-> | (t' & -> & _)].
Qed.
Lemma props_target l ps : (forall p, p ∈ l -> In (p_rule p) [Rsaid; Ralias; Rcomment; Rempty_line; Rattr_key_pairs]) ->
  ofold props_item l [] = Ok ps -> ps = [] \/ exists r, ps = [("target", VRef r)] /\ ref_form said_ok r.
Proof.
  intros H. apply (ofold_inv props_item (fun ps => ps = [] \/ exists r, ps = [("target", VRef r)] /\ ref_form said_ok r)); [|by left].
  intros [r t i] b b' Hx Hb E. pose proof (H _ Hx) as Hr. cases Hr; cbn [props_item] in E; try (by injection E as <-); injection E as <-.
  - destruct (said_ok t) eqn:Es; [|done]. right. exists (RSaid t). split; [|done]. by destruct Hb as [-> | (r' & -> & _)].
  - right. exists (RName t). split; [|done]. by destruct Hb as [-> | (r' & -> & _)].
Qed.
Lemma lang_name : name_ok "lang".
Proof. by split. Qed.
Lemma props_table T l ps : T = Rprop_key_pairs \/ T = Rframing_metadata ->
  (forall p, p ∈ l -> W p /\ Quiet (p_text p) /\ In (p_rule p) [T; Rcomment; Rempty_line; Rattr_framing_key_pairs]) ->
  ofold props_item l [] = Ok ps -> map_form (table_key T) plain_form ps.
Proof.
  intros HT H. apply ofold_inv; [|apply empty_form]. intros [r t i] b b' Hp Hb E. destruct (H _ Hp) as (Hw & Hq & Hr). cbn [p_rule p_text In] in *.
  destruct Hr as [<-|Hr]; [|cases Hr; cbn [props_item] in E; by injection E as <-].
  assert (HT' : In T table_rules) by (destruct HT as [-> | ->]; unfold table_rules; cbn [In]; tauto).
  assert (EV : value_form (table_pair T) = plain_form) by (by destruct HT as [-> | ->]).
  rewrite <- EV in *. eapply table_form; [exact Hw|exact HT'|exact Hq| |exact Hb]. destruct HT as [-> | ->]; exact E.
Qed.
Lemma props_meta l ps : (forall p, p ∈ l -> W p /\ Quiet (p_text p) /\ In (p_rule p) [Rlang; Rcomment; Rempty_line; Rprop_key_pairs]) -> (exists p, p ∈ l /\ p_rule p = Rlang) ->
  ofold props_item l [] = Ok ps -> map_form (key_form cont) plain_form ps /\ exists t, imap_get "lang" ps = Some (VVal t).
Proof.
  intros H (p & Hp & Ep) E.
  assert (F : map_form (key_form cont) plain_form ps).
  { revert E. apply ofold_inv; [|apply empty_form]. intros [r t i] b b' Hx Hb E. destruct (H _ Hx) as (Hw & Hq & Hr). cases Hr; cbn [props_item] in E; try (by injection E as <-).
    - injection E as <-. apply insert_form; [done|left; apply lang_name|by eexists].
    - apply (table_form Rprop_key_pairs t i b b' Hw); [unfold table_rules; cbn [In]; tauto|exact Hq|exact E|exact Hb]. }
  split; [done|]. assert (G : is_Some (imap_get "lang" ps)).
  { revert E. apply (ofold_est props_item (fun ps => is_Some (imap_get "lang" ps))).
    - exists p. split; [done|]. intros b b' E. destruct p as [r t i]. cbn [p_rule] in Ep. subst r. cbn [props_item] in E. injection E as <-. rewrite get_insert. by eexists.
    - intros [r t i] b b' Hx Hb E. destruct (H _ Hx) as (_ & _ & Hr). cases Hr; cbn [props_item] in E; try (by injection E as <-).
      + injection E as <-. rewrite get_insert. by eexists.
      + clear -Hb E. revert b Hb E. induction i as [|q i IH]; intros b Hb E; cbn [insert_kvs] in E; [by injection E as <-|]. apply obind_done in E as (kv & _ & E).
        apply (IH (imap_insert kv.1 kv.2 b)); [|done]. rewrite get_insert. by destruct (String.eqb "lang" kv.1). }
  destruct G as [v Hv]. destruct F as [_ F]. assert (M : ("lang", v) ∈ ps).
  { clear -Hv. induction ps as [|[k w] ps IH]; cbn [imap_get] in Hv; [done|]. destruct (String.eqb_spec "lang" k) as [<-|]; [injection Hv as ->; apply elem_of_list_here|].
    apply elem_of_list_further. by apply IH. }
  rewrite Forall_forall in F. destruct (F _ M) as [_ [t Et]]. cbn in Et. subst v. by exists t.
Qed.

Lemma quiet_in p q : W p -> Quiet (p_text p) -> q ∈ p_inner p -> W q /\ Quiet (p_text q).
Proof.
  intros Hw Hq Hi. split; [by eapply inner_w|]. intros Hc. eapply clean_within; [|by apply Hq]. by apply (inner_within wide p).
Qed.
Ltac pick Hk Hp := let Hr := fresh "Hr" in pose proof (kin _ _ _ Hk Hp) as Hr; cases Hr; cbn [In p_rule]; tauto.
Lemma overlay_form r c ts k ct : W (Pair r c ts) -> Quiet c -> overlay_rule r = Some k -> extract_content said_ok (Pair r c ts) = Ok ct ->
  readable cont said_ok (Command CAdd (OOverlay (OType k "1.1") ct)).
Proof.
  intros Hw Hq Hk0 E. apply content_parts in E as (ats & ps & -> & Ea & Ep). cbn [p_inner] in Ea, Ep. change (readable cont said_ok (add_overlay_command k ats ps)).
  assert (Hin : forall p, p ∈ ts -> W p /\ Quiet (p_text p)) by (intros p Hp; by apply (quiet_in (Pair r c ts))).
  assert (TT : forall T, In T [Rattr_key_pairs; Runit_attr_key_pairs; Rattr_entry_code_key_pairs; Rattr_entry_key_pairs; Rattr_framing_key_pairs] -> In T table_rules /\ T <> Rprop_key_pairs /\ T <> Rframing_metadata).
  { intros T HT. cases HT; (split; [unfold table_rules; cbn [In]; tauto|]); split; discriminate. }
  assert (A : forall T l, Forall (fun p : spair => In (p_rule p) l) ts -> (forall r, In r l -> In r [T; Rcomment; Rempty_line; Rlang; Rsaid; Ralias; Rframing_metadata; Rprop_key_pairs]) ->
    In T [Rattr_key_pairs; Runit_attr_key_pairs; Rattr_entry_code_key_pairs; Rattr_entry_key_pairs; Rattr_framing_key_pairs] -> map_form (table_key T) (value_form (table_pair T)) ats).
  { intros T l Hl Hsub HT. destruct (TT T HT) as (H1 & H2 & H3). apply (attrs_form T ts ats H1 H2 H3); [|exact Ea]. intros p Hp. destruct (Hin p Hp) as [X Y]. split; [done|]. split; [done|].
    apply Hsub. by apply (kin ts). }
  assert (P0 : forall l, Forall (fun p : spair => In (p_rule p) l) ts -> (forall r, In r l -> In r [Rcomment; Rempty_line; Rattr_key_pairs; Rattr_entry_code_key_pairs; Rattr_entry_key_pairs; Runit_attr_key_pairs; Rattr_framing_key_pairs]) -> ps = []).
  { intros l Hl Hsub. apply (props_none ts ps); [|exact Ep]. intros p Hp. apply Hsub. by apply (kin ts). }
  assert (PL : forall l, Forall (fun p : spair => In (p_rule p) l) ts -> (forall r, In r l -> In r [Rlang; Rcomment; Rempty_line; Rattr_key_pairs; Rattr_entry_key_pairs]) ->
    (exists p, p ∈ ts /\ p_rule p = Rlang) -> exists t, ps = [("lang", VVal t)] /\ lang_text_ok t).
  { intros l Hl Hsub Hm. apply (props_lang ts ps); [|exact Hm|exact Ep]. intros p Hp. split; [by apply Hin|]. apply Hsub. by apply (kin ts). }
  destruct r; try done; injection Hk0 as <-; kids Hw.
  - (* label *) destruct (PL _ Hk) as (t & -> & Ht); [intros r Hr; cases Hr; cbn [In]; tauto|apply (Forall_inv Hm)|].
    apply rd_language; [by left| |done]. apply (A Rattr_key_pairs _ Hk); [intros r Hr; cases Hr; cbn [In]; tauto|cbn [In]; tauto].
  - (* meta *) assert (Z : ats = []).
    { apply (attrs_none ts ats); [|exact Ea]. intros p Hp. destruct p as [rp tp ip]. pick Hk Hp. }
    destruct (props_meta ts ps) as [F [t Ht]]; [|apply (Forall_inv Hm)|exact Ep|]. { intros p Hp. destruct (Hin p Hp). split; [done|]. split; [done|]. destruct p as [rp tp ip]. pick Hk Hp. }
    rewrite Z. by eapply rd_meta.
  - (* information *) destruct (PL _ Hk) as (t & -> & Ht); [intros r Hr; cases Hr; cbn [In]; tauto|apply (Forall_inv Hm)|].
    apply rd_language; [by right| |done]. apply (A Rattr_key_pairs _ Hk); [intros r Hr; cases Hr; cbn [In]; tauto|cbn [In]; tauto].
  - rewrite (P0 _ Hk) by (intros r Hr; cases Hr; cbn [In]; tauto). apply rd_plain; [set_solver|]. apply (A Rattr_key_pairs _ Hk); [intros r Hr; cases Hr; cbn [In]; tauto|cbn [In]; tauto].
  - (* character_encoding_props *) assert (Z : ats = []).
    { apply (attrs_none ts ats); [|exact Ea]. intros p Hp. destruct p as [rp tp ip]. pick Hk Hp. }
    rewrite Z. apply rd_encoding_props. apply (props_table Rprop_key_pairs ts ps); [by left| |exact Ep].
    intros p Hp. destruct (Hin p Hp). split; [done|]. split; [done|]. destruct p as [rp tp ip]. pick Hk Hp.
  - rewrite (P0 _ Hk) by (intros r Hr; cases Hr; cbn [In]; tauto). apply rd_plain; [set_solver|]. apply (A Rattr_key_pairs _ Hk); [intros r Hr; cases Hr; cbn [In]; tauto|cbn [In]; tauto].
  - rewrite (P0 _ Hk) by (intros r Hr; cases Hr; cbn [In]; tauto). apply rd_plain; [set_solver|]. apply (A Rattr_key_pairs _ Hk); [intros r Hr; cases Hr; cbn [In]; tauto|cbn [In]; tauto].
  - rewrite (P0 _ Hk) by (intros r Hr; cases Hr; cbn [In]; tauto). apply rd_plain; [set_solver|]. apply (A Rattr_key_pairs _ Hk); [intros r Hr; cases Hr; cbn [In]; tauto|cbn [In]; tauto].
  - rewrite (P0 _ Hk) by (intros r Hr; cases Hr; cbn [In]; tauto). apply rd_plain; [set_solver|]. apply (A Rattr_key_pairs _ Hk); [intros r Hr; cases Hr; cbn [In]; tauto|cbn [In]; tauto].
  - (* entry_code *) rewrite (P0 _ Hk) by (intros r Hr; cases Hr; cbn [In]; tauto). apply rd_codes. apply (A Rattr_entry_code_key_pairs _ Hk); [intros r Hr; cases Hr; cbn [In]; tauto|cbn [In]; tauto].
  - (* entry *) destruct (PL _ Hk) as (t & -> & Ht); [intros r Hr; cases Hr; cbn [In]; tauto|apply (Forall_inv Hm)|].
    apply rd_entry; [|done]. apply (A Rattr_entry_key_pairs _ Hk); [intros r Hr; cases Hr; cbn [In]; tauto|cbn [In]; tauto].
  - (* unit *) rewrite (P0 _ Hk) by (intros r Hr; cases Hr; cbn [In]; tauto). apply rd_plain; [set_solver|]. apply (A Runit_attr_key_pairs _ Hk); [intros r Hr; cases Hr; cbn [In]; tauto|cbn [In]; tauto].
  - (* link *) assert (F : map_form (key_form cont) plain_form ats) by (apply (A Rattr_key_pairs _ Hk); [intros r Hr; cases Hr; cbn [In]; tauto|cbn [In]; tauto]).
    destruct (props_target ts ps) as [-> | (x & -> & Hx)]; [|exact Ep|by apply rd_link_invalid|by apply rd_link]. intros p Hp. destruct p as [rp tp ip]. pick Hk Hp.
  - (* framing *) apply rd_framing.
    + apply (A Rattr_framing_key_pairs _ Hk); [intros r Hr; cases Hr; cbn [In]; tauto|cbn [In]; tauto].
    + apply (props_table Rframing_metadata ts ps); [by right| |exact Ep]. intros p Hp. destruct (Hin p Hp). split; [done|]. split; [done|]. destruct p as [rp tp ip]. pick Hk Hp.
Qed.

(** ** ADD ATTRIBUTE *)
Lemma attr_type_form p : forall t, extract_attr_type said_ok p = Ok t -> type_form said_ok t.
Proof.
  induction p as [r c l IH] using pair_ind2. intros t E. destruct r; cbn [extract_attr_type] in E; try done.
  - destruct (attr_type_parse c); [|done]. injection E as <-. constructor.
  - destruct l as [|q l]; [done|]. apply obind_done in E as (u & Eu & E). injection E as <-. constructor. by apply (Forall_inv IH).
  - injection E as <-. constructor.
  - destruct (said_ok c) eqn:Es; [|done]. injection E as <-. by constructor.
Qed.
Definition attr_item (p : spair) (kv : string * nattr) : outcome (string * nattr) :=
  match p with
  | Pair Rattr_key x _ => Ok (x, kv.2)
  | Pair R_attr_type _ [] => Err ["Missing attribute type"]
  | Pair R_attr_type _ (i :: _) => let! t' := extract_attr_type said_ok i in Ok (kv.1, t')
  | _ => Err ["Unexpected pest rule"]
  end.
Lemma attr_fold l : forall k t, attribute_items said_ok l k t = ofold attr_item l (k, t).
Proof.
  induction l as [|[r c i] l IH]; intros k t; [done|]. destruct r; cbn [attribute_items ofold attr_item obind fst snd]; try done; try apply IH.
  destruct i as [|i is]; [done|]. destruct (extract_attr_type said_ok i); cbn [obind]; [apply IH|done|done].
Qed.
Lemma attribute_form r c ts kv : W (Pair r c ts) -> In r [Rattr_pair; Rcomment; Rempty_line] -> (r <> Rattr_pair -> cont = true) ->
  extract_attribute said_ok (Pair r c ts) = Ok kv -> key_form cont kv.1 /\ type_form said_ok kv.2.
Proof.
  intros H Hr Hn E. unfold extract_attribute in E. cbn [p_inner] in E. rewrite attr_fold in E. split.
  - cases Hr.
    + left. kids H. apply Forall_inv in Hm as (p & Hp & Er). revert E. apply (ofold_est attr_item (fun kv => name_ok kv.1)).
      * exists p. split; [done|]. intros b b' E. destruct p as [rp tp ip]. cbn [p_rule] in Er. subst rp. cbn [attr_item] in E. injection E as <-. cbn [fst].
        apply (attr_key_text wide tp ip), (inner_w _ _ _ H Hp).
      * intros [rx tx ix] b b' Hx Hb E. pose proof (inner_w _ _ _ H Hx) as Wx. pose proof (kin _ _ _ Hk Hx) as Hr'. cases Hr'; cbn [attr_item] in E.
        -- injection E as <-. cbn [fst]. by apply (attr_key_text wide tx ix).
        -- destruct ix as [|i ix]; [done|]. apply obind_done in E as (t & _ & E). by injection E as <-.
    + right. split; [by apply Hn|]. kids H. destruct ts as [|q ts]; [by injection E as <-|]. inversion Hk as [|? ? Hq _]; subst. destruct Hq.
    + right. split; [by apply Hn|]. kids H. destruct ts as [|q ts]; [by injection E as <-|]. inversion Hk as [|? ? Hq _]; subst. destruct Hq.
  - revert E. apply (ofold_inv attr_item (fun kv => type_form said_ok kv.2)); [|constructor].
    intros [rx tx ix] b b' Hx Hb E. destruct rx; cbn [attr_item] in E; try done; try (by injection E as <-).
    destruct ix as [|i ix]; [done|]. apply obind_done in E as (t & Et & E). injection E as <-. by eapply attr_type_form.
Qed.
Lemma insert_attrs_form c ts : W (Pair Rattr_pairs c ts) -> Quiet c -> forall acc m, map_form (key_form cont) (type_form said_ok) acc -> insert_attrs said_ok ts acc = Ok m ->
  map_form (key_form cont) (type_form said_ok) m.
Proof.
  intros H Hq.
  assert (A : forall p kv, p ∈ ts -> extract_attribute said_ok p = Ok kv -> key_form cont kv.1 /\ type_form said_ok kv.2).
  { intros [r t i] kv Hp. pose proof (inner_w _ _ _ H Hp) as Wp. apply attribute_form; [done| |].
    - kids H. pose proof (kin _ _ _ Hk Hp) as Hr. cases Hr; cbn [In]; tauto.
    - intros Hne. destruct cont; [done|]. specialize (Hq eq_refl). kids_clean H Hq. pose proof (kin _ _ _ Hk Hp) as Hr. cases Hr; done. }
  clear H Hq. induction ts as [|p ts IH]; intros acc m Ha E; cbn [insert_attrs] in E; [by injection E as <-|]. apply obind_done in E as (kv & Ek & E).
  destruct (A p kv ltac:(apply elem_of_list_here) Ek) as [Hk Ht]. apply (IH (fun q kv Hq => A q kv (elem_of_list_further _ _ _ Hq)) _ _ (insert_form _ _ _ _ _ Ha Hk Ht) E).
Qed.
Lemma attributes_form l : Forall (fun p => W p /\ Quiet (p_text p)) l -> forall acc m, map_form (key_form cont) (type_form said_ok) acc -> attribute_pairs said_ok l acc = Ok m ->
  map_form (key_form cont) (type_form said_ok) m.
Proof.
  induction 1 as [|[r t i] l [Hw Hq] Hl IH]; intros acc m Ha E; [cbn in E; by injection E as <-|]. destruct r; cbn [attribute_pairs] in E; try done.
  apply obind_done in E as (a & Ea & E). apply (IH a); [|done]. by eapply (insert_attrs_form t i).
Qed.

(** ** ADD *)
Definition found (k : cmd_type) (o : option obj_kind) : Prop := match o with Some o => readable cont said_ok (Command k o) | None => True end.
Lemma add_form l : Forall (fun p => W p /\ Quiet (p_text p)) l -> forall o o', found CAdd o -> add_objects said_ok l o = Ok o' -> found CAdd o'.
Proof.
  induction 1 as [|p l [Hw Hq] Hl IH]; intros o o' Ho E; [cbn in E; by injection E as <-|].
  assert (Over : forall k, overlay_rule (p_rule p) = Some k -> (let! c := extract_content said_ok p in add_objects said_ok l (Some (OOverlay (OType k "1.1") c))) = Ok o' -> found CAdd o').
  { intros k Hk E'. apply obind_done in E' as (ct & Ec & E'). eapply IH; [|exact E']. destruct p as [r t i]. by eapply overlay_form. }
  destruct p as [r t i]. destruct r; cbn [add_objects overlay_rule] in E; try done; try (by eapply Over); try (by eapply IH).
  - eapply IH; [|exact E]. apply rd_flagged.
  - destruct i as [|q i]; [done|]. eapply IH; [|exact E]. apply rd_classification.
  - apply obind_done in E as (m & Em & E). eapply IH; [|exact E]. apply rd_attributes. revert Em. apply attributes_form; [|apply empty_form].
    apply Forall_forall. intros q Hqi. by apply (quiet_in (Pair Rattribute t i)).
Qed.

(** ** REMOVE *)
Lemma first_lang r c ts name x : g1 wide r = (Normal, PSeq (PLitI name) (PSeq g_arg_ws (PSeq (PRul Rlang) x))) -> W (Pair r c ts) ->
  exists p ts', ts = p :: ts' /\ In (p_rule p) [Rlang; Rcomment; Rempty_line].
Proof.
  intros Hg H. inversion H as [r' m b s c' ts' rest Hg' He Hw Hi]; subst. rewrite Hg in Hg'. injection Hg' as <- <-. cbn [rinside] in He.
  apply ev_seq_inv in He as (c1 & t1 & r1 & c2 & t2 & H1 & H2 & -> & ->). apply ev_seq_inv in H2 as (c3 & t3 & r3 & c4 & t4 & H3 & H4 & -> & ->).
  apply ev_seq_inv in H4 as (c5 & t5 & r5 & c6 & t6 & H5 & H6 & -> & ->). assert (t1 = []) as -> by (inversion H1; done). cbn [app].
  destruct (emit_sound _ no_forb _ _ _ _ H3 6 _ _ _ _ eq_refl ltac:(vm_compute; reflexivity) (clean_none _)) as (_ & F3 & _).
  destruct (emit_sound _ no_forb _ _ _ _ H5 6 _ _ _ _ eq_refl ltac:(vm_compute; reflexivity) (clean_none _)) as (N5 & F5 & _).
  destruct t3 as [|p t3].
  - destruct t5 as [|p t5]; [by destruct (N5 eq_refl)|]. exists p, (t5 ++ t6). split; [done|]. apply Forall_inv in F5. cbn [In] in *. tauto.
  - exists p, (t3 ++ t5 ++ t6). split; [done|]. apply Forall_inv in F3. cbn [In] in *. tauto.
Qed.
Lemma no_leading f r c ts name x : g1 wide r = (Normal, PSeq (PLitI name) (PSeq g_arg_ws (PSeq (PRul Rlang) x))) -> W (Pair r c ts) ->
  f Rlang = false -> f Rcomment = false -> f Rempty_line = false -> leading_keys f ts [] = [].
Proof.
  intros Hg H H1 H2 H3. destruct (first_lang _ _ _ _ _ Hg H) as (p & ts' & -> & Hp). cbn [leading_keys]. cbn [In] in Hp.
  destruct Hp as [Hp|[Hp|[Hp|Hp]]]; [..|done]; rewrite <- Hp; [rewrite H1|rewrite H2|rewrite H3]; done.
Qed.
Lemma remove_form l : Forall (fun p => W p /\ Quiet (p_text p)) l -> forall o o', found CRemove o -> remove_objects l o = Ok o' -> found CRemove o'.
Proof.
  induction 1 as [|[r t i] l [Hw Hq] Hl IH]; intros o o' Ho E; [cbn in E; by injection E as <-|].
  destruct r; cbn [remove_objects] in E; try done; (eapply IH; [|exact E]).
  - apply rd_unclassify.
  - apply rd_remove. cbn [p_text] in Hq.
    assert (A : forall q, q ∈ i -> name_ok (p_text q) \/ cont = true).
    { intros [rq tq iq] Hi. pose proof (inner_w _ _ _ Hw Hi) as Wi. destruct cont; [by right|]. specialize (Hq eq_refl). kids_clean Hw Hq.
      pose proof (kin _ _ _ Hk Hi) as Hr. cases Hr. left. by apply (attr_key_text wide tq iq). }
    assert (B : forall i acc, (forall q : spair, q ∈ i -> name_ok (p_text q) \/ cont = true) -> map_form (fun k => name_ok k \/ cont = true) (fun v => v = NNull) acc ->
      map_form (fun k => name_ok k \/ cont = true) (fun v => v = NNull) (fold_left (fun acc k => imap_insert (p_text k) NNull acc) i acc)).
    { clear. induction i as [|q i IH]; intros acc A Ha; [done|]. cbn [fold_left]. apply IH; [intros q' Hq'; apply A; by apply elem_of_list_further|].
      apply insert_form; [done|apply A; apply elem_of_list_here|done]. }
    apply B; [done|apply empty_form].
  - rewrite (no_leading is_prop_key Rremove_meta t i _ _ eq_refl Hw) by done. apply rd_remove_meta.
  - rewrite (no_leading is_attr_key Rremove_label t i _ _ eq_refl Hw) by done. rewrite (no_leading is_prop_key Rremove_label t i _ _ eq_refl Hw) by done. apply rd_remove_label.
Qed.

(** ** The instructions, the lines, the file *)
Lemma instruction_form p cmd : W p -> Quiet (p_text p) -> instruction said_ok p = Ok cmd -> readable cont said_ok cmd.
Proof.
  intros Hw Hq E. assert (F : Forall (fun q => W q /\ Quiet (p_text q)) (p_inner p)).
  { apply Forall_forall. intros q Hi. by apply (quiet_in p). }
  unfold instruction in E. destruct (p_rule p); try done.
  - unfold from_instruction in E. apply obind_done in E as (o & _ & E). destruct o as [t|]; [|done]. destruct (said_ok t) eqn:Es; [|done]. injection E as <-. by apply rd_from.
  - unfold add_instruction in E. apply obind_done in E as (o & Eo & E). destruct o as [o|]; [|done]. injection E as <-. by apply (add_form _ F None (Some o)).
  - unfold remove_instruction in E. apply obind_done in E as (o & Eo & E). destruct o as [o|]; [|done]. injection E as <-. by apply (remove_form _ F None (Some o)).
Qed.
Lemma meta_key_form p kv : W p -> p_rule p = Rmeta_comment -> meta_line p = Ok kv -> kv.1 ∈ ["name"; "version"; "precompiler"] /\ kv.2 <> "".
Proof.
  destruct p as [r c ts]. cbn [p_rule]. intros Hw ->. unfold meta_line. cbn [p_inner]. intros E. apply obind_done in E as (kv' & Ei & E).
  assert (K : kv'.1 = "" \/ kv'.1 ∈ ["name"; "version"; "precompiler"]).
  { assert (G : forall l k v kv, Forall W l -> (k = "" \/ k ∈ ["name"; "version"; "precompiler"]) -> meta_items l k v = Ok kv -> kv.1 = "" \/ kv.1 ∈ ["name"; "version"; "precompiler"]).
    { clear. induction l as [|[r t i] l IH]; intros k v kv F Hk E; [cbn in E; by injection E as <-|]. inversion F as [|? ? Hw F']; subst.
      destruct r; cbn [meta_items] in E; try done; (eapply IH; [exact F'| |exact E]); [|done]. right. by eapply meta_key_text. }
    eapply G; [apply (wft_inner _ _ Hw)|by left|exact Ei]. }
  destruct (String.eqb_spec kv'.1 ""); [done|]. destruct (String.eqb_spec kv'.2 ""); [done|]. injection E as <-. split; [|done]. by destruct K.
Qed.
Lemma lines_form l : Forall (fun p => W p /\ Quiet (p_text p)) l -> forall n a a', read_lines said_ok n l a = Ok a' ->
  Forall (readable cont said_ok) (ast_commands a) -> metadata_form (ast_meta a) -> Forall (readable cont said_ok) (ast_commands a') /\ metadata_form (ast_meta a').
Proof.
  induction 1 as [|p l [Hw Hq] Hl IH]; intros n a a' E Hc Hm; [cbn in E; by injection E as <-|].
  assert (Cmd : (let! c := instruction said_ok p in let! _ := ast_validate a c in read_lines said_ok (S n) l (push_command a c (CmdMeta (S n) (p_text p)))) = Ok a' ->
    Forall (readable cont said_ok) (ast_commands a') /\ metadata_form (ast_meta a')).
  { intros E'. apply obind_done in E' as (c & Ec & E'). apply obind_done in E' as (u & _ & E'). apply (IH _ _ _ E'); [|done].
    apply Forall_app. split; [done|]. apply Forall_singleton. by eapply instruction_form. }
  cbn [read_lines] in E. destruct (p_rule p) eqn:Er; try (by apply Cmd); try (by apply (IH _ _ _ E)).
  apply obind_done in E as (kv & Ek & E). apply (IH _ _ _ E); [done|]. cbn [ast_meta]. intros k v. destruct (meta_key_form p kv Hw Er Ek) as [K1 K2].
  rewrite lookup_insert_Some. intros [[<- <-]|[_ H]]; [done|by apply Hm].
Qed.
End Forms.

Lemma has_backslash_clean s : has_backslash s = false -> clean bsl s.
Proof. unfold has_backslash, clean. intros H. apply negb_false_iff in H. exact H. Qed.
Lemma file_form wide said_ok s a : parse_ocafile wide said_ok s = Ok a -> Forall (readable (has_backslash s) said_ok) (ast_commands a) /\ metadata_form (ast_meta a).
Proof.
  unfold parse_ocafile. destruct (sparse wide Rfile s) as [| |c ts rest] eqn:E; try done.
  assert (V : ev (g1 wide) false (PRul Rfile) s (Some (c, ts, rest))).
  { destruct (sparse_unfold wide Rfile s) as (n & _ & En). rewrite En in E. apply ev_g1, (run_ev _ n). by rewrite E. }
  pose proof (ev_split _ _ _ _ _ _ _ V) as Hs. destruct (ev_wft _ _ _ _ _ V _ _ _ eq_refl) as [Hw Hin]. destruct ts as [|f ts]; [done|].
  intros H. inversion Hw as [|? ? Hf _]; subst. inversion Hin as [|? ? Hif _]; subst.
  eapply (lines_form wide (has_backslash (c +:+ rest)) said_ok); [|exact H|by constructor|intros k v; cbn; rewrite lookup_empty; done].
  apply Forall_forall. intros p Hp. split; [by eapply inner_w|]. intros Hb. apply has_backslash_clean in Hb. eapply clean_within; [|exact Hb].
  eapply within_trans; [by eapply inner_within|]. by apply within_l.
Qed.
