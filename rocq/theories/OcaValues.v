(** Entry codes, entries, attribute types and languages as the generator writes them. *)
From Coq Require Import Lia.
From Verif Require Export OcaItems.
From Verif Require Import Condition_proofs.

Section OcaValues.
Variable wide : ascii -> bool.
Variable said_ok : string -> bool.
Local Notation sg := (sgrammar wide).
Local Notation takes := (takes sg).
Local Notation rejects := (rejects sg).

(** ** Lists with commas *)
Definition commas (l : list (string * spair)) : string := cat_map (fun x => (", " +:+ x.1)%string) l.
Lemma commas_cons x l : commas (x :: l) = (", " +:+ x.1 +:+ commas l)%string.
Proof. unfold commas, cat_map. cbn [map]. destruct l as [|y l]; cbn [map String.concat]; [by rewrite !append_nil_r|]. rewrite append_assoc. reflexivity. Qed.
Lemma concat_commas x l : String.concat ", " (map fst (x :: l)) = (x.1 +:+ commas l)%string.
Proof.
  revert x. induction l as [|y l IH]; intros x; [unfold commas, cat_map; cbn; by rewrite append_nil_r|].
  change (String.concat ", " (map fst (x :: y :: l))) with (x.1 +:+ ", " +:+ String.concat ", " (map fst (y :: l)))%string.
  rewrite IH, commas_cons. reflexivity.
Qed.
Definition starts_text (t : string) : Prop := exists c t', t = String c t' /\ is_c " " c = false.
Lemma t_space1 at_ t r : starts_text t -> takes at_ g_spaces " " [] (t +:+ r).
Proof.
  intros (c & t' & -> & H). apply (t_star sg at_ _ " " "" [] []); [apply t_lit|]. apply t_star0. cbn. by apply r_lit1.
Qed.
Lemma t_space0 at_ t r : starts_text t -> takes at_ g_spaces "" [] (t +:+ r).
Proof. intros (c & t' & -> & H). apply t_star0. by apply r_lit1. Qed.
Definition celt_ok (p : pe srule) (x : string * spair) : Prop := starts_text x.1 /\ forall r, takes false p x.1 [x.2] r.
Lemma t_commas p l r : Forall (celt_ok p) l -> rejects false (PLit ",") r ->
  takes false (PStar (PSeq (PLit ",") (PSeq g_spaces p))) (commas l) (map snd l) r.
Proof.
  intros H Hr. induction H as [|x l [Hx Ht] Hl IH]; [apply t_star0; by apply r_seq1|]. rewrite commas_cons.
  eapply t_conv; [eapply (t_star sg false _ (", " +:+ x.1) (commas l) [x.2] (map snd l)); [|exact IH]|by rewrite append_assoc|done].
  apply (t_seq sg false _ _ "," (" " +:+ x.1) [] _); [apply t_lit|]. apply (t_seq sg false _ _ " " x.1 [] _); [by apply t_space1|apply Ht].
Qed.

(** ** ["a", "b"] *)
Definition sq (v : string) : string := (Q +:+ v +:+ Q)%string.
Definition list_text (l : list string) : string := ("[" +:+ String.concat ", " (map sq l) +:+ "]")%string.
Definition list_tok (l : list string) : spair := Pair Rentry_code_list (list_text l) (map string_tok l).
Lemma sq_elt v : quotable v = true -> celt_ok (PRul Rstring) (sq v, string_tok v).
Proof. intros H. split; [by exists DQ, (v +:+ Q)|intros r; by apply t_string]. Qed.
Lemma map_sq l : map sq l = map fst (map (fun v => (sq v, string_tok v)) l).
Proof. by rewrite map_map. Qed.
Lemma t_list l r : Forall (fun v => quotable v = true) l -> takes false (PRul Rentry_code_list) (list_text l) [list_tok l] r.
Proof.
  intros H. eapply t_conv; [eapply t_rul; [reflexivity|]|reflexivity|reflexivity]. destruct l as [|v l].
  - apply t_alt1. apply (t_run wide 10). reflexivity.
  - apply t_alt2.
    + unfold list_text. cbn [map String.concat]. apply (r_seq2 sg false _ _ "[" [] _); [apply t_lit|]. destruct l; by apply r_lit1.
    + inversion H as [|? ? Hv Hl]; subst. unfold list_text. rewrite map_sq. change (map (fun v => (sq v, string_tok v)) (v :: l)) with ((sq v, string_tok v) :: map (fun v => (sq v, string_tok v)) l). rewrite concat_commas. cbn [fst].
      apply (t_seq sg false _ _ "[" _ [] _); [apply t_lit|]. rewrite append_assoc.
      apply (t_seq sg false _ _ (sq v) _ [_] _); [by apply t_string|].
      eapply t_conv; [eapply (t_seq sg false _ _ (commas (map (fun v => (sq v, string_tok v)) l)) "]" (map snd (map (fun v => (sq v, string_tok v)) l)) [])|reflexivity|].
      * apply t_commas; [|by apply r_lit1]. apply Forall_map. eapply Forall_impl; [exact Hl|]. intros w Hw. by apply sq_elt.
      * apply t_lit.
      * rewrite app_nil_r, map_map. reflexivity.
Qed.

(** ** {"g": ...} *)
(** The shape shared by [entry_code_object] and [entry_object]. *)
Definition g_braces (p : pe srule) : pe srule :=
  PAlt (PSeq (PLit "{") (PLit "}")) (PSeq (PLit "{") (PSeq g_spaces (PSeq p (PSeq (PStar (PSeq (PLit ",") (PSeq g_spaces p))) (PSeq g_spaces (PLit "}")))))).
Definition braces (l : list string) : string := ("{" +:+ String.concat ", " l +:+ "}")%string.
Lemma t_braces p l r : Forall (celt_ok p) l -> Forall (fun x => forall c t, x.1 = String c t -> is_c "}" c = false) l ->
  takes false (g_braces p) (braces (map fst l)) (map snd l) r.
Proof.
  intros H Hb. destruct l as [|x l].
  - apply t_alt1. apply (t_run wide 10). reflexivity.
  - inversion H as [|? ? [Hx Ht] Hl]; subst. inversion Hb as [|? ? Hbx _]; subst. apply t_alt2; unfold braces; rewrite concat_commas.
    + apply (r_seq2 sg false _ _ "{" [] _); [apply t_lit|]. destruct Hx as (c & t & E & _). specialize (Hbx c t E). rewrite E. by apply r_lit1.
    + apply (t_seq sg false _ _ "{" _ [] _); [apply t_lit|]. rewrite append_assoc. apply (t_seq0 sg false _ _ _ [] _); [rewrite append_assoc; by apply t_space0|].
      apply (t_seq sg false _ _ x.1 _ [_] _); [apply Ht|].
      eapply t_conv; [eapply (t_seq sg false _ _ (commas l) "}" (map snd l) [])|reflexivity|by rewrite app_nil_r].
      * apply t_commas; [done|]. by apply r_lit1.
      * apply (t_seq0 sg false _ _ _ [] _); [|apply t_lit]. apply t_star0. by apply r_lit1.
Qed.
(** [key: value] of an object, without and with the rule. *)
Definition colon (k v : string) : string := (sq k +:+ ": " +:+ v)%string.
Definition key_tok (r : srule) (k : string) : spair := Pair r (sq k) [string_tok k].
Lemma t_colon rk p k v tv r : sg rk = (Compound, PRul Rstring) -> quotable k = true -> starts_text v -> (forall r, takes false p v tv r) ->
  takes false (PSeq (PRul rk) (PSeq (PLit ":") (PSeq g_spaces p))) (colon k v) (key_tok rk k :: tv) r.
Proof.
  intros Hr Hk Hv Ht. apply (t_seq sg false _ _ (sq k) _ [_] _).
  - eapply t_conv; [eapply t_rul; [exact Hr|by apply t_string]|reflexivity|reflexivity].
  - apply (t_seq sg false _ _ ":" (" " +:+ v) [] _); [apply t_lit|]. apply (t_seq sg false _ _ " " v [] _); [by apply t_space1|done].
Qed.

(** Entry code groups. *)
Definition group_text (g : string * list string) : string := colon g.1 (list_text g.2).
Definition group_tok (g : string * list string) : spair := Pair Rentry_code_key_value_pair (group_text g) [key_tok Rentry_code_group_key g.1; list_tok g.2].
Definition group_ok (g : string * list string) : Prop := quotable g.1 = true /\ Forall (fun v => quotable v = true) g.2.
Lemma group_elt g : group_ok g -> celt_ok (PRul Rentry_code_key_value_pair) (group_text g, group_tok g).
Proof.
  intros [H1 H2]. split; [by eexists DQ, _|]. intros r. eapply t_conv; [eapply t_rul; [reflexivity|]|reflexivity|reflexivity].
  apply t_colon; [reflexivity|done|by eexists _, _|]. intros r'. by apply t_list.
Qed.
Definition groups_text (l : list (string * list string)) : string := braces (map group_text l).
Definition groups_tok (l : list (string * list string)) : spair := Pair Rentry_code_object (groups_text l) (map group_tok l).
Lemma t_groups l r : Forall group_ok l -> takes false (PRul Rentry_code_object) (groups_text l) [groups_tok l] r.
Proof.
  intros H. eapply t_conv; [eapply t_rul; [reflexivity|]| |].
  - apply (t_braces _ (map (fun g => (group_text g, group_tok g)) l) r); apply Forall_map; (eapply Forall_impl; [exact H|]).
    + intros g Hg. by apply group_elt.
    + intros g Hg c t E. cbn in E. by injection E as <- _.
  - unfold groups_text. by rewrite map_map.
  - unfold groups_tok, groups_text. cbn. by rewrite !map_map.
Qed.
(** Entries of an object. *)
Definition entry1_text (g : string * string) : string := colon g.1 (sq g.2).
Definition entry1_tok (g : string * string) : spair := Pair Rentry_key_value_pair (entry1_text g) [key_tok Rentry_key g.1; key_tok Rentry_value g.2].
Definition entry1_ok (g : string * string) : Prop := quotable g.1 = true /\ quotable g.2 = true.
Lemma entry1_elt g : entry1_ok g -> celt_ok (PRul Rentry_key_value_pair) (entry1_text g, entry1_tok g).
Proof.
  intros [H1 H2]. split; [by eexists DQ, _|]. intros r. eapply t_conv; [eapply t_rul; [reflexivity|]|reflexivity|reflexivity].
  apply t_colon; [reflexivity|done|by eexists _, _|]. intros r'. eapply t_conv; [eapply t_rul; [reflexivity|]|reflexivity|reflexivity]. by apply t_string.
Qed.
Definition entries_text (l : list (string * string)) : string := braces (map entry1_text l).
Definition entries_tok (l : list (string * string)) : spair := Pair Rentry_object (entries_text l) (map entry1_tok l).
Lemma t_entries l r : Forall entry1_ok l -> takes false (PRul Rentry_object) (entries_text l) [entries_tok l] r.
Proof.
  intros H. eapply t_conv; [eapply t_rul; [reflexivity|]| |].
  - apply (t_braces _ (map (fun g => (entry1_text g, entry1_tok g)) l) r); apply Forall_map; (eapply Forall_impl; [exact H|]).
    + intros g Hg. by apply entry1_elt.
    + intros g Hg c t E. cbn in E. by injection E as <- _.
  - unfold entries_text. by rewrite map_map.
  - unfold entries_tok, entries_text. cbn. by rewrite !map_map.
Qed.

(** An entry code value and its pair. *)
Inductive code_value := CVText (s : string) | CVList (l : list string) | CVGroups (l : list (string * list string)).
Definition code_ok (v : code_value) : Prop :=
  match v with CVText s => quotable s = true | CVList l => Forall (fun v => quotable v = true) l | CVGroups l => Forall group_ok l end.
Definition cv_text (v : code_value) : string := match v with CVText s => sq s | CVList l => list_text l | CVGroups l => groups_text l end.
Definition cv_tok (v : code_value) : spair :=
  Pair Rentry_code_key_value (cv_text v) [match v with CVText s => value_tok Rkey_value s | CVList l => list_tok l | CVGroups l => groups_tok l end].
Lemma t_code_value v r : code_ok v -> takes false (PRul Rentry_code_key_value) (cv_text v) [cv_tok v] r.
Proof.
  intros H. eapply t_conv; [eapply t_rul; [reflexivity|]|reflexivity|reflexivity]. destruct v as [s|l|l]; cbn [code_ok cv_text PAlts] in *.
  - apply t_alt1. by apply t_key_value.
  - apply t_alt2; [by apply (r_run sg 20)|]. apply t_alt1. by apply t_list.
  - apply t_alt2; [by apply (r_run sg 20)|]. apply t_alt2; [by apply (r_run sg 20)|]. by apply t_groups.
Qed.
Definition code_pair_text (k : string) (v : code_value) : string := (k +:+ "=" +:+ cv_text v)%string.
Definition code_pair_tok (k : string) (v : code_value) : spair := Pair Rentry_code_key_pair (code_pair_text k v) [Pair Rattr_key k []; cv_tok v].
Lemma t_code_pair k v r : name_ok k -> code_ok v -> takes false (PRul Rentry_code_key_pair) (code_pair_text k v) [code_pair_tok k v] r.
Proof.
  intros Hk Hv. eapply t_conv; [eapply t_rul; [reflexivity|]|reflexivity|reflexivity].
  apply (t_seq sg false _ _ k _ [_] _); [by apply t_attr_key|]. apply (t_seq sg false _ _ "=" _ [] _); [apply t_lit|by apply t_code_value].
Qed.
(** An entry value and its pair. *)
Inductive entry_value := EVText (s : string) | EVEntries (l : list (string * string)).
Definition entry_ok (v : entry_value) : Prop := match v with EVText s => quotable s = true | EVEntries l => Forall entry1_ok l end.
Definition ev_text (v : entry_value) : string := match v with EVText s => sq s | EVEntries l => entries_text l end.
Definition ev_tok (v : entry_value) : spair :=
  Pair Rentry_key_value (ev_text v) [match v with EVText s => value_tok Rkey_value s | EVEntries l => entries_tok l end].
Lemma t_entry_value v r : entry_ok v -> takes false (PRul Rentry_key_value) (ev_text v) [ev_tok v] r.
Proof.
  intros H. eapply t_conv; [eapply t_rul; [reflexivity|]|reflexivity|reflexivity]. destruct v as [s|l]; cbn [entry_ok ev_text PAlts] in *.
  - apply t_alt1. by apply t_key_value.
  - apply t_alt2; [by apply (r_run sg 20)|]. by apply t_entries.
Qed.
Definition entry_pair_text (k : string) (v : entry_value) : string := (k +:+ "=" +:+ ev_text v)%string.
Definition entry_pair_tok (k : string) (v : entry_value) : spair := Pair Rentry_key_pair (entry_pair_text k v) [Pair Rattr_key k []; ev_tok v].
Lemma t_entry_pair k v r : name_ok k -> entry_ok v -> takes false (PRul Rentry_key_pair) (entry_pair_text k v) [entry_pair_tok k v] r.
Proof.
  intros Hk Hv. eapply t_conv; [eapply t_rul; [reflexivity|]|reflexivity|reflexivity].
  apply (t_seq sg false _ _ k _ [_] _); [by apply t_attr_key|]. apply (t_seq sg false _ _ "=" _ [] _); [apply t_lit|by apply t_entry_value].
Qed.

(** ** Attribute types *)
Fixpoint ty_text (t : nattr) : string :=
  match t with NRef (RSaid s) => "refs:" +:+ s | NVal a => attr_type_name a | NArr u => "Array[" +:+ ty_text u +:+ "]" | _ => "" end%string.
Fixpoint ty_tok (t : nattr) : spair :=
  match t with
  | NRef (RSaid s) => Pair Rsaid s []
  | NVal a => Pair Rbase_attr_type (attr_type_name a) []
  | NArr u => Pair Rarray_attr_type (ty_text t) [ty_tok u]
  | _ => Pair Rbase_attr_type "" []
  end.
Lemma type_text_ty t : type_ok wide said_ok t -> type_text t = Some (ty_text t).
Proof. induction 1; cbn; [done|done|]. by rewrite IHtype_ok. Qed.
Lemma t_base a r : takes false (PRul Rbase_attr_type) (attr_type_name a) [ty_tok (NVal a)] r.
Proof. destruct a; apply (t_run wide 20); reflexivity. Qed.
Lemma t_said s r : word_ok wide s -> stops (char_c wide) r -> takes false g_ref_said ("refs:" +:+ s) [Pair Rsaid s []] r.
Proof.
  intros H Hr. apply (t_seq sg false _ _ "refs:" s [] _); [by apply t_liti|]. eapply t_conv; [eapply t_rul; [reflexivity|]|reflexivity|reflexivity].
  eapply t_conv; [by apply t_chars|reflexivity|reflexivity].
Qed.
Lemma t_array t r : type_ok wide said_ok t -> takes false (PRul Rarray_attr_type) (ty_text (NArr t)) [ty_tok (NArr t)] r.
Proof.
  intros H. revert r. induction H as [a|s Hs Hok|t Ht IH]; intros r;
    (eapply t_conv; [eapply t_rul; [reflexivity|]|reflexivity|reflexivity]); cbn [ty_text];
    (apply (t_seq sg false _ _ "Array[" _ [] _); [apply t_lit|]).
  - apply (t_seq0 sg false _ _ _ [] _); [apply t_opt0, r_aws; by destruct a|].
    apply (t_seq sg false _ _ (attr_type_name a) _ [ty_tok (NVal a)] _); [apply t_alt1, t_base|].
    apply (t_seq0 sg false _ _ _ [] _); [by apply t_opt0, r_aws|apply t_lit].
  - apply (t_seq0 sg false _ _ _ [] _); [by apply t_opt0, r_aws|].
    apply (t_seq sg false _ _ ("refs:" +:+ s) _ [Pair Rsaid s []] _); [apply t_alt2; [by apply (r_run sg 20)|]; apply t_alt1, t_alt1; by apply t_said|].
    apply (t_seq0 sg false _ _ _ [] _); [by apply t_opt0, r_aws|apply t_lit].
  - apply (t_seq0 sg false _ _ _ [] _); [by apply t_opt0, r_aws|].
    apply (t_seq sg false _ _ (ty_text (NArr t)) _ [ty_tok (NArr t)] _).
    + apply t_alt2; [by apply (r_run sg 20)|]. apply t_alt2; [by apply (r_run sg 20)|]. apply IH.
    + apply (t_seq0 sg false _ _ _ [] _); [by apply t_opt0, r_aws|apply t_lit].
Qed.
Lemma t_type at_ t r : type_ok wide said_ok t -> stops (char_c wide) r -> takes at_ (PRul R_attr_type) (ty_text t) [Pair R_attr_type (ty_text t) [ty_tok t]] r.
Proof.
  intros H Hr. eapply t_conv; [eapply t_rul; [reflexivity|]|reflexivity|reflexivity]. destruct H as [a|s Hs Hok|t Ht]; cbn [rinside PAlts].
  - apply t_alt1, t_base.
  - apply t_alt2; [by apply (r_run sg 20)|]. apply t_alt2; [by apply (r_run sg 20)|]. apply t_alt1. by apply t_said.
  - apply t_alt2; [by apply (r_run sg 20)|]. apply t_alt1. by apply t_array.
Qed.
Definition attr_text (k : string) (t : nattr) : string := (k +:+ "=" +:+ ty_text t)%string.
Definition attr_tok (k : string) (t : nattr) : spair := Pair Rattr_pair (attr_text k t) [Pair Rattr_key k []; Pair R_attr_type (ty_text t) [ty_tok t]].
Lemma ty_starts t r : type_ok wide said_ok t -> stops aws_c (ty_text t +:+ r).
Proof. destruct 1 as [[] | |]; done. Qed.
Lemma t_attr k t r : name_ok k -> type_ok wide said_ok t -> stops (char_c wide) r -> takes false (PRul Rattr_pair) (attr_text k t) [attr_tok k t] r.
Proof.
  intros Hk Ht Hr. eapply t_conv; [eapply t_rul; [reflexivity|]|reflexivity|reflexivity].
  apply (t_eq wide true _ _ k (ty_text t) [_] [_]); [by apply ty_starts|by apply t_attr_key|by apply t_type].
Qed.
Definition attrs_line (l : imap nattr) : string := cat_map (fun kt => (" " +:+ attr_text kt.1 kt.2)%string) l.
Lemma cat_cons {A} (f : A -> string) x l : cat_map f (x :: l) = (f x +:+ cat_map f l)%string.
Proof. unfold cat_map. cbn [map]. destruct l; cbn [map String.concat]; [by rewrite append_nil_r|]. reflexivity. Qed.
Lemma name_starts k r : name_ok k -> stops aws_c (k +:+ r).
Proof.
  intros [H1 H2]. destruct k as [|c k]; [done|]. cbn [all_chars] in H2. apply andb_prop in H2 as [H2 _]. cbn [append stops].
  clear -H2. destruct c as [[] [] [] [] [] [] [] []]; vm_compute in *; done.
Qed.
Lemma t_attrs0 l r : Forall (fun kt => name_ok kt.1 /\ type_ok wide said_ok kt.2) l -> stops (char_c wide) r -> stops aws_c r ->
  takes false (PStar (PSeq g_arg_ws (PRul Rattr_pair))) (attrs_line l) (map (fun kt => attr_tok kt.1 kt.2) l) r.
Proof.
  intros H Hc Hr. induction H as [|[k t] l [Hk Ht] Hl IH]; [apply t_star0; by apply r_seq1, r_aws|].
  unfold attrs_line. rewrite cat_cons. fold (attrs_line l).
  eapply t_conv; [eapply (t_star sg false _ (" " +:+ attr_text k t) (attrs_line l) [_] _); [|exact IH]|reflexivity|reflexivity].
  apply (t_seq sg false _ _ " " (attr_text k t) [] _).
  - apply t_aws; [done|done|]. unfold attr_text. rewrite append_assoc. by apply name_starts.
  - apply t_attr; [done|done|]. destruct l as [|x l]; [done|]. unfold attrs_line. by rewrite cat_cons.
Qed.
Lemma t_attr_pairs l r : l <> [] -> Forall (fun kt => name_ok kt.1 /\ type_ok wide said_ok kt.2) l -> stops (char_c wide) r -> stops aws_c r ->
  takes false (PRul Rattr_pairs) (attrs_line l) [Pair Rattr_pairs (attrs_line l) (map (fun kt => attr_tok kt.1 kt.2) l)] r.
Proof.
  intros Hn H Hc Hr. eapply t_conv; [eapply t_rul; [reflexivity|]|reflexivity|reflexivity].
  apply t_plus; [by apply t_attrs0|]. destruct l as [|x l]; [done|]. unfold attrs_line. by rewrite cat_cons.
Qed.

(** ** Languages *)
Lemma t_lang at_ l r : lang_text_ok l -> stops (is_c "-") r -> takes at_ (PRul Rlang) l [Pair Rlang l []] r.
Proof.
  intros (a & b & Ha & Hb & H) Hr. eapply t_conv; [eapply t_rul; [reflexivity|]|reflexivity|reflexivity].
  assert (Two : forall x y s, alpha_c x = true -> alpha_c y = true -> takes false (PRep 2 (PCls alpha_c)) (String x (String y "")) [] s).
  { intros x y s Hx Hy. apply (t_seq sg false _ _ (String x "") (String y "") [] []); by apply t_cls. }
  destruct H as [->|(c & d & Hc & Hd & ->)].
  - eapply t_conv; [eapply (t_seq sg false _ _ (String a (String b "")) "" [] []); [by apply Two|]|done|done].
    apply t_opt0. apply r_seq1. destruct r as [|x r]; [by apply ev_lit_no|]. by apply r_lit1.
  - eapply t_conv; [eapply (t_seq sg false _ _ (String a (String b "")) (String "-" (String c (String d ""))) [] []); [by apply Two|]|done|done].
    apply t_opt. apply (t_seq sg false _ _ "-" (String c (String d "")) [] []); [apply t_lit|by apply Two].
Qed.
End OcaValues.
