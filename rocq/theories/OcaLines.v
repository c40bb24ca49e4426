(** Each printable command: its line, how the grammar takes it, what the reader makes of it. *)
From Coq Require Import Lia.
From Verif Require Export OcaValues.
From Verif Require Import Condition_proofs Bundle_proofs.

Section OcaLines.
Variable wide : ascii -> bool.
Variable said_ok : string -> bool.
Local Notation sg := (sgrammar wide).
Local Notation takes := (takes sg).
Local Notation rejects := (rejects sg).

(** ** What the reader extracts *)
Lemma insert_kvs_fresh toks : forall l acc, Forall2 (fun t kv => extract_kv t = Ok kv) toks l -> NoDup (map fst acc ++ map fst l) ->
  insert_kvs toks acc = Ok (acc ++ l).
Proof.
  induction toks as [|t toks IH]; intros l acc H Hn; inversion H as [|? kv ? l' Ht Hl]; subst; [by rewrite app_nil_r|].
  cbn [insert_kvs]. rewrite Ht. cbn [obind]. rewrite imap_insert_fresh.
  - rewrite (IH l'); [rewrite <- app_assoc; by destruct kv|done|]. cbn [map] in Hn. rewrite map_app. cbn [map]. rewrite <- app_assoc. exact Hn.
  - cbn [map] in Hn. intros Hin. apply NoDup_app in Hn as (_ & Hn & _). apply (Hn kv.1 Hin). by left.
Qed.
Lemma insert_attrs_fresh toks : forall l acc, Forall2 (fun t kv => extract_attribute said_ok t = Ok kv) toks l -> NoDup (map fst acc ++ map fst l) ->
  insert_attrs said_ok toks acc = Ok (acc ++ l).
Proof.
  induction toks as [|t toks IH]; intros l acc H Hn; inversion H as [|? kv ? l' Ht Hl]; subst; [by rewrite app_nil_r|].
  cbn [insert_attrs]. rewrite Ht. cbn [obind]. rewrite imap_insert_fresh.
  - rewrite (IH l'); [rewrite <- app_assoc; by destruct kv|done|]. cbn [map] in Hn. rewrite map_app. cbn [map]. rewrite <- app_assoc. exact Hn.
  - cbn [map] in Hn. intros Hin. apply NoDup_app in Hn as (_ & Hn & _). apply (Hn kv.1 Hin). by left.
Qed.
Lemma extract_type t : type_ok wide said_ok t -> extract_attr_type said_ok (ty_tok t) = Ok t.
Proof. induction 1 as [a|s Hs Hok|t Ht IH]; [by destruct a|cbn; by rewrite Hok|]. cbn [ty_tok extract_attr_type]. by rewrite IH. Qed.
Lemma extract_attr_tok k t : type_ok wide said_ok t -> extract_attribute said_ok (attr_tok k t) = Ok (k, t).
Proof. intros H. unfold extract_attribute, attr_tok. cbn [p_inner attribute_items]. by rewrite extract_type. Qed.
Lemma extract_plain k v : extract_kv (kv_tok Rkey_pair Rkey_value k v) = Ok (k, VVal v).
Proof. reflexivity. Qed.
Lemma extract_unit k v : extract_kv (kv_tok Runit_key_pair Runit_value k v) = Ok (k, VVal v).
Proof. reflexivity. Qed.
Lemma code_list_strings l : code_list (map string_tok l) = Ok (map VVal l).
Proof. induction l as [|v l IH]; [done|]. cbn [map code_list p_rule string_tok]. cbn [quoted p_inner last p_text obind]. by rewrite IH. Qed.
Lemma code_elems k t1 t2 t3 els :
  extract_kv (Pair Rentry_code_key_pair t1 [Pair Rattr_key k []; Pair Rentry_code_key_value t2 [Pair Rentry_code_object t3 els]]) = (let! m := insert_kvs els [] in Ok (k, VObj m)).
Proof.
  cbn. match goal with |- obind (?f els []) _ = _ => assert (E : forall els acc, f els acc = insert_kvs els acc) end; [|by rewrite E].
  clear. induction els as [|e els IH]; intros acc; [done|]. cbn [insert_kvs]. destruct (extract_kv e); cbn [obind]; [|done|done]. apply IH.
Qed.
Lemma entry_elems k t1 t2 t3 els :
  extract_kv (Pair Rentry_key_pair t1 [Pair Rattr_key k []; Pair Rentry_key_value t2 [Pair Rentry_object t3 els]]) = (let! m := insert_kvs els [] in Ok (k, VObj m)).
Proof.
  cbn. match goal with |- obind (?f els []) _ = _ => assert (E : forall els acc, f els acc = insert_kvs els acc) end; [|by rewrite E].
  clear. induction els as [|e els IH]; intros acc; [done|]. cbn [insert_kvs]. destruct (extract_kv e); cbn [obind]; [|done|done]. apply IH.
Qed.
Definition cv_val (v : code_value) : nvalue :=
  match v with CVText s => VVal s | CVList l => VArr (map VVal l) | CVGroups l => VObj (map (fun g => (g.1, VArr (map VVal g.2))) l) end.
Definition cv_fine (v : code_value) : Prop := match v with CVGroups l => NoDup (map fst l) | _ => True end.
Lemma extract_code k v : cv_fine v -> extract_kv (code_pair_tok k v) = Ok (k, cv_val v).
Proof.
  intros H. destruct v as [s|l|l]; [reflexivity| |].
  - cbn. by rewrite code_list_strings.
  - unfold code_pair_tok, cv_tok, groups_tok. rewrite code_elems. rewrite (insert_kvs_fresh _ (map (fun g => (g.1, VArr (map VVal g.2))) l)); [done| |].
    + apply Forall2_fmap_l, Forall2_fmap_r, Forall_Forall2_diag, Forall_true. intros [g l']. cbn. by rewrite code_list_strings.
    + cbn [map app]. rewrite map_map. exact H.
Qed.
Definition ev_val (v : entry_value) : nvalue := match v with EVText s => VVal s | EVEntries l => VObj (map (fun g => (g.1, VVal g.2)) l) end.
Definition ev_fine (v : entry_value) : Prop := match v with EVEntries l => NoDup (map fst l) | _ => True end.
Lemma extract_entry k v : ev_fine v -> extract_kv (entry_pair_tok k v) = Ok (k, ev_val v).
Proof.
  intros H. destruct v as [s|l]; [reflexivity|].
  unfold entry_pair_tok, ev_tok, entries_tok. rewrite entry_elems. rewrite (insert_kvs_fresh _ (map (fun g => (g.1, VVal g.2)) l)); [done| |].
  - apply Forall2_fmap_l, Forall2_fmap_r, Forall_Forall2_diag, Forall_true. intros [g l']. reflexivity.
  - cbn [map app]. rewrite map_map. exact H.
Qed.

(** ** Tables: a non-empty list of items behind "ATTRS" or "PROPS" *)
Definition ends (r : string) : Prop := exists s, r = (NL +:+ s)%string.
Lemma ends_aws r : ends r -> stops aws_c r. Proof. by intros [s ->]. Qed.
(** The items of a table, in order, and their pairs. *)
Record table (rp : srule) (m : imap nvalue) (l : list item) : Prop := Table {
  tb_read : Forall2 (fun i kv => extract_kv (it_tok i) = Ok kv) l m;
  tb_ok : Forall (item_ok wide (PRul rp)) l;
  tb_text : Forall (fun i => it_text i <> "") l;
  tb_end : forall r, ends r -> rejects false (PRul rp) r
}.
Lemma t_table rp m l key rs r : table rp m l -> sg rs = (Compound, g_spaced (PRul rp)) -> l <> [] -> it_sep (hd (Item "" "" (Pair REOI "" [])) l) <> "" \/ key <> "" ->
  all_chars ws_c key = true -> ends r ->
  takes false (PSeq g_arg_ws (PRul rs)) (key +:+ items_text l)
    [Pair rs (match l with i :: l' => it_text i +:+ items_text l' | [] => "" end) (map it_tok l)] r.
Proof.
  intros [_ Ho Ht He] Hrs Hl Hsep Hk Hr. destruct l as [|i l]; [done|]. inversion Ho as [|? ? Hi Hl']; subst. inversion Ht as [|? ? Hti _]; subst.
  pose proof Hi as (Hi1 & Hi2 & Hi3). rewrite items_cons, <- append_assoc.
  apply (t_seq sg false _ _ (key +:+ it_sep i) _ [] _).
  - apply t_aws; [| |rewrite append_assoc; apply Hi2].
    + cbn in Hsep. destruct key; [destruct Hsep as [Hs|?]; [|done]; by destruct (it_sep i)|done].
    + clear -Hk Hi1. induction key as [|c key IH]; [done|]. cbn in *. apply andb_prop in Hk as [-> Hk]. by apply IH.
  - eapply t_conv; [eapply t_rul; [exact Hrs|]|reflexivity|reflexivity]. apply t_spaced; [done|done|done|by apply ends_aws|by apply He].
Qed.
Lemma insert_table rp m l : table rp m l -> NoDup (map fst m) -> insert_kvs (map it_tok l) [] = Ok m.
Proof. intros [H _ _ _] Hn. rewrite (insert_kvs_fresh _ m []); [done| |done]. by apply Forall2_fmap_l. Qed.

Lemma r_end_pair (rp : srule) r : (exists b, sg rp = (Atomic, PSeq (PRul Rattr_key) b) \/ sg rp = (Compound, PSeq (PRul Rattr_key) b)) -> ends r -> rejects false (PRul rp) r.
Proof.
  intros (b & H) [s ->]. assert (rejects (rinside Atomic false) (PRul Rattr_key) (NL +:+ s)) by (by apply (r_run sg 10)).
  assert (rejects (rinside Compound false) (PRul Rattr_key) (NL +:+ s)) by (by apply (r_run sg 10)).
  destruct H as [H|H]; (eapply r_rul; [exact H|]); by apply r_seq1.
Qed.

(** Plain tables. *)
Definition plain_items (rp rv : srule) (l : imap string) : list item := map (fun kv => Item " " (pair_text kv.1 kv.2) (kv_tok rp rv kv.1 kv.2)) l.
Definition plain_map (l : imap string) : imap nvalue := map (fun kv => (kv.1, VVal kv.2)) l.
Lemma plain_table_of (m : imap nvalue) : Forall (fun kv => name_ok kv.1 /\ plain_ok kv.2) m ->
  exists l, m = plain_map l /\ Forall (fun kv => name_ok kv.1 /\ quotable kv.2 = true) l.
Proof.
  induction 1 as [|[k v] m [Hk (s & E & Hs)] Hm (l & -> & Hl)]; [by exists []|]. cbn in E. subst. exists ((k, s) :: l). split; [done|]. by constructor.
Qed.
Lemma plain_text l : cat_map kv_quoted (plain_map l) = items_text (plain_items Rkey_pair Rkey_value l).
Proof. unfold plain_map, plain_items. induction l as [|[k v] l IH]; [done|]. cbn [map]. rewrite cat_cons, items_cons, IH. cbn [kv_quoted it_sep it_text snd fst]. unfold pair_text. rewrite !append_assoc. reflexivity. Qed.
Lemma unit_text l : cat_map kv_quoted (plain_map l) = items_text (plain_items Runit_key_pair Runit_value l).
Proof. unfold plain_map, plain_items. induction l as [|[k v] l IH]; [done|]. cbn [map]. rewrite cat_cons, items_cons, IH. cbn [kv_quoted it_sep it_text snd fst]. unfold pair_text. rewrite !append_assoc. reflexivity. Qed.
Lemma pair_text_starts k v r : name_ok k -> stops aws_c (pair_text k v +:+ r).
Proof. intros H. unfold pair_text. rewrite append_assoc. by apply name_starts. Qed.
Lemma pair_text_some k v : pair_text k v <> "".
Proof. unfold pair_text. by destruct k. Qed.
Lemma plain_table l : Forall (fun kv => name_ok kv.1 /\ quotable kv.2 = true) l -> table Rkey_pair (plain_map l) (plain_items Rkey_pair Rkey_value l).
Proof.
  intros H. split.
  - apply Forall2_fmap_l, Forall2_fmap_r, Forall_Forall2_diag, Forall_true. by intros [].
  - apply Forall_map. eapply Forall_impl; [exact H|]. intros [k v] [Hk Hv]. split; [done|]. split; [intros r; by apply pair_text_starts|]. intros r. by apply t_key_pair.
  - apply Forall_map, Forall_true. intros [k v]. apply pair_text_some.
  - intros r Hr. apply r_end_pair; [|done]. eexists. left. reflexivity.
Qed.
Lemma unit_table l : Forall (fun kv => name_ok kv.1 /\ quotable kv.2 = true) l -> table Runit_key_pair (plain_map l) (plain_items Runit_key_pair Runit_value l).
Proof.
  intros H. split.
  - apply Forall2_fmap_l, Forall2_fmap_r, Forall_Forall2_diag, Forall_true. by intros [].
  - apply Forall_map. eapply Forall_impl; [exact H|]. intros [k v] [Hk Hv]. split; [done|]. split; [intros r; by apply pair_text_starts|]. intros r. by apply t_unit_pair.
  - apply Forall_map, Forall_true. intros [k v]. apply pair_text_some.
  - intros r Hr. apply r_end_pair; [|done]. eexists. left. reflexivity.
Qed.
(** Entry codes. *)
Definition code_items (l : list (string * code_value)) : list item := map (fun kv => Item " " (code_pair_text kv.1 kv.2) (code_pair_tok kv.1 kv.2)) l.
Definition code_map (l : list (string * code_value)) : imap nvalue := map (fun kv => (kv.1, cv_val kv.2)) l.
Lemma plain_strings l : Forall plain_ok l -> exists ss, l = map VVal ss /\ Forall (fun v => quotable v = true) ss.
Proof. induction 1 as [|v l (s & -> & Hs) Hl (ss & -> & Hss)]; [by exists []|]. exists (s :: ss). split; [done|by constructor]. Qed.
Lemma codes_value v : codes_ok v -> exists c, v = cv_val c /\ code_ok c /\ cv_fine c.
Proof.
  intros [(s & -> & Hs)|[(l & -> & Hl)|(m & -> & Hn & Hm)]]; [by exists (CVText s)| |].
  - destruct (plain_strings _ Hl) as (ss & -> & Hss). by exists (CVList ss).
  - assert (E : exists gs, m = map (fun g => (g.1, VArr (map VVal g.2))) gs /\ Forall group_ok gs).
    { clear Hn. induction Hm as [|[g v] m [Hg (l & E & Hl)] Hm (gs & -> & Hgs)]; [by exists []|]. cbn in E. subst.
      destruct (plain_strings _ Hl) as (ss & -> & Hss). exists ((g, ss) :: gs). split; [done|by constructor]. }
    destruct E as (gs & -> & Hgs). exists (CVGroups gs). split; [done|]. split; [done|]. cbn. by rewrite map_map in Hn.
Qed.
Lemma codes_of (m : imap nvalue) : Forall (fun kv => name_ok kv.1 /\ codes_ok kv.2) m ->
  exists l, m = code_map l /\ Forall (fun kv => name_ok kv.1 /\ code_ok kv.2 /\ cv_fine kv.2) l.
Proof.
  induction 1 as [|[k v] m [Hk Hv] Hm (l & -> & Hl)]; [by exists []|]. cbn in Hv. destruct (codes_value v Hv) as (c & -> & Hc1 & Hc2).
  exists ((k, c) :: l). split; [done|]. by constructor.
Qed.
Lemma quote_all_strings l : quote_all (map VVal l) = String.concat ", " (map sq l).
Proof. unfold quote_all. f_equal. induction l as [|s l IH]; [done|]. cbn. by rewrite <- IH. Qed.
Lemma code_text_is k c : code_text (k, cv_val c) = (" " +:+ code_pair_text k c)%string.
Proof.
  destruct c as [s|l|l]; unfold code_text, code_pair_text; cbn [cv_val snd fst cv_text]; [done| |].
  - rewrite quote_all_strings. unfold list_text. rewrite ?append_assoc. reflexivity.
  - match goal with |- context [omap ?f ?x] => assert (E : omap f x = map group_text l) end; [|rewrite E; reflexivity].
    induction l as [|[g ss] l IH]; [done|]. cbn [map omap list_omap]. cbn [fst snd]. rewrite quote_all_strings. f_equal; [|exact IH].
    unfold group_text, colon, list_text, sq. cbn [fst snd]. rewrite !append_assoc. reflexivity.
Qed.
Lemma codes_text l : cat_map code_text (code_map l) = items_text (code_items l).
Proof. unfold code_map, code_items. induction l as [|[k v] l IH]; [done|]. cbn [map]. rewrite cat_cons, items_cons, IH. cbn [fst snd]. rewrite code_text_is. cbn [it_sep it_text]. rewrite !append_assoc. reflexivity. Qed.
Lemma code_table l : Forall (fun kv => name_ok kv.1 /\ code_ok kv.2 /\ cv_fine kv.2) l -> table Rentry_code_key_pair (code_map l) (code_items l).
Proof.
  intros H. split.
  - apply Forall2_fmap_l, Forall2_fmap_r, Forall_Forall2_diag. eapply Forall_impl; [exact H|]. intros [k v] (_ & _ & Hv). by apply extract_code.
  - apply Forall_map. eapply Forall_impl; [exact H|]. intros [k v] [Hk [Hv _]]. split; [done|]. split.
    + intros r. cbn [it_text]. unfold code_pair_text. rewrite append_assoc. by apply name_starts.
    + intros r. by apply t_code_pair.
  - apply Forall_map, Forall_true. intros [[] v]; done.
  - intros r Hr. apply r_end_pair; [|done]. eexists. right. reflexivity.
Qed.
(** Entries. *)
Definition entry_sep (v : entry_value) : string := match v with EVText _ => " " | EVEntries _ => "" end.
Definition entry_items (l : list (string * entry_value)) : list item := map (fun kv => Item (entry_sep kv.2) (entry_pair_text kv.1 kv.2) (entry_pair_tok kv.1 kv.2)) l.
Definition entry_map (l : list (string * entry_value)) : imap nvalue := map (fun kv => (kv.1, ev_val kv.2)) l.
Lemma entries_value v : entries_ok v -> exists c, v = ev_val c /\ entry_ok c /\ ev_fine c.
Proof.
  intros [(s & -> & Hs)|(m & -> & Hn & Hm)]; [by exists (EVText s)|].
  assert (E : exists gs, m = map (fun g => (g.1, VVal g.2)) gs /\ Forall entry1_ok gs).
  { clear Hn. induction Hm as [|[g v] m [Hg (s & E & Hs)] Hm (gs & -> & Hgs)]; [by exists []|]. cbn in E. subst.
    exists ((g, s) :: gs). split; [done|by constructor]. }
  destruct E as (gs & -> & Hgs). exists (EVEntries gs). split; [done|]. split; [done|]. cbn. by rewrite map_map in Hn.
Qed.
Lemma entries_of (m : imap nvalue) : Forall (fun kv => name_ok kv.1 /\ entries_ok kv.2) m ->
  exists l, m = entry_map l /\ Forall (fun kv => name_ok kv.1 /\ entry_ok kv.2 /\ ev_fine kv.2) l.
Proof.
  induction 1 as [|[k v] m [Hk Hv] Hm (l & -> & Hl)]; [by exists []|]. cbn in Hv. destruct (entries_value v Hv) as (c & -> & Hc1 & Hc2).
  exists ((k, c) :: l). split; [done|]. by constructor.
Qed.
Lemma entry_text_is k c : entry_text (k, ev_val c) = (entry_sep c +:+ entry_pair_text k c)%string.
Proof.
  destruct c as [s|l]; unfold entry_text, entry_pair_text; cbn [ev_val snd fst ev_text entry_sep]; [done|].
  match goal with |- context [omap ?f ?x] => assert (E : omap f x = map entry1_text l) end; [|rewrite E; reflexivity].
  induction l as [|[g ss] l IH]; [done|]. cbn [map omap list_omap]. cbn [fst snd]. f_equal; [|exact IH].
  unfold entry1_text, colon, sq. cbn [fst snd]. rewrite !append_assoc. reflexivity.
Qed.
Lemma entries_text_is l : cat_map entry_text (entry_map l) = items_text (entry_items l).
Proof. unfold entry_map, entry_items. induction l as [|[k v] l IH]; [done|]. cbn [map]. rewrite cat_cons, items_cons, IH. cbn [fst snd]. rewrite entry_text_is. cbn [it_sep it_text]. rewrite !append_assoc. reflexivity. Qed.
Lemma entry_table l : Forall (fun kv => name_ok kv.1 /\ entry_ok kv.2 /\ ev_fine kv.2) l -> table Rentry_key_pair (entry_map l) (entry_items l).
Proof.
  intros H. split.
  - apply Forall2_fmap_l, Forall2_fmap_r, Forall_Forall2_diag. eapply Forall_impl; [exact H|]. intros [k v] (_ & _ & Hv). by apply extract_entry.
  - apply Forall_map. eapply Forall_impl; [exact H|]. intros [k v] [Hk [Hv _]]. split; [by destruct v|]. split.
    + intros r. cbn [it_text]. unfold entry_pair_text. rewrite append_assoc. by apply name_starts.
    + intros r. by apply t_entry_pair.
  - apply Forall_map, Forall_true. intros [[] v]; done.
  - intros r Hr. apply r_end_pair; [|done]. eexists. right. reflexivity.
Qed.
End OcaLines.
