(** ATTR_FRAMING commands, written on several lines, are read back. *)
From Coq Require Import Lia.
From Verif Require Export Spec_Framing OcaLayout.
From Verif Require Import Condition_proofs Bundle_proofs.

Section OcaFraming.
Variable wide : ascii -> bool.
Variable said_ok : string -> bool.
Local Notation sg := (sgrammar wide).
Local Notation takes := (takes sg).
Local Notation rejects := (rejects sg).

(** ocafile/mod.rs 398-449: the indentation of the ATTR_FRAMING text. *)
Definition sp (n : nat) : string := String.concat "" (repeat " " n).
Lemma sp_S n : sp (S n) = (" " +:+ sp n)%string.
Proof. unfold sp. cbn [repeat]. destruct n; [done|]. cbn [repeat String.concat]. reflexivity. Qed.
Lemma sp_ws n : all_chars ws_c (sp n) = true.
Proof. induction n as [|n IH]; [done|]. rewrite sp_S. cbn [append all_chars]. by rewrite IH. Qed.
Lemma sp_some n : sp (S n) <> "".
Proof. by rewrite sp_S. Qed.

(** ** White space between the lines *)
Lemma t_nlopt at_ r : takes at_ (POpt g_arg_ws_nl) NL [] r.
Proof. apply t_opt, t_alt2; [by apply r_aws|]. apply t_alt1, t_lit. Qed.
Lemma t_spopt at_ n r : stops aws_c r -> takes at_ (POpt g_arg_ws_nl) (sp (S n)) [] r.
Proof. intros Hr. apply t_opt, t_alt1, t_aws; [apply sp_some|apply sp_ws|done]. Qed.
Lemma t_spstar at_ n r : stops aws_c r -> takes at_ (PStar g_arg_ws) (sp (S n)) [] r.
Proof.
  intros Hr. eapply t_conv; [apply (t_star sg at_ _ (sp (S n)) "" [] [])|by rewrite append_nil_r|done].
  - apply t_aws; [apply sp_some|apply sp_ws|done].
  - by apply t_star0, r_aws.
Qed.
(** Proof helper: a character that ends white space (ocafile.pest 32, 185-191). *)
Definition plain_start (c : ascii) : bool := negb (aws_c c || is_c LF c || is_c CR c).
Lemma plain_start_aws c r : plain_start c = true -> stops aws_c (String c r).
Proof. unfold plain_start. cbn. by destruct (aws_c c). Qed.
Lemma t_noopt at_ c r : plain_start c = true -> takes at_ (POpt g_arg_ws_nl) "" [] (String c r).
Proof.
  intros H. apply t_opt0, r_alt; [by apply r_aws, plain_start_aws|]. unfold plain_start, is_c in H. destruct (aws_c c); [done|]. destruct (Ascii.eqb LF c) eqn:E1; [done|]. destruct (Ascii.eqb CR c) eqn:E2; [done|].
  apply r_alt; [by apply r_lit1|]. apply r_alt; by apply r_lit2.
Qed.

(** ** JSON objects *)
(** ocafile.pest 191: one step of the repetition in [json_object]. *)
Definition iter : pe srule := PSeq (POpt g_arg_ws_nl) (PSeq (PStar g_arg_ws) (PSeq (PRul Rjson_pair) (POpt g_arg_ws_nl))).
(** Proof helper: the grammar takes the item as a [json_pair] (ocafile.pest 190). *)
Definition jitem_ok (i : item) : Prop := (exists u, it_text i = String DQ u) /\ forall r, takes false (PRul Rjson_pair) (it_text i +:+ NL) [it_tok i] r.
(** ocafile/mod.rs 411-446: the lines between the braces. *)
Fixpoint jmid (n m : nat) (i : item) (l : list item) : string :=
  (it_text i +:+ NL +:+ match l with [] => sp (S m) | j :: l => sp (S n) +:+ jmid n m j l end)%string.
Lemma t_iter i n c r : jitem_ok i -> plain_start c = true -> takes false iter (it_text i +:+ NL +:+ sp (S n)) [it_tok i] (String c r).
Proof.
  intros [(u & Hu) Hi] Hc. apply (t_seq0 sg false _ _ _ [] _); [rewrite append_assoc, Hu; by apply t_noopt|].
  apply (t_seq0 sg false _ _ _ [] _); [apply t_star0, r_aws; by rewrite append_assoc, Hu|]. rewrite <- append_assoc.
  eapply t_conv; [apply (t_seq sg false _ _ (it_text i +:+ NL) (sp (S n)) [it_tok i] [])|done|done]; [apply Hi|]. apply t_spopt. by apply plain_start_aws.
Qed.
Lemma t_iter_first i k n c r : jitem_ok i -> plain_start c = true -> takes false iter (NL +:+ sp (S k) +:+ it_text i +:+ NL +:+ sp (S n)) [it_tok i] (String c r).
Proof.
  intros [(u & Hu) Hi] Hc. apply (t_seq sg false _ _ NL _ [] _); [apply t_nlopt|].
  apply (t_seq sg false _ _ (sp (S k)) _ [] _); [apply t_spstar; by rewrite append_assoc, Hu|]. rewrite <- append_assoc.
  eapply t_conv; [apply (t_seq sg false _ _ (it_text i +:+ NL) (sp (S n)) [it_tok i] [])|done|done]; [apply Hi|]. apply t_spopt. by apply plain_start_aws.
Qed.
Lemma jmid_starts n m i l r : jitem_ok i -> exists u, (jmid n m i l +:+ r)%string = String DQ u.
Proof. intros [(u & Hu) _]. destruct l; cbn [jmid]; rewrite append_assoc, Hu; eexists; reflexivity. Qed.
Lemma r_iter_end r : rejects false iter ("}" +:+ r).
Proof.
  apply (r_seq2 sg false _ _ "" [] ("}" +:+ r)); [by apply t_noopt|]. apply (r_seq2 sg false _ _ "" [] ("}" +:+ r)); [by apply t_star0, r_aws|].
  apply r_seq1. by apply (r_run sg 20).
Qed.
Lemma t_iters n m : forall l i r, jitem_ok i -> Forall jitem_ok l -> takes false (PStar iter) (jmid n m i l) (map it_tok (i :: l)) ("}" +:+ r).
Proof.
  induction l as [|j l IH]; intros i r Hi Hl.
  - eapply t_conv; [apply (t_star sg false _ (jmid n m i []) "" [it_tok i] [])|by rewrite append_nil_r|done]; [by apply t_iter|]. apply t_star0, r_iter_end.
  - inversion Hl as [|? ? Hj Hl']; subst. cbn [jmid]. rewrite <- 2!append_assoc. rewrite (append_assoc (it_text i)).
    apply (t_star sg false _ _ _ [it_tok i] (map it_tok (j :: l))); [|by apply IH]. destruct (jmid_starts n m j l ("}" +:+ r) Hj) as [u ->]. by apply t_iter.
Qed.
(** ocafile/mod.rs 411-446: braces and the lines between them. *)
Definition jobject (n m : nat) (i : item) (l : list item) : string := ("{" +:+ NL +:+ sp (S n) +:+ jmid n m i l +:+ "}")%string.
(** ocafile.pest 191: the pair of such an object. *)
Definition jobject_tok (n m : nat) (i : item) (l : list item) : spair := Pair Rjson_object (jobject n m i l) (map it_tok (i :: l)).
Lemma t_jobject at_ n m i l r : jitem_ok i -> Forall jitem_ok l -> takes at_ (PRul Rjson_object) (jobject n m i l) [jobject_tok n m i l] r.
Proof.
  intros Hi Hl. eapply t_conv; [eapply t_rul; [reflexivity|]|reflexivity|destruct at_; reflexivity]. destruct at_; cbn [rinside].
  all: apply (t_seq sg false _ _ "{" _ [] _); [apply t_lit|].
  all: eapply t_conv; [apply (t_seq sg false _ _ (NL +:+ sp (S n) +:+ jmid n m i l) "}" (map it_tok (i :: l)) [])|by rewrite !append_assoc|by rewrite app_nil_r].
  all: try (apply (t_seq0 sg false _ _ _ [] []); [by apply t_star0, r_aws|apply t_lit]).
  all: destruct l as [|j l].
  all: try (eapply t_conv; [apply (t_seq sg false _ _ (NL +:+ sp (S n) +:+ jmid n m i []) "" [it_tok i] []); [by apply t_iter_first|apply t_star0, r_iter_end]|by rewrite append_nil_r|done]).
  all: inversion Hl as [|? ? Hj Hl']; subst; cbn [jmid].
  all: eapply t_conv; [apply (t_seq sg false _ _ (NL +:+ sp (S n) +:+ it_text i +:+ NL +:+ sp (S n)) (jmid n m j l) [it_tok i] (map it_tok (j :: l))); [|by apply t_iters]|by rewrite !append_assoc|done].
  all: destruct (jmid_starts n m j l ("}" +:+ r) Hj) as [u ->]; by apply t_iter_first.
Qed.
(** Pairs. *)
(** ocafile/mod.rs 414-441: one pair, with its comma. *)
Definition jpair_text (k w : string) : string := (Q +:+ k +:+ Q +:+ ": " +:+ w +:+ ",")%string.
(** ocafile.pest 190: the pair of such a text. *)
Definition jpair_tok (k w : string) (v : spair) : spair := Pair Rjson_pair (jpair_text k w +:+ NL) [Pair Rjson_key (Q +:+ k +:+ Q) [string_tok k]; Pair Rjson_value w [v]].
Lemma t_jpair k w v : quotable k = true -> (exists c u, w = String c u /\ plain_start c = true) -> (forall r, takes false (PRul Rjson_value) w [Pair Rjson_value w [v]] r) ->
  jitem_ok (Item "" (jpair_text k w) (jpair_tok k w v)).
Proof.
  intros Hk (c & u & -> & Hc) Hw. set (w := String c u) in *. split; [by eexists|]. intros r. cbn [it_text it_tok].
  eapply t_conv; [eapply t_rul; [reflexivity|]|reflexivity|reflexivity]. cbn [rinside].
  apply (t_conv sg false _ ((Q +:+ k +:+ Q) +:+ ":" +:+ " " +:+ w +:+ ("," +:+ NL)) _ ([Pair Rjson_key (Q +:+ k +:+ Q) [string_tok k]] ++ [Pair Rjson_value w [v]])); [|unfold jpair_text; by rewrite !append_assoc|done].
  apply t_seq; [eapply t_conv; [eapply t_rul; [reflexivity|]; by apply t_string|reflexivity|reflexivity]|].
  apply (t_seq0 sg false _ _ _ [] _); [by apply t_star0, r_aws|]. apply (t_seq sg false _ _ ":" _ [] _); [apply t_lit|].
  apply (t_seq sg false _ _ " " _ [] _); [apply (t_spopt false 0); rewrite append_assoc; by apply plain_start_aws|].
  apply (t_seq sg false _ _ w ("," +:+ NL) [_] []); [apply Hw|]. apply t_opt. apply (t_seq0 sg false _ _ _ [] []); [by apply t_opt0, r_aws|].
  apply (t_seq sg false _ _ "," NL [] []); [apply t_lit|apply t_nlopt].
Qed.
Lemma t_jstring v r : quotable v = true -> takes false (PRul Rjson_value) (Q +:+ v +:+ Q) [Pair Rjson_value (Q +:+ v +:+ Q) [string_tok v]] r.
Proof. intros Hv. eapply t_conv; [eapply t_rul; [reflexivity|]|reflexivity|reflexivity]. by apply t_alt1, t_string. Qed.
Lemma t_jobj_value n m i l r : jitem_ok i -> Forall jitem_ok l -> takes false (PRul Rjson_value) (jobject n m i l) [Pair Rjson_value (jobject n m i l) [jobject_tok n m i l]] r.
Proof.
  intros Hi Hl. eapply t_conv; [eapply t_rul; [reflexivity|]|reflexivity|reflexivity]. do 2 (apply t_alt2; [by apply (r_run sg 20)|]). by apply t_jobject.
Qed.
(** Reading them. *)
(** helpers.rs 304-345: the inner loop of [extract_json_object], restated for the proofs. *)
Fixpoint json_elems (els : list spair) (key : string) (value : nvalue) : outcome (string * nvalue) :=
  match els with
  | [] => Ok (key, value)
  | Pair Rjson_key _ ks :: els => match last ks with Some k => let! t := quoted k in json_elems els (lower_str t) value | None => Panic end
  | Pair Rjson_value _ (v :: _) :: els =>
    match v with
    | Pair Rstring _ _ => let! t := quoted v in json_elems els key (VVal t)
    | Pair Rjson_object _ _ => let! o := extract_json_object v in json_elems els key o
    | _ => Panic
    end
  | Pair Rjson_value _ [] :: els => json_elems els key value
  | _ => Panic
  end.
(** helpers.rs 297-356: the outer loop of [extract_json_object], restated for the proofs. *)
Fixpoint json_pairs (items : list spair) (acc : imap nvalue) : outcome (imap nvalue) :=
  match items with
  | [] => Ok acc
  | Pair Rjson_pair _ els :: items => let! kv := json_elems els "" (VVal "") in json_pairs items (imap_insert kv.1 kv.2 acc)
  | _ => Panic
  end.
Lemma extract_json_eq r t items : extract_json_object (Pair r t items) = (let! l := json_pairs items [] in Ok (VObj l)).
Proof. reflexivity. Qed.
(** The table inside the braces, given what each value reads as. *)
Lemma json_pairs_fresh (l : list (string * string * spair)) : forall (vs : list nvalue) acc,
  Forall2 (fun x v => p_rule x.2 = Rstring /\ (let! t := quoted x.2 in Ok (VVal t)) = Ok v \/ p_rule x.2 = Rjson_object /\ extract_json_object x.2 = Ok v) l vs ->
  NoDup (map fst acc ++ map (fun x => lower_str x.1.1) l) ->
  json_pairs (map (fun x => jpair_tok x.1.1 x.1.2 x.2) l) acc = Ok (acc ++ zip (map (fun x => lower_str x.1.1) l) vs).
Proof.
  induction l as [|[[k w] p] l IH]; intros vs acc H Hn; inversion H as [|? v ? vs' Hv Hl]; subst; [by rewrite app_nil_r|].
  cbn [map fst snd] in *. cbn [json_pairs jpair_tok].
  assert (E : json_elems [Pair Rjson_key (Q +:+ k +:+ Q) [string_tok k]; Pair Rjson_value w [p]] "" (VVal "") = Ok (lower_str k, v)).
  { cbn [json_elems last]. change (quoted (string_tok k)) with (Ok k). cbn [obind]. destruct p as [ru tx els]. cbn [p_rule] in Hv. destruct Hv as [[-> Hv]|[-> Hv]].
    - destruct (quoted (Pair Rstring tx els)); cbn [obind] in *; congruence.
    - rewrite Hv. reflexivity. }
  rewrite E. cbn [obind fst snd zip_with]. rewrite imap_insert_fresh.
  - rewrite (IH vs'); [by rewrite <- app_assoc|done|]. rewrite map_app, <- app_assoc. exact Hn.
  - intros Hin. apply NoDup_app in Hn as (_ & Hn & _). apply (Hn _ Hin). by left.
Qed.

(** ** Frames as the generator writes them *)
(** ocafile/mod.rs 420-434: one text of a frame. *)
Definition scope_item (kv : string * string) : item := Item "" (jpair_text kv.1 (Q +:+ kv.2 +:+ Q)) (jpair_tok kv.1 (Q +:+ kv.2 +:+ Q) (string_tok kv.2)).
(** Proof helper. *)
Definition dummy : item := Item "" "" (Pair REOI "" []).
(** ocafile/mod.rs 411-446: an object with at least one pair. *)
Definition object_text (n m : nat) (l : list item) : string := jobject n m (hd dummy l) (tl l).
(** ocafile.pest 191: its pair. *)
Definition object_tok (n m : nat) (l : list item) : spair := jobject_tok n m (hd dummy l) (tl l).
(** ocafile/mod.rs 414-441: one frame of an attribute. *)
Definition frame_item (f : string * list (string * string)) : item :=
  let l := map scope_item f.2 in Item "" (jpair_text f.1 (object_text 15 11 l)) (jpair_tok f.1 (object_text 15 11 l) (object_tok 15 11 l)).
Lemma object_is n m l : l <> [] -> ("{" +:+ cat_map (fun i => (nl_spaces (S n) +:+ it_text i)%string) l +:+ nl_spaces (S m) +:+ "}" = object_text n m l)%string.
Proof.
  destruct l as [|i l]; [done|]. intros _. unfold object_text, jobject. cbn [hd tl]. f_equal. unfold nl_spaces. fold (sp (S n)) (sp (S m)). revert i.
  induction l as [|j l IH]; intros i; rewrite cat_cons; cbn [jmid].
  - unfold cat_map. cbn [map String.concat append]. rewrite !append_assoc. reflexivity.
  - rewrite append_assoc, IH, !append_assoc. reflexivity.
Qed.
Lemma scope_ok kv : quotable kv.1 = true -> quotable kv.2 = true -> jitem_ok (scope_item kv).
Proof. intros H1 H2. apply t_jpair; [done|by do 2 eexists|]. intros r. by apply t_jstring. Qed.
(** Proof helper: [frame_ok] over plain strings. *)
Definition frame_fine (f : string * list (string * string)) : Prop :=
  quotable f.1 = true /\ f.2 <> [] /\ NoDup (map (fun kv => lower_str kv.1) f.2) /\ Forall (fun kv => quotable kv.1 = true /\ quotable kv.2 = true) f.2.
Lemma all_scopes l : Forall (fun kv => quotable kv.1 = true /\ quotable kv.2 = true) l -> Forall jitem_ok (map scope_item l).
Proof. intros H. apply Forall_map. eapply Forall_impl; [exact H|]. intros kv [? ?]. by apply scope_ok. Qed.
Lemma hd_tl (l : list item) : l <> [] -> Forall jitem_ok l -> jitem_ok (hd dummy l) /\ Forall jitem_ok (tl l).
Proof. destruct l; [done|]. intros _ H. by inversion H. Qed.
Lemma frame_item_ok f : frame_fine f -> jitem_ok (frame_item f).
Proof.
  intros (Hk & Hn & _ & Hs). apply all_scopes in Hs. destruct (hd_tl (map scope_item f.2)) as [H1 H2]; [by destruct f.2|done|].
  apply t_jpair; [done|by do 2 eexists|]. intros r. by apply t_jobj_value.
Qed.
(** Proof helper: the value of a frame (helpers.rs 297-356). *)
Definition scopes_val (l : list (string * string)) : nvalue := VObj (map (fun kv => (kv.1, VVal kv.2)) l).
(** Proof helper: the value of an attribute (helpers.rs 297-356). *)
Definition frames_val (l : list (string * list (string * string))) : nvalue := VObj (map (fun f => (f.1, scopes_val f.2)) l).
Lemma hd_cons_tl (l : list item) : l <> [] -> hd dummy l :: tl l = l. Proof. by destruct l. Qed.
Lemma zip_map {A B C} (f : A -> B) (g : A -> C) l : zip (map f l) (map g l) = map (fun x => (f x, g x)) l.
Proof. induction l as [|x l IH]; [done|]. cbn. by rewrite IH. Qed.
Lemma read_scopes n m l : l <> [] -> NoDup (map (fun kv => lower_str kv.1) l) ->
  extract_json_object (object_tok n m (map scope_item l)) = Ok (lower_keys (fun v => v) (scopes_val l)).
Proof.
  intros Hl Hn. unfold object_tok, jobject_tok. rewrite hd_cons_tl by (by destruct l). rewrite extract_json_eq, map_map.
  pose proof (json_pairs_fresh (map (fun kv : string * string => (kv.1, (Q +:+ kv.2 +:+ Q)%string, string_tok kv.2)) l) (map (fun kv => VVal kv.2) l) []) as H.
  rewrite !map_map in H. cbn [fst snd map app] in H. unfold scope_item. cbn [it_tok]. rewrite H; [|  |done].
  - cbn [obind lower_keys scopes_val]. rewrite map_map, zip_map. reflexivity.
  - apply Forall2_fmap_l, Forall2_fmap_r, Forall_Forall2_diag, Forall_true. intros kv. by left.
Qed.
Lemma read_frames n m l : l <> [] -> Forall frame_fine l -> NoDup (map (fun f => lower_str f.1) l) ->
  extract_json_object (object_tok n m (map frame_item l)) = Ok (lower_keys (lower_keys (fun v => v)) (frames_val l)).
Proof.
  intros Hl Hf Hn. unfold object_tok at 1, jobject_tok. rewrite hd_cons_tl by (by destruct l). rewrite extract_json_eq, map_map.
  pose proof (json_pairs_fresh (map (fun f => (f.1, object_text 15 11 (map scope_item f.2), object_tok 15 11 (map scope_item f.2))) l)
    (map (fun f => lower_keys (fun v => v) (scopes_val f.2)) l) []) as H.
  rewrite !map_map in H. cbn [fst snd map app] in H. unfold frame_item. cbn [it_tok]. rewrite H; [|  |done].
  - cbn [obind lower_keys frames_val]. rewrite map_map, zip_map. reflexivity.
  - apply Forall2_fmap_l, Forall2_fmap_r, Forall_Forall2_diag. eapply Forall_impl; [exact Hf|]. intros f (_ & Hn2 & Hd & _). right. split; [done|]. by apply read_scopes.
Qed.

(** ** The attributes *)
(** Proof helper: an attribute with its frames (ocafile/mod.rs 411-446). *)
Definition fattr := (string * list (string * list (string * string)))%type.
(** ocafile/mod.rs 411-446: an attribute with its frames. *)
Definition fattr_text (a : fattr) : string := (a.1 +:+ "=" +:+ object_text 11 7 (map frame_item a.2))%string.
(** ocafile.pest 184: its pair. *)
Definition fattr_tok (a : fattr) : spair := Pair Rattr_framing_key_pair (fattr_text a) [Pair Rattr_key a.1 []; object_tok 11 7 (map frame_item a.2)].
(** Proof helper: [frames_ok] over plain strings. *)
Definition fattr_fine (a : fattr) : Prop := name_ok a.1 /\ a.2 <> [] /\ NoDup (map (fun f => lower_str f.1) a.2) /\ Forall frame_fine a.2.
Lemma t_fattr a r : fattr_fine a -> takes false (PRul Rattr_framing_key_pair) (fattr_text a) [fattr_tok a] r.
Proof.
  intros (Hk & Hn & _ & Hf). eapply t_conv; [eapply t_rul; [reflexivity|]|reflexivity|reflexivity].
  assert (Hi : Forall jitem_ok (map frame_item a.2)) by (apply Forall_map; eapply Forall_impl; [exact Hf|]; intros f; apply frame_item_ok).
  destruct (hd_tl (map frame_item a.2)) as [H1 H2]; [by destruct a.2|done|].
  apply (t_eq wide true _ _ a.1 (object_text 11 7 (map frame_item a.2)) [_] [_]); [done|by apply t_attr_key|by apply t_jobject].
Qed.
Lemma read_fattr a : fattr_fine a -> extract_kv (fattr_tok a) = Ok (a.1, lower_keys (lower_keys (fun v => v)) (frames_val a.2)).
Proof.
  intros (_ & Hn & Hd & Hf). unfold fattr_tok. pose proof (read_frames 11 7 a.2 Hn Hf Hd) as E. unfold object_tok, jobject_tok in *. cbn [extract_kv]. rewrite E. reflexivity.
Qed.
(** ocafile/mod.rs 411-446: all attributes, up to the end of the last line. *)
Fixpoint fattrs_mid (a : fattr) (l : list fattr) : string :=
  (fattr_text a +:+ NL +:+ match l with [] => "" | b :: l => sp 8 +:+ fattrs_mid b l end)%string.
(** ocafile.pest 185: their pairs. *)
Definition fattrs_toks (a : fattr) (l : list fattr) : list spair :=
  Pair Rattr_framing_key_pairs (fattr_text a +:+ NL) [fattr_tok a] :: map (fun b => Pair Rattr_framing_key_pairs (sp 8 +:+ fattr_text b +:+ NL) [fattr_tok b]) l.
Lemma fattr_starts a r : fattr_fine a -> stops aws_c (fattr_text a +:+ r).
Proof. intros (Hk & _). unfold fattr_text. rewrite append_assoc. by apply name_starts. Qed.
Lemma t_fattrs_one (pre : string) a r : pre = "" \/ pre = sp 8 -> fattr_fine a ->
  takes false (PRul Rattr_framing_key_pairs) (pre +:+ fattr_text a +:+ NL) [Pair Rattr_framing_key_pairs (pre +:+ fattr_text a +:+ NL) [fattr_tok a]] r.
Proof.
  intros Hp Ha. eapply t_conv; [eapply t_rul; [reflexivity|]|reflexivity|reflexivity].
  apply (t_seq sg false _ _ pre _ [] _).
  - destruct Hp as [-> | ->]; [apply t_star0, r_aws|apply t_spstar]; rewrite append_assoc; by apply fattr_starts.
  - apply (t_seq sg false _ _ (fattr_text a) NL [_] []); [by apply t_fattr|apply t_nlopt].
Qed.
(** Proof helper: no further attribute begins here (ocafile.pest 185). *)
Definition no_pair (r : string) : Prop := rejects false (PRul Rattr_framing_key_pairs) r.
Lemma t_fattrs_star l : forall r, Forall fattr_fine l -> no_pair r ->
  takes false (PStar (PRul Rattr_framing_key_pairs)) (cat_map (fun b => (sp 8 +:+ fattr_text b +:+ NL)%string) l)
    (map (fun b => Pair Rattr_framing_key_pairs (sp 8 +:+ fattr_text b +:+ NL) [fattr_tok b]) l) r.
Proof.
  induction l as [|b l IH]; intros r Hl Hr; [by apply t_star0|]. inversion Hl; subst. rewrite cat_cons. cbn [map].
  apply (t_star sg false _ _ _ [_]); [apply t_fattrs_one; [by right|done]|by apply IH].
Qed.
Lemma fattrs_mid_is l : forall a, fattrs_mid a l = (fattr_text a +:+ NL +:+ cat_map (fun b => (sp 8 +:+ fattr_text b +:+ NL)%string) l)%string.
Proof. induction l as [|b l IH]; intros a; cbn [fattrs_mid]; [done|]. by rewrite cat_cons, IH, !append_assoc. Qed.
Lemma t_fattrs a l r : fattr_fine a -> Forall fattr_fine l -> no_pair r ->
  takes false (PPlus (PRul Rattr_framing_key_pairs)) (fattrs_mid a l) (fattrs_toks a l) r.
Proof.
  intros Ha Hl Hr. rewrite fattrs_mid_is, <- append_assoc. apply (t_seq sg false _ _ _ _ [_] _); [|by apply t_fattrs_star].
  pose proof (t_fattrs_one "" a (cat_map (fun b => (sp 8 +:+ fattr_text b +:+ NL)%string) l +:+ r) (or_introl eq_refl) Ha) as H. exact H.
Qed.

(** ** The properties *)
(** ocafile/mod.rs 401-408: one property. *)
Definition fprop_text (p : string * string) : string := (p.1 +:+ "=" +:+ Q +:+ p.2 +:+ Q)%string.
(** ocafile.pest 181: its pair. *)
Definition fprop_tok (p : string * string) : spair :=
  Pair Rframing_metadata_pair (fprop_text p) [Pair Rframing_metadata_key p.1 []; Pair Rframing_metadata_value (Q +:+ p.2 +:+ Q) [string_tok p.2]].
(** Proof helper: [frame_prop_ok] over plain strings. *)
Definition fprop_fine (p : string * string) : Prop := p.1 ∈ frame_props /\ quotable p.2 = true.
Lemma fprop_cases k (P : string -> Prop) : k ∈ frame_props -> P "id" -> P "label" -> P "location" -> P "version" -> P k.
Proof. intros H ? ? ? ?. repeat (apply elem_of_cons in H as [->|H]; [done|]). by apply elem_of_nil in H. Qed.
Lemma t_fprop p r : fprop_fine p -> takes false (PRul Rframing_metadata_pair) (fprop_text p) [fprop_tok p] r.
Proof.
  intros [Hk Hv]. eapply t_conv; [eapply t_rul; [reflexivity|]|reflexivity|reflexivity].
  apply (t_eq wide true _ _ p.1 (Q +:+ p.2 +:+ Q) [_] [_]); [done| |].
  - apply (fprop_cases p.1 (fun k => forall r, takes true (PRul Rframing_metadata_key) k [Pair Rframing_metadata_key k []] ("=" +:+ r)) Hk);
      intros r'; apply (t_run wide 10); reflexivity.
  - eapply t_conv; [eapply t_rul; [reflexivity|]|reflexivity|reflexivity]. by apply t_alt1, t_string.
Qed.
Lemma read_fprop p : extract_kv (fprop_tok p) = Ok (p.1, VVal p.2).
Proof. reflexivity. Qed.
(** ocafile/mod.rs 398-410: a backslash, the end of the line and the next line's indentation (ocafile.pest 28, 32). *)
Definition cont (n : nat) : string := (" " +:+ String BSL NL +:+ sp n)%string.
(** Proof helper: a character that begins a word. *)
Definition word_start (c : ascii) : bool := negb (aws_c c || is_c LF c || is_c CR c || is_c "#" c).
Lemma word_start_all c : word_start c = true -> ws_c c = false /\ is_c LF c = false /\ is_c CR c = false /\ is_c "#" c = false /\ aws_c c = false.
Proof. unfold word_start, aws_c. intros H. apply negb_true_iff in H. destruct (ws_c c), (is_c BSL c), (is_c LF c), (is_c CR c), (is_c "#" c); done. Qed.
Lemma t_cont n c r : word_start c = true -> takes false g_arg_ws (cont n) [] (String c r).
Proof.
  intros H. apply word_start_all in H as (H1 & H2 & H3 & H4 & H5). unfold cont. apply (t_seq sg false _ _ " " _ [] []); [apply t_alt1; by apply t_cls|].
  change (String BSL NL +:+ sp n)%string with (String BSL NL +:+ sp n)%string. apply (t_star sg false _ (String BSL NL) (sp n) [] []).
  - apply t_alt2; [by apply r_cls|]. eapply t_conv; [apply (t_seq sg false _ _ (String BSL NL) "" [] [])|reflexivity|reflexivity].
    + apply (t_seq sg false _ _ (String BSL "") NL [] []); [apply t_lit|]. apply (t_seq0 sg false _ _ NL [] []); [by apply (t_star_cls sg false _ "")|]. apply t_alt1, t_lit.
    + apply t_star0. apply r_alt; [by apply r_comment; [apply sp_ws| |]|]. apply r_empty; [apply sp_ws|done|done|done].
  - apply t_aws0; [apply sp_ws|done].
Qed.
(** ocafile/mod.rs 401-408: all properties. *)
Fixpoint fprops_mid (p : string * string) (l : list (string * string)) : string :=
  (fprop_text p +:+ match l with [] => "" | q :: l => cont 8 +:+ fprops_mid q l end)%string.
Lemma fprop_starts p r : fprop_fine p -> exists c u, (fprop_text p +:+ r)%string = String c u /\ word_start c = true.
Proof.
  intros [Hk _]. unfold fprop_text. rewrite append_assoc. apply (fprop_cases p.1 (fun k => exists c u, (k +:+ ("=" +:+ Q +:+ p.2 +:+ Q) +:+ r)%string = String c u /\ word_start c = true) Hk); by do 2 eexists.
Qed.
Lemma fprops_mid_is l : forall p, fprops_mid p l = (fprop_text p +:+ cat_map (fun q => (cont 8 +:+ fprop_text q)%string) l)%string.
Proof. induction l as [|q l IH]; intros p; cbn [fprops_mid]; [done|]. by rewrite cat_cons, IH, !append_assoc. Qed.
Lemma t_fprops_star l : forall r, Forall fprop_fine l ->
  takes false (PStar (PSeq g_arg_ws (PRul Rframing_metadata_pair))) (cat_map (fun q => (cont 8 +:+ fprop_text q)%string) l) (map fprop_tok l) (cont 4 +:+ "ATTRS" +:+ r).
Proof.
  induction l as [|q l IH]; intros r Hl.
  - apply t_star0. apply (r_seq2 sg false _ _ (cont 4) [] ("ATTRS" +:+ r)); [by apply t_cont|]. by apply (r_run sg 20).
  - inversion Hl as [|? ? Hq Hl']; subst. rewrite cat_cons. cbn [map]. apply (t_star sg false _ _ _ [_]); [|by apply IH].
    apply (t_seq sg false _ _ (cont 8) (fprop_text q) [] _); [|by apply t_fprop]. destruct (fprop_starts q (cat_map (fun q => (cont 8 +:+ fprop_text q)%string) l +:+ cont 4 +:+ "ATTRS" +:+ r) Hq) as (c & u & -> & Hc).
    by apply t_cont.
Qed.
Lemma t_fprops p l r : fprop_fine p -> Forall fprop_fine l ->
  takes false (PRul Rframing_metadata) (fprops_mid p l) [Pair Rframing_metadata (fprops_mid p l) (map fprop_tok (p :: l))] (cont 4 +:+ "ATTRS" +:+ r).
Proof.
  intros Hp Hl. eapply t_conv; [eapply t_rul; [reflexivity|]|reflexivity|reflexivity]. rewrite fprops_mid_is.
  apply (t_seq sg false _ _ _ _ [fprop_tok p] _); [by apply t_fprop|by apply t_fprops_star].
Qed.

(** ** The command *)
(** ocafile/mod.rs 398-449: the text after "ADD ". *)
Definition fcommand_text (p : string * string) (ps : list (string * string)) (a : fattr) (l : list fattr) : string :=
  ("ATTR_FRAMING" +:+ cont 8 +:+ fprops_mid p ps +:+ cont 4 +:+ "ATTRS" +:+ cont 8 +:+ fattrs_mid a l)%string.
(** ocafile.pest 177: its pair. *)
Definition fcommand_tok (p : string * string) (ps : list (string * string)) (a : fattr) (l : list fattr) : spair :=
  Pair Radd ("ADD " +:+ fcommand_text p ps a l) [Pair Rattribute_framing (fcommand_text p ps a l)
    (Pair Rframing_metadata (fprops_mid p ps) (map fprop_tok (p :: ps)) :: fattrs_toks a l)].
Lemma name_word_start k r : name_ok k -> exists c u, (k +:+ r)%string = String c u /\ word_start c = true.
Proof.
  intros [Hk H]. destruct k as [|c k]; [done|]. cbn [all_chars] in H. apply andb_prop in H as [H _]. exists c, (k +:+ r)%string. split; [done|]. revert H. clear.
  destruct c as [[] [] [] [] [] [] [] []]; vm_compute; done.
Qed.
Lemma t_fcommand p ps a l r : fprop_fine p -> Forall fprop_fine ps -> fattr_fine a -> Forall fattr_fine l -> no_pair r ->
  takes false g_cmd ("ADD " +:+ fcommand_text p ps a l) [fcommand_tok p ps a l] r.
Proof.
  intros Hp Hps Ha Hl Hr. apply t_add; [done|]. unfold g_oca_object. cbn [PAlts]. do 15 (apply t_alt2; [apply (r_run sg 30); reflexivity|]). apply t_alt1.
  eapply t_conv; [eapply t_rul; [reflexivity|]|reflexivity|reflexivity]. unfold fcommand_text.
  apply (t_seq sg false _ _ "ATTR_FRAMING" _ [] _); [by apply t_liti|]. apply (t_seq sg false _ _ (cont 8) _ [] _).
  { rewrite fprops_mid_is, !append_assoc. destruct (fprop_starts p ((cat_map (fun q => (cont 8 +:+ fprop_text q)%string) ps +:+ cont 4 +:+ "ATTRS" +:+ cont 8 +:+ fattrs_mid a l +:+ r)) Hp) as (c & u & -> & Hc). by apply t_cont. }
  apply (t_seq sg false _ _ (fprops_mid p ps) _ [_] _); [rewrite !append_assoc; by apply t_fprops|].
  apply (t_seq sg false _ _ (cont 4) _ [] _); [rewrite append_assoc; by apply t_cont|]. apply t_assoc.
  apply (t_seq sg false _ _ "ATTRS" _ [] _); [by apply t_liti|]. apply (t_seq sg false _ _ (cont 8) _ [] _); [|by apply t_fattrs].
  rewrite fattrs_mid_is. unfold fattr_text. rewrite !append_assoc. destruct Ha as (Hk & _).
  match goal with |- takes _ _ _ _ (a.1 +:+ ?s) => destruct (name_word_start a.1 s Hk) as (c & u & -> & Hc) end. by apply t_cont.
Qed.
End OcaFraming.
