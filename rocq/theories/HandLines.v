(** Pairs, tables and whole commands written by hand. *)
From Coq Require Import Lia.
From Verif Require Export OcaHand.
From Verif Require Import Condition_proofs Bundle_proofs.

Section HandLines.
Variable wide : ascii -> bool.
Variable said_ok : string -> bool.
Local Notation sg := (sgrammar wide).
Local Notation takes := (takes sg).
Local Notation rejects := (rejects sg).
Local Notation w_type := (w_type wide said_ok).

(** ** Lists of pairs *)
(** proof helper *)
Definition hitem_ok (p : pe srule) (follow : string -> Prop) (i : item) : Prop :=
  opens (it_text i) /\ forall r, follow r -> takes false p (it_text i) [it_tok i] r.
(** proof helper *)
Definition hnext (p : pe srule) (follow : string -> Prop) (i : item) : Prop := gap (it_sep i) /\ hitem_ok p follow i /\ forall x, follow (it_sep i +:+ x)%string.
Lemma t_hspaced0 p (follow : string -> Prop) tr r : blanks tr -> ends r -> follow (tr +:+ r)%string -> rejects false p r ->
  forall l s i, gap s -> hitem_ok p follow i -> Forall (hnext p follow) l ->
  takes false (PStar (PSeq (POpt g_arg_ws) (PSeq p (POpt g_arg_ws)))) (s +:+ it_text i +:+ items_text l +:+ tr) (map it_tok (i :: l)) r.
Proof.
  intros Htr Hr Hf Hp. assert (Hra : stops aws_c r) by (by apply ends_aws).
  induction l as [|j l IH]; intros s i Hs [Hi1 Hi2] Hl.
  - eapply t_conv; [eapply (t_star sg false _ (s +:+ it_text i +:+ tr) "" [it_tok i] [])| | reflexivity].
    + apply (t_seq sg false _ _ s _ [] _); [apply t_ogap; [done|rewrite append_assoc; by apply opens_app]|].
      eapply t_conv; [apply (t_seq sg false _ _ (it_text i) tr [it_tok i] []); [by apply Hi2|by apply t_oaws]|done|done].
    + apply t_star0. apply (r_seq2 sg false _ _ "" [] r); [by apply t_opt0, r_aws|]. by apply r_seq1.
    + unfold items_text, cat_map. cbn. by rewrite !append_nil_r.
  - inversion Hl as [|x y (Hj1 & Hj2 & Hj3) Hl']; subst. pose proof Hj2 as [Hj4 Hj5].
    eapply t_conv; [eapply (t_star sg false _ (s +:+ it_text i +:+ it_sep j) (it_text j +:+ items_text l +:+ tr) [it_tok i] (map it_tok (j :: l)))| |reflexivity].
    + apply (t_seq sg false _ _ s _ [] _); [apply t_ogap; [done|rewrite append_assoc; by apply opens_app]|].
      eapply t_conv; [apply (t_seq sg false _ _ (it_text i) (it_sep j) [it_tok i] [])|done|done]; [by apply Hi2|].
      apply t_ogap; [done|rewrite append_assoc; by apply opens_app].
    + apply (IH "" j); [constructor|done|done].
    + rewrite items_cons, !append_assoc. reflexivity.
Qed.
(** A table behind its key word. *)
Lemma t_htable p (follow : string -> Prop) rs tr r i l : sg rs = (Compound, g_spaced p) -> sep (it_sep i) -> hitem_ok p follow i -> Forall (hnext p follow) l ->
  blanks tr -> ends r -> follow (tr +:+ r)%string -> rejects false p r ->
  takes false (PSeq g_arg_ws (PRul rs)) (items_text (i :: l) +:+ tr) [Pair rs (it_text i +:+ items_text l +:+ tr) (map it_tok (i :: l))] r.
Proof.
  intros Hrs Hs Hi Hl Htr Hr Hf Hp. pose proof Hi as [Hi1 Hi2]. rewrite items_cons, !append_assoc.
  apply (t_seq sg false _ _ (it_sep i) _ [] _); [apply t_gap; [done|rewrite append_assoc; by apply opens_app]|].
  eapply t_conv; [eapply t_rul; [exact Hrs|]|reflexivity|reflexivity]. apply t_plus; [by apply (t_hspaced0 p follow tr r Htr Hr Hf Hp l "" i); [constructor|..]|].
  destruct Hi1 as (c & u & E & _). by rewrite E.
Qed.
(** The items of a written table. *)
Lemma pairs_items {V} (apart around : string -> Prop) (value : V -> string -> Prop) (p : pe srule) (follow : string -> Prop) (P : string -> V -> spair -> Prop) :
  (forall s, apart s -> sep s /\ forall x, follow (s +:+ x)%string) ->
  (forall k e e' v w, name_ok k -> around e -> around e' -> value v w -> exists tok, P k v tok /\
    forall r, follow r -> takes false p (k +:+ e +:+ "=" +:+ e' +:+ w) [tok] r) ->
  forall m t, w_pairs apart around value m t -> exists l, t = items_text l /\ Forall2 (fun i kv => P kv.1 kv.2 (it_tok i)) l m /\
    Forall (hnext p follow) l /\ Forall (fun i => sep (it_sep i)) l.
Proof.
  intros Ha Hv m t H. induction H as [|s k e e' v w l t Hs Hk He He' Hw Hl IH]; [exists []; done|].
  destruct IH as (is & -> & IH1 & IH2 & IH3). destruct (Hv k e e' v w Hk He He' Hw) as (tok & Hx & Ht). destruct (Ha s Hs) as [Hs1 Hs2].
  exists (Item s (k +:+ e +:+ "=" +:+ e' +:+ w) tok :: is). split; [rewrite items_cons; cbn [it_sep it_text]; rewrite !append_assoc; reflexivity|].
  split; [by constructor|]. split; [|by constructor]. constructor; [|done]. split; [by destruct Hs1|]. split; [|done]. split; [|done].
  cbn [it_text]. by apply opens_app, name_opens.
Qed.
Lemma read_items l (m : imap nvalue) : Forall2 (fun i (kv : string * nvalue) => extract_kv (it_tok i) = Ok (kv.1, kv.2)) l m ->
  Forall2 (fun t kv => extract_kv t = Ok kv) (map it_tok l) m.
Proof. intros H. apply Forall2_fmap_l. eapply Forall2_impl; [exact H|]. intros i [k v]. done. Qed.

(** ** [name = value] *)
Lemma t_heq at_ k v a e e' b ta tb r : gap e -> gap e' -> opens b -> (forall x, behind x \/ (exists u, x = String "=" u) -> takes at_ k a ta x) -> takes at_ v b tb r ->
  takes at_ (g_eq k v) (a +:+ e +:+ "=" +:+ e' +:+ b) (ta ++ tb) r.
Proof.
  intros He He' Hb Hk Hv. assert (Heq : opens ("=" +:+ e' +:+ b)) by (by exists "="%char, (e' +:+ b)%string).
  apply (t_seq sg at_ _ _ a _ ta tb).
  - apply Hk. destruct e as [|c e]; [right; by exists ((e' +:+ b) +:+ r)%string|left; rewrite append_assoc; by apply sep_behind].
  - apply (t_seq sg at_ _ _ e _ [] tb); [apply t_ogap; [done|by apply opens_app]|]. apply (t_seq sg at_ _ _ "=" _ [] tb); [apply t_lit|].
    apply (t_seq sg at_ _ _ e' b [] tb); [apply t_ogap; [done|by apply opens_app]|done].
Qed.
Lemma key_stops x : behind x \/ (exists u, x = String "=" u) -> stops attr_key_c x.
Proof.
  intros [[-> |(c & u & -> & H)]|[u ->]]; [done| |done]. repeat (apply elem_of_cons in H as [-> |H]; [done|]). by apply elem_of_nil in H.
Qed.
(** proof helper (what extract_key_pairs reads, semantics/oca-file/src/ocafile.rs) *)
Definition says_kv (k : string) (v : nvalue) (tok : spair) : Prop := extract_kv tok = Ok (k, v).
Lemma t_hplain k e e' v w : name_ok k -> gap e -> gap e' -> w_value wide v w -> exists tok, says_kv k v tok /\
  forall r, stops (char_c wide) r -> takes false (PRul Rkey_pair) (k +:+ e +:+ "=" +:+ e' +:+ w) [tok] r.
Proof.
  intros Hk He He' [v' t H].
  destruct (t_word wide Rkey_value v' t ltac:(by exists Compound; split; [reflexivity|left]) H true ltac:(right; by eexists)) as (n & ns & Hx & Ht).
  exists (Pair Rkey_pair (k +:+ e +:+ "=" +:+ e' +:+ t) [Pair Rattr_key k []; Pair Rkey_value t (n :: ns)]). split.
  - unfold says_kv. cbn [extract_kv]. rewrite Hx. reflexivity.
  - intros r Hr. eapply t_conv; [eapply t_rul; [reflexivity|]|reflexivity|reflexivity].
    apply (t_heq true _ _ k e e' t [_] [_]); [done|done|by eapply wword_opens| |by apply Ht]. intros x Hx'. apply t_attr_key; [done|by apply key_stops].
Qed.
(** Units. *)
(** proof helper *)
Definition unit_follow (r : string) : Prop := ends r \/ exists u, r = String " " u.
Lemma r_unit_char at_ r : unit_follow r -> rejects at_ (PRul Runit_char) r.
Proof.
  intros [[-> |(c & u & -> & H)]|[u ->]]; (eapply r_rul; [reflexivity|]); [by apply (r_run sg 20)| |by apply (r_run sg 20)].
  apply (r_seq2 sg false _ _ "" [] _); [apply t_not; destruct H as [-> | ->]; by apply r_lit1|by apply r_not_break].
Qed.
Lemma t_unit_char at_ c r : unit_c c = true -> takes at_ (PRul Runit_char) (String c "") [Pair Runit_char (String c "") []] r.
Proof.
  intros H. unfold unit_c, ws_c in H. destruct (is_c " " c) eqn:E1, (is_c TAB c) eqn:E2, (is_c LF c) eqn:E3, (is_c CR c) eqn:E4; try discriminate H.
  eapply t_conv; [eapply t_rul; [reflexivity|]|reflexivity|reflexivity].
  apply (t_seq0 sg false _ _ (String c "") [] []); [apply t_not; by apply r_lit1|].
  apply (t_seq0 sg false _ _ (String c "") [] []); [apply t_not; apply r_alt; [by apply r_lit1|]; apply r_alt; by apply r_lit2|]. by apply t_cls.
Qed.
Lemma t_unit_chars at_ v r : all_chars unit_c v = true -> unit_follow r ->
  takes at_ (PStar (PRul Runit_char)) v (map (fun c => Pair Runit_char (String c "") []) (list_ascii_of_string v)) r.
Proof.
  intros H Hr. induction v as [|c v IH]; [by apply t_star0, r_unit_char|]. cbn in H. apply andb_prop in H as [H1 H2].
  apply (t_star sg at_ _ (String c "") v [_] _); [by apply t_unit_char|by apply IH].
Qed.
Lemma t_hunit k e e' v w : name_ok k -> gap e -> gap e' -> w_unit v w -> exists tok, says_kv k v tok /\
  forall r, unit_follow r -> takes false (PRul Runit_key_pair) (k +:+ e +:+ "=" +:+ e' +:+ w) [tok] r.
Proof.
  intros Hk He He' H. assert (Hw : opens w).
  { destruct H as [v t H|w (c & u & -> & H1 & H2)]; [by eapply quoted_opens|]. exists c, u. split; [done|]. revert H1. unfold unit_start, unit_c, open_c.
    destruct (ws_c c), (is_c BSL c), (is_c LF c), (is_c CR c), (is_c "#" c), (is_c DQ c), (is_c "'" c); done. }
  assert (T : exists n ns, (text_value (Pair Runit_value w (n :: ns)) n = Ok v) /\ forall r, unit_follow r -> takes true (PRul Runit_value) w [Pair Runit_value w (n :: ns)] r).
  { destruct H as [v t H|w (c & u & -> & H1 & H2)].
    - destruct (t_quoted wide v t H) as (tok & Hr & Hq & Ht). exists tok, []. split; [unfold text_value; by rewrite Hr, Hq|].
      intros r _. eapply t_conv; [eapply t_rul; [reflexivity|]|reflexivity|reflexivity]. by apply t_alt1.
    - exists (Pair Runit_char (String c "") []), (map (fun c => Pair Runit_char (String c "") []) (list_ascii_of_string u)). split; [done|].
      intros r Hr. eapply t_conv; [eapply t_rul; [reflexivity|]|reflexivity|reflexivity]. unfold unit_start in H1. apply andb_prop in H1 as [H1 H3].
      apply t_alt2.
      + eapply r_rul; [reflexivity|]. destruct (is_c DQ c) eqn:E1, (is_c "'" c) eqn:E2; try discriminate H3. apply r_alt; apply r_seq1; by apply r_lit1.
      + apply (t_seq sg false _ _ (String c "") u [_] _); [by apply t_unit_char|by apply t_unit_chars]. }
  destruct T as (n & ns & Hx & Ht).
  exists (Pair Runit_key_pair (k +:+ e +:+ "=" +:+ e' +:+ w) [Pair Rattr_key k []; Pair Runit_value w (n :: ns)]). split.
  - unfold says_kv. cbn [extract_kv]. rewrite Hx. reflexivity.
  - intros r Hr. eapply t_conv; [eapply t_rul; [reflexivity|]|reflexivity|reflexivity].
    apply (t_heq true _ _ k e e' w [_] [_]); [done|done|done| |by apply Ht]. intros x Hx'. apply t_attr_key; [done|by apply key_stops].
Qed.

(** ** Lists and groups *)
Lemma t_spaces at_ s r : spaces s -> stops (is_c " ") r -> takes at_ g_spaces s [] r.
Proof.
  unfold spaces. intros H Hr. induction s as [|c s IH].
  - apply t_star0. destruct r as [|c r]; [by apply ev_lit_no|]. by apply r_lit1.
  - cbn [all_chars] in H. apply andb_prop in H as [H1 H2]. apply Ascii.eqb_eq in H1 as <-. apply (t_star sg at_ _ " " s [] []); [apply t_lit|by apply IH].
Qed.
(** proof helper *)
Definition no_space (t : string) : Prop := exists c u, t = String c u /\ is_c " " c = false.
Lemma no_space_stops t r : no_space t -> stops (is_c " ") (t +:+ r).
Proof. by intros (c & u & -> & H). Qed.
Lemma open_space t : opens t -> no_space t.
Proof. intros (c & u & -> & H). exists c, u. split; [done|]. apply open_parts in H as (H & _). unfold ws_c in H. by apply orb_false_elim in H as [H _]. Qed.
Lemma t_hcommas {A} (elt : A -> string -> Prop) (p : pe srule) (S : string -> Prop) (P : A -> spair -> Prop) :
  (forall a t, elt a t -> no_space t /\ S t /\ exists tok, P a tok /\ forall r, takes false p t [tok] r) ->
  forall l t, w_commas elt l t -> exists tok toks t0 t1, t = (t0 +:+ t1)%string /\ no_space t0 /\ S t0 /\ Forall2 P l (tok :: toks) /\ (forall r, takes false p t0 [tok] r) /\
    forall r, rejects false (PLit ",") r -> takes false (PStar (PSeq (PLit ",") (PSeq g_spaces p))) t1 toks r.
Proof.
  intros He l t H. induction H as [a t H|a t s l u H Hs Hl IH].
  - destruct (He a t H) as (Hn & HS & tok & HP & Ht). exists tok, [], t, "". split; [by rewrite append_nil_r|]. repeat (split; [done|]). split; [by constructor|].
    split; [done|]. intros r Hr. apply t_star0. by apply r_seq1.
  - destruct (He a t H) as (Hn & HS & tok & HP & Ht). destruct IH as (tok' & toks & t0 & t1 & -> & Hn' & _ & H2 & Ht0 & Ht1).
    exists tok, (tok' :: toks), t, ("," +:+ s +:+ t0 +:+ t1)%string. split; [done|]. repeat (split; [done|]). split; [by constructor|]. split; [done|].
    intros r Hr. eapply t_conv; [eapply (t_star sg false _ ("," +:+ s +:+ t0) t1 [tok'] toks); [|by apply Ht1]|by rewrite !append_assoc|done].
    apply (t_seq sg false _ _ "," _ [] _); [apply t_lit|]. apply (t_seq sg false _ _ s _ [] _); [apply t_spaces; [done|by apply no_space_stops]|apply Ht0].
Qed.
(** proof helper *)
Definition quote_first (t : string) : Prop := exists c u, t = String c u /\ (c = DQ \/ c = "'"%char).
Lemma quoted_first v t : w_quoted v t -> quote_first t.
Proof. intros [u H|u H]; [exists DQ, (u +:+ Q)%string; split; [done|by left]|exists "'"%char, (u +:+ "'")%string; split; [done|by right]]. Qed.
Lemma quote_space t : quote_first t -> no_space t.
Proof. intros (c & u & -> & [-> | ->]); by eexists _, _. Qed.
Lemma quote_app a b : quote_first a -> quote_first (a +:+ b).
Proof. intros (c & u & -> & H). by exists c, (u +:+ b)%string. Qed.
Lemma r_quote at_ d t r : quote_first t -> is_c DQ d = false -> is_c "'" d = false -> rejects at_ (PLit (String d "")) (t +:+ r).
Proof. intros (c & u & -> & H) H1 H2. apply r_lit1. unfold is_c in *. rewrite Ascii.eqb_sym. by destruct H as [-> | ->]. Qed.
Lemma t_hlist l t : w_list l t -> exists toks, code_list toks = Ok l /\ forall r, takes false (PRul Rentry_code_list) t [Pair Rentry_code_list t toks] r.
Proof.
  intros H. destruct H as [|l t H].
  - exists []. split; [done|]. intros r. eapply t_conv; [eapply t_rul; [reflexivity|]|reflexivity|reflexivity]. apply t_alt1. apply (t_run wide 10). reflexivity.
  - assert (He : forall (a : nvalue) u, (exists s, a = VVal s /\ w_quoted s u) -> no_space u /\ quote_first u /\ exists tok,
      (exists s, a = VVal s /\ p_rule tok = Rstring /\ quoted tok = Ok s) /\ forall r, takes false (PRul Rstring) u [tok] r).
    { intros a u (s & -> & Hq). destruct (t_quoted wide s u Hq) as (tok & Hr & Hq' & Ht). split; [by eapply quote_space, quoted_first|].
      split; [by eapply quoted_first|]. exists tok. split; [by exists s|done]. }
    destruct (t_hcommas (fun v t => exists s, v = VVal s /\ w_quoted s t) (PRul Rstring) quote_first (fun v tok => exists s, v = VVal s /\ p_rule tok = Rstring /\ quoted tok = Ok s) He l t H)
      as (tok & toks & t0 & t1 & -> & Hn & Ho & H2 & Ht0 & Ht1).
    exists (tok :: toks). split.
    + clear -H2. induction H2 as [|v q l qs (s & -> & Hr & Hq) H2 IH]; [done|]. cbn [code_list]. by rewrite Hr, Hq, IH.
    + intros r. eapply t_conv; [eapply t_rul; [reflexivity|]|reflexivity|reflexivity]. apply t_alt2.
      * rewrite append_assoc. apply (r_seq2 sg false _ _ "[" [] _); [apply t_lit|]. rewrite !append_assoc. by apply r_quote.
      * apply (t_seq sg false _ _ "[" _ [] _); [apply t_lit|]. rewrite append_assoc. apply (t_seq sg false _ _ t0 _ [_] _); [apply Ht0|].
        eapply t_conv; [eapply (t_seq sg false _ _ t1 "]" toks []); [apply Ht1; by apply r_lit1|apply t_lit]|done|by rewrite app_nil_r].
Qed.

(** A key, a colon, a value. *)
(** proof helper (a pair between braces) *)
Definition w_entry1 (elt : nvalue -> string -> Prop) (kv : string * nvalue) (t : string) : Prop :=
  exists q u w, w_quoted kv.1 q /\ spaces u /\ elt kv.2 w /\ t = (q +:+ ":" +:+ u +:+ w)%string.
Lemma t_hbraces elt (p : pe srule) (P : string * nvalue -> spair -> Prop) :
  (forall kv t, w_entry1 elt kv t -> quote_first t /\ exists tok, P kv tok /\ forall r, takes false p t [tok] r) ->
  forall m t, w_braces elt m t -> exists toks, Forall2 P m toks /\ forall r, takes false (g_braces p) t toks r.
Proof.
  intros He m t H. destruct H as [|m s t s' Hs Hs' H].
  - exists []. split; [constructor|]. intros r. apply t_alt1. apply (t_run wide 10). reflexivity.
  - assert (He' : forall kv u, w_entry1 elt kv u -> no_space u /\ quote_first u /\ exists tok, P kv tok /\ forall r, takes false p u [tok] r).
    { intros kv u Hu. destruct (He kv u Hu) as [H1 H2]. split; [by apply quote_space|done]. }
    destruct (t_hcommas (w_entry1 elt) p quote_first P He' m t H) as (tok & toks & t0 & t1 & -> & Hn & Ho & H2 & Ht0 & Ht1).
    exists (tok :: toks). split; [done|]. intros r.
    apply t_alt2.
    + rewrite append_assoc. apply (r_seq2 sg false _ _ "{" [] _); [apply t_lit|]. rewrite !append_assoc. unfold spaces in Hs. destruct s as [|c s]; [by apply (r_quote false "}" t0)|].
      cbn [all_chars] in Hs. apply andb_prop in Hs as [Hc _]. apply Ascii.eqb_eq in Hc as <-. by apply r_lit1.
    + apply (t_seq sg false _ _ "{" _ [] _); [apply t_lit|]. apply (t_seq sg false _ _ s _ [] _); [apply t_spaces; [done|]; rewrite !append_assoc; by apply no_space_stops|].
      rewrite append_assoc. apply (t_seq sg false _ _ t0 _ [_] _); [apply Ht0|].
      eapply t_conv; [eapply (t_seq sg false _ _ t1 (s' +:+ "}") toks [])|done|by rewrite app_nil_r].
      * apply Ht1. rewrite append_assoc. unfold spaces in Hs'. destruct s' as [|c s']; [by apply r_lit1|].
        cbn [all_chars] in Hs'. apply andb_prop in Hs' as [Hc _]. apply Ascii.eqb_eq in Hc as <-. by apply r_lit1.
      * apply (t_seq sg false _ _ s' "}" [] []); [by apply t_spaces|apply t_lit].
Qed.
Lemma t_hentry1 (rk : srule) q u (p : pe srule) w tw r : sg rk = (Compound, PRul Rstring) -> forall stok, (forall at_ r, takes at_ (PRul Rstring) q [stok] r) -> spaces u -> no_space w ->
  takes false p w tw r ->
  takes false (PSeq (PRul rk) (PSeq (PLit ":") (PSeq g_spaces p))) (q +:+ ":" +:+ u +:+ w) (Pair rk q [stok] :: tw) r.
Proof.
  intros Hr stok Hq Hu Hw Ht. apply (t_seq sg false _ _ q _ [_] _); [eapply t_conv; [eapply t_rul; [exact Hr|apply Hq]|reflexivity|reflexivity]|].
  apply (t_seq sg false _ _ ":" _ [] _); [apply t_lit|]. apply (t_seq sg false _ _ u w [] _); [apply t_spaces; [done|by apply no_space_stops]|done].
Qed.
Lemma list_no_space l t : w_list l t -> no_space t.
Proof. intros H. destruct H; by eexists _, _. Qed.
(** proof helper *)
Definition kv_read (kv : string * nvalue) (tok : spair) : Prop := extract_kv tok = Ok kv.
Lemma t_hgroup kv t : w_entry1 (fun v t => exists l, v = VArr l /\ w_list l t) kv t -> quote_first t /\ exists tok, kv_read kv tok /\ forall r, takes false (PRul Rentry_code_key_value_pair) t [tok] r.
Proof.
  destruct kv as [k v]. intros (q & u & w & Hq & Hu & (l & Ev & Hl) & ->). cbn [fst snd] in *. subst v.
  destruct (t_quoted wide k q Hq) as (stok & Hr & Hk & Ht). destruct (t_hlist l w Hl) as (toks & Hc & Htk).
  split; [by eapply quote_app, quoted_first|].
  exists (Pair Rentry_code_key_value_pair (q +:+ ":" +:+ u +:+ w) [Pair Rentry_code_group_key q [stok]; Pair Rentry_code_list w toks]). split.
  - unfold kv_read. cbn [extract_kv]. rewrite Hr, Hk. cbn [obind]. rewrite Hc. reflexivity.
  - intros r. eapply t_conv; [eapply t_rul; [reflexivity|]|reflexivity|reflexivity].
    apply (t_hentry1 Rentry_code_group_key q u (PRul Rentry_code_list) w [_] r eq_refl stok); [done|done|by eapply list_no_space|apply Htk].
Qed.
Lemma t_hentry kv t : w_entry1 (fun v t => exists s, v = VVal s /\ w_quoted s t) kv t -> quote_first t /\ exists tok, kv_read kv tok /\ forall r, takes false (PRul Rentry_key_value_pair) t [tok] r.
Proof.
  destruct kv as [k v]. intros (q & u & w & Hq & Hu & (s & Ev & Hs) & ->). cbn [fst snd] in *. subst v.
  destruct (t_quoted wide k q Hq) as (stok & Hr & Hk & Ht). destruct (t_quoted wide s w Hs) as (vtok & Hvr & Hvk & Hvt).
  split; [by eapply quote_app, quoted_first|].
  exists (Pair Rentry_key_value_pair (q +:+ ":" +:+ u +:+ w) [Pair Rentry_key q [stok]; Pair Rentry_value w [vtok]]). split.
  - unfold kv_read. cbn [extract_kv]. rewrite Hr, Hk. cbn [obind]. rewrite Hvr, Hvk. reflexivity.
  - intros r. eapply t_conv; [eapply t_rul; [reflexivity|]|reflexivity|reflexivity].
    apply (t_hentry1 Rentry_key q u (PRul Rentry_value) w [_] r eq_refl stok); [done|done|by eapply quote_space, quoted_first|].
    eapply t_conv; [eapply t_rul; [reflexivity|apply Hvt]|reflexivity|reflexivity].
Qed.
Lemma insert_read m toks : Forall2 kv_read m toks -> NoDup (map fst m) -> insert_kvs toks [] = Ok m.
Proof. intros H Hn. rewrite (insert_kvs_fresh toks m []); [done| |done]. apply Forall2_flip. exact H. Qed.
Lemma t_hcode k e e' v w : name_ok k -> tight e -> tight e' -> w_code wide v w -> exists tok, says_kv k v tok /\
  forall r, stops (char_c wide) r -> takes false (PRul Rentry_code_key_pair) (k +:+ e +:+ "=" +:+ e' +:+ w) [tok] r.
Proof.
  intros Hk -> -> H.
  assert (T : exists inner, (forall t, says_kv k v (Pair Rentry_code_key_pair t [Pair Rattr_key k []; Pair Rentry_code_key_value w inner])) /\
    forall r, stops (char_c wide) r -> takes false (PRul Rentry_code_key_value) w [Pair Rentry_code_key_value w inner] r).
  { destruct H as [v t H|l t H|m t Hn H].
    - destruct (t_word wide Rkey_value v t ltac:(by exists Compound; split; [reflexivity|left]) H false ltac:(by left)) as (n & ns & Hx & Ht).
      exists [Pair Rkey_value t (n :: ns)]. split.
      + intros t'. unfold says_kv. cbn [extract_kv]. change (text_value (Pair Rentry_code_key_value t [Pair Rkey_value t (n :: ns)]) n) with (text_value (Pair Rkey_value t (n :: ns)) n). rewrite Hx. reflexivity.
      + intros r Hr. eapply t_conv; [eapply t_rul; [reflexivity|]|reflexivity|reflexivity]. apply t_alt1. by apply Ht.
    - destruct (t_hlist l t H) as (toks & Hc & Ht). exists [Pair Rentry_code_list t toks]. split.
      + intros t'. unfold says_kv. cbn [extract_kv]. rewrite Hc. reflexivity.
      + intros r _. eapply t_conv; [eapply t_rul; [reflexivity|]|reflexivity|reflexivity].
        assert (Hb : exists u, t = String "[" u) by (destruct H; by eexists). destruct Hb as [u ->].
        apply t_alt2; [by apply (r_run sg 20)|]. apply t_alt1. apply Ht.
    - destruct (t_hbraces _ (PRul Rentry_code_key_value_pair) kv_read t_hgroup m t H) as (toks & H2 & Ht). exists [Pair Rentry_code_object t toks]. split.
      + intros t'. unfold says_kv. rewrite code_elems, (insert_read m toks) by done. reflexivity.
      + intros r _. eapply t_conv; [eapply t_rul; [reflexivity|]|reflexivity|reflexivity].
        assert (Hb : exists u, t = String "{" u) by (destruct H; by eexists). destruct Hb as [u ->].
        apply t_alt2; [by apply (r_run sg 20)|]. apply t_alt2; [by apply (r_run sg 20)|].
        eapply t_conv; [eapply t_rul; [reflexivity|apply Ht]|reflexivity|reflexivity]. }
  destruct T as (inner & Hx & Ht). eexists. split; [apply Hx|]. intros r Hr. cbn [append].
  eapply t_conv; [eapply t_rul; [reflexivity|]|reflexivity|reflexivity].
  apply (t_seq sg false _ _ k _ [_] _); [by apply t_attr_key|]. apply (t_seq sg false _ _ "=" _ [] _); [apply t_lit|by apply Ht].
Qed.
Lemma t_hentries k e e' v w : name_ok k -> tight e -> tight e' -> w_entry wide v w -> exists tok, says_kv k v tok /\
  forall r, stops (char_c wide) r -> takes false (PRul Rentry_key_pair) (k +:+ e +:+ "=" +:+ e' +:+ w) [tok] r.
Proof.
  intros Hk -> -> H.
  assert (T : exists inner, (forall t, says_kv k v (Pair Rentry_key_pair t [Pair Rattr_key k []; Pair Rentry_key_value w inner])) /\
    forall r, stops (char_c wide) r -> takes false (PRul Rentry_key_value) w [Pair Rentry_key_value w inner] r).
  { destruct H as [v t H|m t Hn H].
    - destruct (t_word wide Rkey_value v t ltac:(by exists Compound; split; [reflexivity|left]) H false ltac:(by left)) as (n & ns & Hx & Ht).
      exists [Pair Rkey_value t (n :: ns)]. split.
      + intros t'. unfold says_kv. cbn [extract_kv]. change (text_value (Pair Rentry_key_value t [Pair Rkey_value t (n :: ns)]) n) with (text_value (Pair Rkey_value t (n :: ns)) n). rewrite Hx. reflexivity.
      + intros r Hr. eapply t_conv; [eapply t_rul; [reflexivity|]|reflexivity|reflexivity]. apply t_alt1. by apply Ht.
    - destruct (t_hbraces _ (PRul Rentry_key_value_pair) kv_read t_hentry m t H) as (toks & H2 & Ht). exists [Pair Rentry_object t toks]. split.
      + intros t'. unfold says_kv. rewrite entry_elems, (insert_read m toks) by done. reflexivity.
      + intros r _. eapply t_conv; [eapply t_rul; [reflexivity|]|reflexivity|reflexivity].
        assert (Hb : exists u, t = String "{" u) by (destruct H; by eexists). destruct Hb as [u ->].
        apply t_alt2; [by apply (r_run sg 20)|].
        eapply t_conv; [eapply t_rul; [reflexivity|apply Ht]|reflexivity|reflexivity]. }
  destruct T as (inner & Hx & Ht). eexists. split; [apply Hx|]. intros r Hr. cbn [append].
  eapply t_conv; [eapply t_rul; [reflexivity|]|reflexivity|reflexivity].
  apply (t_seq sg false _ _ k _ [_] _); [by apply t_attr_key|]. apply (t_seq sg false _ _ "=" _ [] _); [apply t_lit|by apply Ht].
Qed.

(** ** Attribute types *)
(** proof helper (the rule _attr_type, semantics/oca-file/src/ocafile.pest:250) *)
Definition g_top : pe srule := PAlts [PRul Rbase_attr_type; PRul Rarray_attr_type; g_ref_said; g_ref_alias].
(** proof helper (the elements of arrays, semantics/oca-file/src/ocafile.pest:242) *)
Definition g_elt : pe srule := PAlts [PRul Rbase_attr_type; g_reference_type; PRul Rarray_attr_type].
Lemma spelled_first t c w : spelled t (String c w) -> exists d u, t = String d u /\ lower d = c /\ spelled u w.
Proof. unfold spelled. destruct t as [|d u]; [done|]. cbn [lower_str]. intros [= <- <-]. by exists d, u. Qed.
Lemma lower_r d : lower d = "r"%char -> d = "r"%char \/ d = "R"%char.
Proof. destruct d as [[] [] [] [] [] [] [] []]; vm_compute; intros H; try discriminate H; tauto. Qed.
Lemma t_htype t u : w_type t u -> exists tok, extract_attr_type said_ok tok = Ok t /\ opens u /\
  (forall r, stops (char_c wide) r -> takes false g_top u [tok] r) /\ (forall r, stops (char_c wide) r -> takes false g_elt u [tok] r).
Proof.
  induction 1 as [a|r s Hr Hw Hok|r s Hr Hw|u g t g' Hg Hg' Hu IH].
  - exists (Pair Rbase_attr_type (attr_type_name a) []). split; [by destruct a|]. split; [destruct a; by eexists _, _|].
    split; intros r _; apply t_alt1; apply (t_base wide).
  - assert (B : forall at_ x, rejects at_ (PRul Rbase_attr_type) (r +:+ x) /\ rejects at_ (PRul Rarray_attr_type) (r +:+ x)).
    { intros at_ x. destruct (spelled_first _ _ _ Hr) as (d & u & -> & Hd & _). destruct (lower_r d Hd) as [-> | ->]; split; by apply (r_run sg 20). }
    assert (T : forall x, stops (char_c wide) x -> takes false g_ref_said (r +:+ s) [Pair Rsaid s []] x).
    { intros x Hx. apply (t_seq sg false _ _ r s [] _); [by apply t_spelled|]. eapply t_conv; [eapply t_rul; [reflexivity|by apply t_chars]|reflexivity|reflexivity]. }
    exists (Pair Rsaid s []). split; [cbn; by rewrite Hok|]. split.
    { destruct (spelled_first _ _ _ Hr) as (d & u & -> & Hd & _). exists d, (u +:+ s)%string. split; [done|]. by destruct (lower_r d Hd) as [-> | ->]. }
    split; intros x Hx; (apply t_alt2; [rewrite append_assoc; apply B|]).
    + apply t_alt2; [rewrite append_assoc; apply B|]. apply t_alt1. by apply T.
    + apply t_alt1, t_alt1. by apply T.
  - assert (B : forall at_ x, rejects at_ (PRul Rbase_attr_type) (r +:+ x) /\ rejects at_ (PRul Rarray_attr_type) (r +:+ x) /\ rejects at_ g_ref_said (r +:+ x)).
    { intros at_ x. split; [|split]; [| |apply r_seq1; by eapply r_spelled]; destruct (spelled_first _ _ _ Hr) as (d & u & -> & Hd & _);
        destruct (lower_r d Hd) as [-> | ->]; by apply (r_run sg 20). }
    assert (T : forall x, stops (char_c wide) x -> takes false g_ref_alias (r +:+ s) [Pair Ralias s []] x).
    { intros x Hx. apply (t_seq sg false _ _ r s [] _); [by apply t_spelled|]. eapply t_conv; [eapply t_rul; [reflexivity|by apply t_chars]|reflexivity|reflexivity]. }
    exists (Pair Ralias s []). split; [done|]. split.
    { destruct (spelled_first _ _ _ Hr) as (d & u & -> & Hd & _). exists d, (u +:+ s)%string. split; [done|]. by destruct (lower_r d Hd) as [-> | ->]. }
    split; intros x Hx; (apply t_alt2; [rewrite append_assoc; apply B|]).
    + apply t_alt2; [rewrite append_assoc; apply B|]. apply t_alt2; [rewrite append_assoc; apply B|]. by apply T.
    + apply t_alt1, t_alt2; [rewrite append_assoc; apply B|]. by apply T.
  - destruct IH as (tok & Hx & Ho & _ & Ht).
    assert (T : forall r, takes false (PRul Rarray_attr_type) ("Array[" +:+ g +:+ t +:+ g' +:+ "]") [Pair Rarray_attr_type ("Array[" +:+ g +:+ t +:+ g' +:+ "]") [tok]] r).
    { intros r. assert (Hob : opens ("]" +:+ r)) by (by exists "]"%char, r).
      eapply t_conv; [eapply t_rul; [reflexivity|]|reflexivity|reflexivity]. apply (t_seq sg false _ _ "Array[" _ [] _); [apply t_lit|].
      apply (t_seq sg false _ _ g _ [] _); [apply t_ogap; [done|]; rewrite append_assoc; by apply opens_app|].
      apply (t_seq sg false _ _ t _ [tok] _).
      - apply Ht. rewrite append_assoc. destruct g' as [|c g']; [done|]. by apply sep_stops.
      - apply (t_seq sg false _ _ g' "]" [] []); [by apply t_ogap|apply t_lit]. }
    exists (Pair Rarray_attr_type ("Array[" +:+ g +:+ t +:+ g' +:+ "]") [tok]). split; [cbn [extract_attr_type]; by rewrite Hx|]. split; [by eexists _, _|].
    split; intros r _; (apply t_alt2; [by apply (r_run sg 20)|]).
    + apply t_alt1. apply T.
    + apply t_alt2; [by apply (r_run sg 20)|]. apply T.
Qed.
(** proof helper *)
Definition says_attr (k : string) (t : nattr) (tok : spair) : Prop := extract_attribute said_ok tok = Ok (k, t).
Lemma t_hattr k e e' t w : name_ok k -> gap e -> gap e' -> w_type t w -> exists tok, says_attr k t tok /\
  forall r, stops (char_c wide) r -> takes false (PRul Rattr_pair) (k +:+ e +:+ "=" +:+ e' +:+ w) [tok] r.
Proof.
  intros Hk He He' H. destruct (t_htype t w H) as (tok & Hx & Ho & Ht & _).
  exists (Pair Rattr_pair (k +:+ e +:+ "=" +:+ e' +:+ w) [Pair Rattr_key k []; Pair R_attr_type w [tok]]). split.
  - unfold says_attr, extract_attribute. cbn [p_inner attribute_items]. by rewrite Hx.
  - intros r Hr. eapply t_conv; [eapply t_rul; [reflexivity|]|reflexivity|reflexivity].
    apply (t_heq true _ _ k e e' w [_] [_]); [done|done|done| |].
    + intros x Hx'. apply t_attr_key; [done|by apply key_stops].
    + eapply t_conv; [eapply t_rul; [reflexivity|by apply Ht]|reflexivity|reflexivity].
Qed.
End HandLines.
