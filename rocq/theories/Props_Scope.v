(** C55: the scope of a search record. *)
From Verif Require Import Spec_Scope Regex_proofs Standard_proofs Scope_proofs Condition_proofs Spec_Index Index_proofs Props_Index Props_Index2 Props_Storage
  Facade_proofs Props_Facade Props_Codec Props_BundleCodec BundleCodec_proofs Spec_Crash Props_Crash Checkers Props_Bundle Props_History Props_Build Build.
Local Open Scope list_scope.

Lemma contained (lead trail : bool) t : all_chars (fun c => negb (Ascii.eqb c "|")) t = true -> t <> "" ->
  match t with String c _ => existsb (Ascii.eqb c) ["*"; "+"; "?"]%char = false | "" => False end ->
  self_contained ((if lead then ".*" else "") +:+ t +:+ (if trail then ".*" else "")) = true.
Proof.
  intros Hb Hn Hc. unfold self_contained. rewrite !all_chars_app, Hb. destruct t as [|c t]; [done|]. destruct lead, trail; cbn [all_chars String.append andb]; by rewrite ?Hc.
Qed.
Lemma ordinary_head t : ordinary_text t -> t <> "" -> match t with String c _ => existsb (Ascii.eqb c) ["*"; "+"; "?"]%char = false | "" => False end.
Proof.
  intros Ht Hn. destruct t as [|c t]; [done|]. unfold ordinary_text in Ht. cbn [all_chars] in Ht. apply andb_true_iff in Ht as [Ht _].
  cbn [existsb]. rewrite !(fun d H => proj1 (negb_true_iff _) (ordinary_no d c H Ht)) by reflexivity. done.
Qed.
Lemma scope_tree other lead trail ps r : ordinary_text (snippet_words ps) -> snippet_words ps <> "" -> one_line (ft_name r) -> one_line (ft_descr r) ->
  get_scope other (snippet_of lead trail ps) r =
  Ok (if matches_line (plain_rx lead trail (snippet_words ps)) (la (ft_name r) ++ newline :: la ("meta_overlay:" +:+ ft_descr r +:+ String newline "")) then owner else
      if matches_line (plain_rx lead trail (snippet_words ps)) (la (ft_descr r) ++ [newline]) then owner else "").
Proof.
  intros Ht Hn H1 H2. unfold get_scope. rewrite pattern_of by (done || (by apply ordinary_angle) || (by apply ordinary_dot)). cbn [obind].
  rewrite contained by (done || (by apply ordinary_bar) || (by apply ordinary_head)). cbn [negb]. rewrite pattern_tree, two_lines, groups_plain by done.
  destruct (matches_line _ _); [by rewrite string_of_list_ascii_of_string|]. destruct (matches_line _ _); [by rewrite string_of_list_ascii_of_string|done].
Qed.

(** The scope of a record whose name and description are on one line, for a snippet of ordinary characters: meta_overlay
    if the snippet, with its cut ends, is taken from the name or the description, and nothing otherwise. *)
Theorem C55_scope : forall other lead trail ps r,
  ordinary_text (snippet_words ps) -> snippet_words ps <> "" -> one_line (ft_name r) -> one_line (ft_descr r) ->
  (taken_from lead trail (snippet_words ps) (ft_name r) \/ taken_from lead trail (snippet_words ps) (ft_descr r) ->
    get_scope other (snippet_of lead trail ps) r = Ok "meta_overlay") /\
  (~ taken_from lead trail (snippet_words ps) (ft_name r) -> ~ taken_from lead trail (snippet_words ps) (ft_descr r) ->
    get_scope other (snippet_of lead trail ps) r = Ok "").
Proof.
  intros other lead trail ps r Ht Hn H1 H2. rewrite scope_tree by done. pose proof (ordinary_line _ Ht) as Hl.
  pose proof (plain_line lead trail (snippet_words ps) (ft_name r) (la ("meta_overlay:" +:+ ft_descr r +:+ String newline "")) Hl H1) as M1.
  pose proof (plain_line lead trail (snippet_words ps) (ft_descr r) [] Hl H2) as M2.
  destruct (matches_line _ (la (ft_name r) ++ _)), (matches_line _ (la (ft_descr r) ++ _)); split; try done.
  - intros N. exfalso. by apply N, M1.
  - intros N. exfalso. by apply N, M1.
  - intros _ N. exfalso. by apply N, M2.
  - intros [T|T]; [apply M1 in T|apply M2 in T]; discriminate.
Qed.
Print Assumptions C55_scope.

(** Whatever the snippet: a pattern that is read and does not abort gives meta_overlay or nothing for names and
    descriptions on one line. *)
Theorem C55_scope_values : forall other snip r, one_line (ft_name r) -> one_line (ft_descr r) ->
  get_scope other snip r ∈ [Ok "meta_overlay"; Ok ""; Panic; other snip r].
Proof.
  intros other snip r H1 H2. unfold get_scope. destruct (snippet_pattern snip) as [p|es|] eqn:E; cbn [obind]; [|exfalso|do 2 right; left].
  2: { unfold snippet_pattern, open_end in E. destruct (reverse _) as [|[|] [|]]; discriminate. }
  destruct (negb (self_contained p)); [do 3 right; left|]. destruct (rx_new p) as [t| |]; [|do 2 right; left|do 3 right; left].
  rewrite two_lines by done. destruct (matches_line t _); [|destruct (matches_line t _)]; [| |right; left]; rewrite string_of_list_ascii_of_string;
    (destruct (Nat.eqb (rx_groups t) 0); [left|do 2 right; left]).
Qed.
Print Assumptions C55_scope_values.

(** Search after any history of builds, when the snippets SQLite gives are of ordinary characters and taken from the
    (one-line) name or description of their row: it answers, and every record has the scope meta_overlay. *)
Theorem C55_search : forall from1 to1 listing said_ok digits lang_ok standard_read to_text of_text hash hits snippet other h f lang q limit page hs,
  text_ok to_text of_text -> digits_class digits -> sound said_ok digits lang_ok h -> builds from1 to1 listing to_text hash h f ->
  hits_ok hits -> hits lang q (fa_fts f) = Ok hs -> (1 <= page)%nat ->
  (forall r, r ∈ hs -> one_line (ft_name r) /\ one_line (ft_descr r) /\ exists lead trail ps, snippet q r = snippet_of lead trail ps /\
     ordinary_text (snippet_words ps) /\ snippet_words ps <> "" /\ (taken_from lead trail (snippet_words ps) (ft_name r) \/ taken_from lead trail (snippet_words ps) (ft_descr r))) ->
  exists l, search said_ok digits lang_ok standard_read of_text hits snippet (get_scope other) lang q limit page f = Ok (l, length hs) /\
    Forall2 (fun r x => b_said (fd_bundle x) = Some (ft_said r) /\ fd_phrase x = snippet q r /\ fd_scope x = "meta_overlay")
      (take limit (drop ((page - 1) * limit) hs)) l.
Proof.
  intros f1 t1 ls so dg lo sr tt ot hs0 hits snippet other h f lang q limit page hs Ht Hd Hs Hb Hh Eh Hp Hr.
  assert (Hsc : forall r, r ∈ hs -> get_scope other (snippet q r) r = Ok "meta_overlay").
  { intros r Hin. destruct (Hr r Hin) as (H1 & H2 & lead & trail & ps & -> & Ho & Hn & Htk). by apply (proj1 (C55_scope other lead trail ps r Ho Hn H1 H2)). }
  destruct (C43_search f1 t1 ls so dg lo sr tt ot hs0 hits snippet (get_scope other) h f lang q limit page hs Ht Hd Hs Hb Hh Eh) as (l & El & _ & HF); [|done|].
  { intros r Hin. by rewrite Hsc. }
  exists l. split; [done|]. assert (HI : forall r, r ∈ take limit (drop ((page - 1) * limit) hs) -> r ∈ hs).
  { intros r Hx. apply elem_of_take in Hx as (i & Hi & _). rewrite lookup_drop in Hi. by apply elem_of_list_lookup_2 in Hi. }
  clear -HF Hsc HI. induction HF as [|r x rs l (B & _ & _ & E & _ & _ & E1 & E2) _ IH]; [constructor|]. constructor; [|apply IH; intros r' Hr'; apply HI; by right].
  split; [done|]. split; [done|]. rewrite Hsc in E2 by (apply HI; left). by injection E2.
Qed.
Print Assumptions C55_search.

(** Found: the snippet becomes a pattern as it is.  An opening parenthesis that is not closed in the snippet aborts. *)
Theorem C55_parenthesis_refuted : forall other lead trail ps x y r, snippet_words ps = x +:+ "(" +:+ y -> ordinary_text x -> ordinary_text y ->
  get_scope other (snippet_of lead trail ps) r = Panic.
Proof.
  intros other lead trail ps x y r E Hx Hy. unfold get_scope.
  assert (HA : no_angle (snippet_words ps)). { rewrite E. unfold no_angle. rewrite !all_chars_app. rewrite (ordinary_angle _ Hx), (ordinary_angle _ Hy). done. }
  assert (HD : no_dot (snippet_words ps)). { rewrite E. unfold no_dot. rewrite !all_chars_app. rewrite (ordinary_dot _ Hx), (ordinary_dot _ Hy). done. }
  assert (HB : all_chars (fun c => negb (Ascii.eqb c "|")) (snippet_words ps) = true). { rewrite E. rewrite !all_chars_app. rewrite (ordinary_bar _ Hx), (ordinary_bar _ Hy). done. }
  assert (HN : snippet_words ps <> "") by (rewrite E; by destruct x).
  rewrite pattern_of by done. cbn [obind]. rewrite contained; [|done|done|].
  2: { rewrite E. destruct x as [|c x]; [done|]. by apply (ordinary_head (String c x)). }
  cbn [negb]. rewrite E. unfold rx_new. rewrite !la_app, <- !app_assoc.
  destruct (scan_dots lead (la x ++ la "(" ++ la y ++ la (if trail then ".*" else "")) MPlain [] [] [] I) as (m & Hm & ->).
  assert (S : forall m cur, plain_mode m -> exists cur', rx_scan (la x ++ la "(" ++ la y ++ la (if trail then ".*" else "")) m [] [] cur =
    rx_scan (la y ++ la (if trail then ".*" else "")) MOpen [([], cur')] [] []).
  { intros m0 cur Hm0. destruct x as [|c x].
    - exists cur. destruct m0; try contradiction; reflexivity.
    - exists (reverse (map RChar (la (String c x))) ++ cur). rewrite scan_text; [reflexivity|done|by apply ordinary_special|done]. }
  destruct (S m (dots lead ++ []) Hm) as [cur' ->].
  assert (S2 : exists m' cur2, plain_mode m' /\ rx_scan (la y ++ la (if trail then ".*" else "")) MOpen [([], cur')] [] [] =
    rx_scan (la (if trail then ".*" else "")) m' [([], cur')] [] cur2).
  { destruct y as [|c y]; [exists MOpen, []; done|]. exists MPlain, (reverse (map RChar (la (String c y))) ++ []). split; [done|].
    apply scan_text; [done|by apply ordinary_special|done]. }
  destruct S2 as (m' & cur2 & Hm' & ->). rewrite <- (app_nil_r (la (if trail then _ else _))).
  destruct (scan_dots trail [] m' [([], cur')] [] cur2 Hm') as (m2 & Hm2 & ->). destruct m2; try contradiction; reflexivity.
Qed.
Print Assumptions C55_parenthesis_refuted.
(** So one stored bundle with such a name makes every search that finds it first abort, whatever is searched for. *)
Theorem C55_search_parenthesis_refuted : forall said_ok digits lang_ok standard_read of_text hits snippet other lang q limit f r rs lead trail ps x y,
  hits lang q (fa_fts f) = Ok (r :: rs) -> snippet q r = snippet_of lead trail ps -> snippet_words ps = x +:+ "(" +:+ y -> ordinary_text x -> ordinary_text y ->
  search said_ok digits lang_ok standard_read of_text hits snippet (get_scope other) lang q (S limit) 1 f = Panic.
Proof.
  intros so dg lo sr ot hits snippet other lang q limit f r rs lead trail ps x y Eh Es Ew Hx Hy. cbn [search]. rewrite Eh. cbn [obind Nat.mul drop take found_rows].
  by rewrite Es, (C55_parenthesis_refuted other lead trail ps x y r Ew Hx Hy).
Qed.
Print Assumptions C55_search_parenthesis_refuted.
(** Found: parentheses that are closed do not stand for themselves: a name that is exactly the snippet is not found. *)
Theorem C55_parentheses_refuted : forall other a b c r, ordinary_text a -> ordinary_text b -> ordinary_text c ->
  b <> "" -> one_line (ft_descr r) -> ft_descr r <> a +:+ b +:+ c -> ft_name r = a +:+ "(" +:+ b +:+ ")" +:+ c ->
  get_scope other (ft_name r) r = Ok "".
Proof.
  intros other a b c r Ha Hb Hc Hbn Hd Hne En. set (ps := [(false, ft_name r)]).
  assert (Ew : snippet_words ps = ft_name r) by done. assert (Es : snippet_of false false ps = ft_name r) by (unfold ps, snippet_of, marked_text; cbn; by rewrite append_nil_r).
  assert (HA : no_angle (snippet_words ps)). { rewrite Ew, En. unfold no_angle. rewrite !all_chars_app. rewrite (ordinary_angle _ Ha), (ordinary_angle _ Hb), (ordinary_angle _ Hc). done. }
  assert (HD : no_dot (snippet_words ps)). { rewrite Ew, En. unfold no_dot. rewrite !all_chars_app. rewrite (ordinary_dot _ Ha), (ordinary_dot _ Hb), (ordinary_dot _ Hc). done. }
  assert (HB : all_chars (fun c => negb (Ascii.eqb c "|")) (snippet_words ps) = true).
  { rewrite Ew, En, !all_chars_app. rewrite (ordinary_bar _ Ha), (ordinary_bar _ Hb), (ordinary_bar _ Hc). done. }
  assert (HL : one_line (ft_name r)). { rewrite En. unfold one_line. rewrite !all_chars_app. rewrite (ordinary_line _ Ha), (ordinary_line _ Hb), (ordinary_line _ Hc). done. }
  assert (HN : snippet_words ps <> "") by (rewrite Ew, En; by destruct a).
  unfold get_scope. rewrite <- Es at 1. rewrite (pattern_of false false) by done. cbn [obind].
  rewrite (contained false false); [|done|done|]. 2: { rewrite Ew, En. destruct a as [|d a]; [done|]. by apply (ordinary_head (String d a)). }
  cbn [negb]. cbn [String.append]. rewrite Ew, append_nil_r.
  assert (T : exists t, rx_new (ft_name r) = RxTree t /\ forall s, means t s <-> s = la (a +:+ b +:+ c)).
  { rewrite En. unfold rx_new. rewrite !la_app.
    assert (S : forall u w m stack cur, plain_mode m -> ordinary_text u -> exists m', plain_mode m' /\ (w <> [] -> m = MOpen -> u = "" -> m' = MOpen) /\
      rx_scan (la u ++ w) m stack [] cur = rx_scan w m' stack [] (reverse (map RChar (la u)) ++ cur)).
    { intros u w m stack cur Hm Hu. destruct u as [|d u]; [exists m; done|]. exists MPlain. split; [done|]. split; [done|].
      apply scan_text; [done|by apply ordinary_special|done]. }
    destruct (S a (la "(" ++ la b ++ la ")" ++ la c) MPlain [] [] I Ha) as (m1 & H1 & _ & ->).
    assert (P1 : forall w cur, rx_scan (la "(" ++ w) m1 [] [] cur = rx_scan w MOpen [([], cur)] [] []) by (intros w cur; destruct m1; try contradiction; reflexivity).
    rewrite P1. destruct (S b (la ")" ++ la c) MOpen [([], reverse (map RChar (la a)) ++ [])] [] I Hb) as (m2 & H2 & _ & ->).
    assert (P2 : forall w cur0 cur, rx_scan (la ")" ++ w) m2 [([], cur0)] [] cur = rx_scan w MPlain [] [] (RGroup (alt_of [] cur) :: cur0)) by (intros w cur0 cur; destruct m2; try contradiction; reflexivity).
    rewrite P2. destruct (S c [] MPlain [] (RGroup (alt_of [] (reverse (map RChar (la b)) ++ [])) :: reverse (map RChar (la a)) ++ []) I Hc) as (m3 & H3 & _ & S3).
    rewrite (app_nil_r (la c)) in S3. rewrite S3. clear S3. rewrite !app_nil_r. eexists. split; [destruct m3; try contradiction; reflexivity|]. intros s. cbn [alt_of fold_left]. rewrite cat_means.
    rewrite reverse_app, reverse_cons, !reverse_involutive. rewrite <- app_assoc. cbn [app]. rewrite means_all_app. setoid_rewrite chars_means. split.
    - intros (u & v & -> & -> & Hv). inversion Hv as [|? ? v1 v2 Hv1 Hv2]; subst. apply means_group, cat_means in Hv1. rewrite reverse_involutive in Hv1.
      apply chars_means in Hv1 as ->. apply chars_means in Hv2 as ->. done.
    - intros ->. exists (la a), (la b ++ la c). split; [done|]. split; [done|]. constructor; [|by apply chars_means]. apply m_group, cat_means.
      rewrite reverse_involutive. by apply chars_means. }
  destruct T as (t & -> & Ht). rewrite two_lines by done.
  assert (X : forall field rest, one_line field -> field <> a +:+ b +:+ c -> matches_line t (la field ++ newline :: rest) = false).
  { intros field rest Hf Hx. apply not_true_iff_false. rewrite matches_line_spec. intros (x & y & E & Hm & Hy). apply Ht in Hm as ->. symmetry in E.
    assert (HX : one_line (a +:+ b +:+ c)). { unfold one_line. rewrite !all_chars_app. by rewrite (ordinary_line _ Ha), (ordinary_line _ Hb), (ordinary_line _ Hc). }
    apply (line_split _ y _ _ (one_line_list _ HX) (one_line_list _ Hf) Hy) in E. apply Hx. symmetry. by apply la_inj. }
  rewrite !X; [done|done|done|done|]. rewrite En. intros E. apply (f_equal String.length) in E. rewrite !length_append in E. cbn in E. lia.
Qed.
Print Assumptions C55_parentheses_refuted.
(** Found: a name of several lines: the scope of a description that is found can be the end of the name. *)
Theorem C55_lines_refuted : exists r snip, snip = snippet_of false false [(false, "A "); (true, "box")] /\ ft_descr r = "A box" /\
  forall other, get_scope other snip r = Ok ("tools" +:+ String newline "" +:+ "meta_overlay").
Proof. exists (FtsRow ("My" +:+ String newline "" +:+ "tools") "A box" "eng" "E1"), "A <mark>box</mark>". split; [reflexivity|]. split; [done|]. intros other. vm_compute. reflexivity. Qed.
Print Assumptions C55_lines_refuted.

(** Snippets that meet the hypotheses, from one history of builds. *)
Theorem C55_hypotheses_met : exists h f r, ex_builds h f /\ sound ex_said_ok ascii_digits ex_lang_ok h /\ fa_fts f = [r] /\
  one_line (ft_name r) /\ one_line (ft_descr r) /\ ordinary_text (snippet_words [(false, "A "); (true, "box")]) /\
  taken_from false false (snippet_words [(false, "A "); (true, "box")]) (ft_descr r) /\ taken_from true false (snippet_words [(true, "box")]) (ft_descr r) /\
  ~ taken_from false true (snippet_words [(true, "box")]) (ft_name r) /\
  snippet_of true false [(true, "box")] = "...<mark>box</mark>" /\
  (forall other, get_scope other "...<mark>box</mark>" r = Ok "meta_overlay" /\ get_scope other "<mark>box</mark>..." r = Ok "").
Proof.
  assert (H : match ex_ast None (mk_ast (ex_first ++ ex_meta)), ex_ast None (mk_ast (ex_first ++ ex_second)) with BuildOk B1 s1, BuildOk B2 s2 =>
    match ex_build B1 s1 facade_new with Ok (f1, _) => match ex_build B2 s2 f1 with Ok (f2, _) =>
        sound_check [(B1, s1); (B2, s2)] && match fa_fts f2 with [r] => String.eqb (ft_name r) "Box" && String.eqb (ft_descr r) "A box" | _ => false end
      | _ => false end | _ => false end | _, _ => false end = true) by (vm_compute; reflexivity).
  revert H. generalize (ex_ast None (mk_ast (ex_first ++ ex_meta))), (ex_ast None (mk_ast (ex_first ++ ex_second))). intros r1 r2 H.
  destruct r1 as [B1 s1| |]; [|discriminate H|discriminate H]. destruct r2 as [B2 s2| |]; [|discriminate H|discriminate H].
  destruct (ex_build B1 s1 facade_new) as [[f1 B1']| |] eqn:E1; [|discriminate H|discriminate H]. destruct (ex_build B2 s2 f1) as [[f2 B2']| |] eqn:E2; [|discriminate H|discriminate H].
  apply andb_true_iff in H as [H1 H2]. destruct (fa_fts f2) as [|r [|]] eqn:Ef; try discriminate H2. apply andb_true_iff in H2 as [Hn Hd].
  apply String.eqb_eq in Hn, Hd.
  exists [(B1, s1); (B2, s2)], f2, r. split; [exact (ex_builds_two _ _ _ _ _ _ _ _ E1 E2)|]. split; [by apply sound_check_ok|]. split; [exact Ef|].
  destruct r as [nm ds lg sd]. cbn [ft_name ft_descr] in *. subst nm ds. split; [reflexivity|]. split; [reflexivity|]. split; [reflexivity|].
  split; [exists "", ""; split; [reflexivity|]; split; intros; reflexivity|]. split; [exists "A ", ""; split; [reflexivity|]; split; [discriminate|intros; reflexivity]|].
  split; [intros (a & b & E & Ha & _); rewrite (Ha eq_refl) in E; discriminate E|]. split; [reflexivity|]. intros other. split; vm_compute; reflexivity.
Qed.
