(** The pattern made from a snippet, and what it finds. *)
From Verif Require Import Spec_Scope Regex_proofs Standard_proofs Condition_proofs.

(** ** Marks *)
Definition gone (p s t : string) : Prop := forall n, String.length s <= n -> remove_all n p s = t.
Lemma gone_without p s t : gone p s t -> without p s = t.
Proof. intros H. by apply H. Qed.
Lemma gone_nil p : gone p "" "".
Proof. intros n _. by destruct n. Qed.
Lemma strip_fail (c d : ascii) p s : c <> d -> strip Ascii.eqb (String c p) (String d s) = None.
Proof. intros H. cbn. by destruct (Ascii.eqb_spec c d). Qed.
Lemma gone_char c p d s t : c <> d -> gone (String c p) s t -> gone (String c p) (String d s) (String d t).
Proof.
  intros Hc H n Hn. cbn [String.length] in Hn. destruct n as [|n]; [lia|]. cbn [remove_all]. rewrite strip_fail by done. f_equal. apply H. lia.
Qed.
Lemma gone_text c p u s t : all_chars (fun d => negb (Ascii.eqb d c)) u = true -> gone (String c p) s t -> gone (String c p) (u +:+ s) (u +:+ t).
Proof.
  intros Hu H. induction u as [|d u IH]; [done|]. cbn in Hu. apply andb_true_iff in Hu as [Hd Hu]. cbn. apply gone_char; [|auto].
  apply negb_true_iff, Ascii.eqb_neq in Hd. congruence.
Qed.
Lemma strip_self p s : exists x, strip Ascii.eqb p (p +:+ s) = Some (x, s).
Proof. induction p as [|c p IH]; [by exists ""|]. cbn. rewrite Ascii.eqb_refl. destruct IH as [x ->]. cbn. eauto. Qed.
Lemma gone_mark c p s t : gone (String c p) s t -> gone (String c p) (String c p +:+ s) t.
Proof.
  intros H n Hn. destruct (strip_self (String c p) s) as [x Ex]. cbn in Hn. destruct n as [|n]; [lia|].
  change (String c p +:+ s) with (String c (p +:+ s)) in *. cbn [remove_all]. rewrite Ex. apply H. rewrite length_append in Hn. lia.
Qed.
Definition no_angle (s : string) : Prop := all_chars (fun d => negb (Ascii.eqb d "<")) s = true.
Lemma concat_empty (l : list string) : String.concat "" l = foldr String.append "" l.
Proof.
  induction l as [|x l IH]; [done|]. cbn [foldr]. rewrite <- IH. destruct l as [|y l]; [cbn; by rewrite append_nil_r|]. done.
Qed.
Lemma unmark_snippet lead trail ps : no_angle (snippet_words ps) ->
  unmark (snippet_of lead trail ps) = (if lead then "..." else "") +:+ snippet_words ps +:+ (if trail then "..." else "").
Proof.
  unfold snippet_of, marked_text, snippet_words, no_angle. rewrite !concat_empty. intros Hw. unfold unmark.
  assert (Hp : Forall (fun p : bool * string => no_angle p.2) ps).
  { clear -Hw. induction ps as [|p ps IH]; [constructor|]. cbn [map foldr] in Hw. rewrite all_chars_app in Hw. apply andb_true_iff in Hw as [H1 H2]. constructor; auto. }
  clear Hw. set (tl := if trail then "..." else ""). set (hd := if lead then "..." else "").
  assert (Ht : no_angle tl) by by destruct trail. assert (Hh : no_angle hd) by by destruct lead.
  set (half := foldr String.append "" (map (fun p : bool * string => if p.1 then p.2 +:+ "</mark>" else p.2) ps)).
  assert (E1 : without "<mark>" (hd +:+ foldr String.append "" (map (fun p : bool * string => if p.1 then "<mark>" +:+ p.2 +:+ "</mark>" else p.2) ps) +:+ tl) = hd +:+ half +:+ tl).
  { apply gone_without, gone_text; [done|]. subst half. clear -Hp Ht. induction Hp as [|[[] t] ps Hp _ IH].
    - cbn [map foldr]. rewrite <- (append_nil_r tl). apply (gone_text "<" _ tl "" ""); [done|apply gone_nil].
    - cbn [map foldr fst snd] in *. rewrite !append_assoc. apply (gone_mark "<" "mark>"). apply gone_text; [done|].
      intros n Hn. cbn in Hn. destruct n as [|n]; [lia|]. change ("</mark>" +:+ ?x) with (String "<" ("/mark>" +:+ x)). cbn [remove_all].
      change (strip Ascii.eqb "<mark>" (String "<" ?x)) with (@None (string * string)). cbn [String.append]. f_equal.
      eapply (gone_text "<" "mark>" "/mark>"); [done|exact IH|]. cbn. lia.
    - cbn [map foldr fst snd] in *. rewrite !append_assoc. apply gone_text; [done|exact IH]. }
  rewrite E1. apply gone_without, gone_text; [done|]. subst half. clear -Hp Ht. induction Hp as [|[[] t] ps Hp _ IH].
  - cbn [map foldr]. rewrite <- (append_nil_r tl). apply (gone_text "<" _ tl "" ""); [done|apply gone_nil].
  - cbn [map foldr fst snd] in *. rewrite !append_assoc. apply gone_text; [done|]. apply (gone_mark "<" "/mark>"). exact IH.
  - cbn [map foldr fst snd] in *. rewrite !append_assoc. apply gone_text; [done|exact IH].
Qed.

(** ** Ellipses *)
Definition no_dot (s : string) : Prop := all_chars (fun d => negb (Ascii.eqb d ".")) s = true.
Definition cut (s : string) (h : string -> list string) : Prop := forall n acc, String.length s < n -> split_dots n s acc = h acc.
Lemma cut_nil : cut "" (fun acc => [acc]).
Proof. intros n acc _. by destruct n. Qed.
Lemma cut_text u s h : no_dot u -> cut s h -> cut (u +:+ s) (fun acc => h (acc +:+ u)).
Proof.
  intros Hu H. revert Hu. induction u as [|d u IH]; intros Hu.
  - intros n acc Hn. rewrite append_nil_r. by apply H.
  - unfold no_dot in Hu. cbn in Hu. apply andb_true_iff in Hu as [Hd Hu]. intros n acc Hn. cbn in Hn. destruct n as [|n]; [lia|].
    change (String d u +:+ s) with (String d (u +:+ s)). cbn [split_dots]. rewrite strip_fail by (apply negb_true_iff, Ascii.eqb_neq in Hd; congruence).
    rewrite (IH Hu) by lia. by rewrite append_assoc.
Qed.
Lemma cut_dots s h : cut s h -> cut ("..." +:+ s) (fun acc => acc :: h "").
Proof.
  intros H n acc Hn. destruct (strip_self "..." s) as [x Ex]. cbn in Hn. destruct n as [|n]; [lia|].
  change ("..." +:+ s) with (String "." (".." +:+ s)) in *. cbn [split_dots]. rewrite Ex. f_equal. apply H. lia.
Qed.
Lemma pieces_of (lead trail : bool) t : no_dot t ->
  pieces ((if lead then "..." else "") +:+ t +:+ (if trail then "..." else "")) =
  (if lead then [""] else []) ++ t :: (if trail then [""] else []).
Proof.
  intros Ht. unfold pieces.
  assert (H : cut (t +:+ (if trail then "..." else "")) (fun acc => (acc +:+ t) :: (if trail then [""] else []))).
  { destruct trail.
    - apply (cut_text t ("..." +:+ "") _ Ht (cut_dots "" _ cut_nil)).
    - apply (cut_text t "" _ Ht cut_nil). }
  destruct lead.
  - rewrite (cut_dots _ _ H) by lia. done.
  - cbn [String.append]. rewrite H by lia. done.
Qed.
Lemma pattern_of (lead trail : bool) ps : no_angle (snippet_words ps) -> no_dot (snippet_words ps) -> snippet_words ps <> "" ->
  snippet_pattern (snippet_of lead trail ps) = Ok ((if lead then ".*" else "") +:+ snippet_words ps +:+ (if trail then ".*" else "")).
Proof.
  intros Ha Hd Hn. unfold snippet_pattern. rewrite unmark_snippet, pieces_of by done. destruct (snippet_words ps) as [|c t]; [done|].
  destruct lead, trail; cbn [app open_start]; unfold open_end; cbn [reverse rev_append obind String.concat String.append];
    repeat f_equal; by rewrite ?append_nil_r.
Qed.

(** ** Reading the pattern *)
Definition plain_mode (m : mode) : Prop := match m with MClass _ _ _ _ => False | _ => True end.
Lemma scan_char c s m stack alts cur : plain_mode m -> existsb (Ascii.eqb c) special = false ->
  rx_scan (c :: s) m stack alts cur = rx_scan s MPlain stack alts (RChar c :: cur).
Proof.
  intros Hm Hc. pose proof Hc as Hc'. unfold special in Hc'. cbn [existsb] in Hc'. repeat (apply orb_false_iff in Hc' as [? Hc']).
  destruct m; try contradiction; cbn [rx_scan]; repeat match goal with H : Ascii.eqb c _ = false |- _ => rewrite H; clear H end; by rewrite Hc.
Qed.
Lemma scan_text u s m stack alts cur : plain_mode m -> Forall (fun c => existsb (Ascii.eqb c) special = false) u -> u <> [] ->
  rx_scan (u ++ s) m stack alts cur = rx_scan s MPlain stack alts (reverse (map RChar u) ++ cur).
Proof.
  intros Hm Hu Hn. revert m Hm cur Hn. induction Hu as [|c u Hc Hu IH]; intros m Hm cur Hn; [done|]. cbn [app map]. rewrite scan_char by done.
  rewrite reverse_cons, <- app_assoc. cbn [app]. destruct u as [|d u]; [done|]. by apply IH.
Qed.
Lemma ordinary_special t : ordinary_text t -> Forall (fun c => existsb (Ascii.eqb c) special = false) (la t).
Proof.
  unfold ordinary_text. induction t as [|c t IH]; cbn; intros H; [constructor|]. apply andb_true_iff in H as [Hc H]. constructor; [|auto].
  unfold ordinary in Hc. apply negb_true_iff in Hc. cbn [existsb] in Hc. apply orb_false_iff in Hc as [_ Hc]. by apply orb_false_iff in Hc as [_ Hc].
Qed.
Lemma all_chars_imp f g s : (forall c, f c = true -> g c = true) -> all_chars f s = true -> all_chars g s = true.
Proof. intros H. induction s as [|c s IH]; [done|]. cbn. intros E. apply andb_true_iff in E as [E1 E2]. by rewrite H, IH. Qed.
Lemma ordinary_no d c : existsb (Ascii.eqb d) ("<"%char :: newline :: special) = true -> ordinary c = true -> negb (Ascii.eqb c d) = true.
Proof.
  intros Hd Hc. apply negb_true_iff, Ascii.eqb_neq. intros ->. unfold ordinary in Hc. by rewrite Hd in Hc.
Qed.
Lemma ordinary_angle t : ordinary_text t -> no_angle t. Proof. apply all_chars_imp. intros c. by apply ordinary_no. Qed.
Lemma ordinary_dot t : ordinary_text t -> no_dot t. Proof. apply all_chars_imp. intros c. by apply ordinary_no. Qed.
Lemma ordinary_line t : ordinary_text t -> one_line t. Proof. apply all_chars_imp. intros c. by apply ordinary_no. Qed.
Lemma ordinary_bar t : ordinary_text t -> all_chars (fun c => negb (Ascii.eqb c "|")) t = true. Proof. apply all_chars_imp. intros c. by apply ordinary_no. Qed.

Definition dots (b : bool) : list rx := if b then [RStar RDot] else [].
Lemma scan_dots (b : bool) s m stack alts cur : plain_mode m ->
  exists m', plain_mode m' /\ rx_scan (la (if b then ".*" else "") ++ s) m stack alts cur = rx_scan s m' stack alts (dots b ++ cur).
Proof. intros Hm. destruct b; [|by exists m]. exists MRep. split; [done|]. by destruct m. Qed.

(** The language of a run of trees. *)
Lemma cat_means l s : means (cat_of l) s <-> means_all (reverse l) s.
Proof.
  destruct l as [|r l].
  - cbn. split; intros H; inversion H; constructor.
  - assert (X : forall l acc k, (forall s, means acc s <-> means_all k s) -> forall s, means (fold_left (fun a x => RCat x a) l acc) s <-> means_all (reverse l ++ k) s).
    { clear. induction l as [|x l IH]; intros acc k H s; [apply H|]. cbn [fold_left]. rewrite reverse_cons, <- app_assoc. cbn [app]. apply IH. clear s. intros s. split.
      - intros Hm. inversion Hm; subst. constructor; [done|by apply H].
      - intros Hm. inversion Hm; subst. constructor; [done|by apply H]. }
    cbn [cat_of]. rewrite reverse_cons. apply X. intros s'. symmetry. apply means_one.
Qed.
Lemma chars_means u s : means_all (map RChar u) s <-> s = u.
Proof.
  revert s. induction u as [|c u IH]; intros s; cbn [map].
  - split; [intros H; by inversion H|]. intros ->. constructor.
  - split.
    + intros H. inversion H as [|? ? a b Ha Hb]; subst. inversion Ha; subst. apply IH in Hb as ->. done.
    + intros ->. change (c :: u) with ([c] ++ u). constructor; [constructor|by apply IH].
Qed.
Definition no_newline (s : list ascii) : Prop := Forall (fun c => c <> newline) s.
Lemma dots_means (b : bool) s : means_all (dots b) s <-> no_newline s /\ (b = false -> s = []).
Proof.
  destruct b; cbn [dots].
  - rewrite means_one. split.
    + intros H. split; [|done].
      assert (X : forall q w, means q w -> q = RStar RDot -> no_newline w).
      { induction 1 as [| | | | | | | |a|a u v Hu _ Hv IH|]; intros Eq; try discriminate; [constructor|]. injection Eq as ->. inversion Hu; subst. constructor; [done|by apply IH]. }
      by eapply X.
    + intros [H _]. induction H as [|c s Hc _ IH]; [constructor|]. change (c :: s) with ([c] ++ s). constructor; [by constructor|done].
  - split; [intros H; inversion H; subst; split; [constructor|done]|]. intros [_ H]. rewrite H by done. constructor.
Qed.
Definition plain_rx (lead trail : bool) (t : string) : rx := cat_of (dots trail ++ reverse (map RChar (la t)) ++ dots lead).
Lemma pattern_tree (lead trail : bool) t : ordinary_text t -> t <> "" ->
  rx_new ((if lead then ".*" else "") +:+ t +:+ (if trail then ".*" else "")) = RxTree (plain_rx lead trail t).
Proof.
  intros Ht Hn. unfold rx_new. rewrite !la_app. destruct (scan_dots lead (la t ++ la (if trail then ".*" else "")) MPlain [] [] [] I) as (m & Hm & ->).
  rewrite scan_text; [|done|by apply ordinary_special|by destruct t]. rewrite <- (app_nil_r (la (if trail then ".*" else ""))).
  destruct (scan_dots trail [] MPlain [] [] (reverse (map RChar (la t)) ++ dots lead ++ []) I) as (m' & Hm' & ->).
  rewrite app_nil_r. destruct m'; try contradiction; reflexivity.
Qed.
Lemma plain_means lead trail t s : means (plain_rx lead trail t) s <->
  exists a b, s = a ++ la t ++ b /\ no_newline a /\ no_newline b /\ (lead = false -> a = []) /\ (trail = false -> b = []).
Proof.
  unfold plain_rx. rewrite cat_means, !reverse_app, reverse_involutive, <- app_assoc.
  assert (R : forall b, reverse (dots b) = dots b) by by intros []. rewrite !R, means_all_app. setoid_rewrite means_all_app. setoid_rewrite chars_means.
  setoid_rewrite dots_means. split.
  - intros (a & v & -> & (Ha & Ha') & w & b & -> & -> & Hb & Hb'). exists a, b. done.
  - intros (a & b & -> & Ha & Hb & Ha' & Hb'). exists a, (la t ++ b). split; [done|]. split; [done|]. exists (la t), b. done.
Qed.
Lemma groups_cat l : rx_groups (cat_of l) = sum_list_with rx_groups l.
Proof.
  destruct l as [|r l]; [done|]. cbn [cat_of]. assert (X : forall l acc, rx_groups (fold_left (fun a x => RCat x a) l acc) = rx_groups acc + sum_list_with rx_groups l).
  { clear. induction l as [|x l IH]; intros acc; cbn; [lia|]. rewrite IH. cbn. lia. }
  rewrite X. done.
Qed.
Lemma groups_chars u : sum_list_with rx_groups (map RChar u) = 0.
Proof. induction u as [|c u IH]; [done|]. cbn. done. Qed.
Lemma groups_plain lead trail t : rx_groups (plain_rx lead trail t) = 0.
Proof.
  unfold plain_rx. rewrite groups_cat, !sum_list_with_app, sum_list_with_reverse, groups_chars. by destruct lead, trail.
Qed.

(** ** Finding the first match *)
Lemma matches_line_spec r s : matches_line r s = true <-> exists x y, s = x ++ y /\ means r x /\ line_end y = true.
Proof.
  unfold matches_line. rewrite existsb_exists. split.
  - intros (n & _ & H). apply andb_true_iff in H as [H1 H2]. exists (take n s), (drop n s). split; [by rewrite take_drop|]. split; [|done].
    apply states_match_spec in H1 as (k & Hk & Hm). apply elem_of_list_singleton in Hk as ->. by apply means_one.
  - intros (x & y & -> & Hx & Hy). exists (length x). split; [apply in_seq; rewrite app_length; lia|].
    rewrite take_app, drop_app. rewrite Hy, andb_true_r. apply states_match_spec. exists [r]. split; [by apply elem_of_list_singleton|by apply means_one].
Qed.
Lemma to_colon_word g s : Forall (fun c => c <> ":"%char) g -> to_colon (g ++ ":"%char :: s) = Some (g, s).
Proof.
  induction 1 as [|c g Hc _ IH]; [done|]. cbn [app to_colon]. rewrite (proj2 (Ascii.eqb_neq c ":")) by done. by rewrite IH.
Qed.
Lemma skip_line r s rest : no_newline s -> first_match r false (s ++ newline :: rest) = first_match r true rest.
Proof.
  induction 1 as [|c s Hc _ IH]; cbn [app first_match]; [done|]. rewrite (proj2 (Ascii.eqb_neq c newline)) by done. exact IH.
Qed.
Definition owner : string := "meta_overlay".
Lemma first_line r field rest : no_newline field ->
  first_match r true (la "meta_overlay:" ++ field ++ newline :: rest) =
  if matches_line r (field ++ newline :: rest) then Some (la owner) else first_match r true rest.
Proof.
  intros Hf. change (la "meta_overlay:" ++ field ++ newline :: rest) with (la owner ++ ":"%char :: (field ++ newline :: rest)).
  assert (Hw : Forall (fun c => c <> ":"%char) (la owner)) by (cbn; repeat apply Forall_cons_2; try apply Forall_nil_2; discriminate).
  assert (Hnl : no_newline (la owner)) by (cbn; repeat apply Forall_cons_2; try apply Forall_nil_2; discriminate).
  pose proof (skip_line r (la owner ++ ":"%char :: field) rest) as S. rewrite <- app_assoc in S. cbn [app] in S. 
  assert (Hcf : no_newline (":"%char :: field)) by (apply Forall_cons_2; [discriminate|done]).
  specialize (S (proj2 (Forall_app _ _ _) (conj Hnl Hcf))).
  pose proof (to_colon_word (la owner) (field ++ newline :: rest) Hw) as T. assert (Hne : la owner <> []) by done.
  revert Hw Hnl S T Hne. generalize (la owner). intros w Hw Hnl S T Hne. destruct w as [|c w]; [done|]. cbn [app first_match] in *.
  rewrite T. assert (Hc : Ascii.eqb c newline = false) by (apply Ascii.eqb_neq; by inversion Hnl). rewrite Hc in *. by rewrite S.
Qed.
Lemma one_line_list s : one_line s -> no_newline (la s).
Proof.
  unfold one_line. induction s as [|c s IH]; cbn; intros H; [constructor|]. apply andb_true_iff in H as [H1 H2]. constructor; [|by apply IH].
  by apply Ascii.eqb_neq, negb_true_iff.
Qed.
Lemma two_lines r name descr : one_line name -> one_line descr ->
  first_match r true (haystack name descr) =
  if matches_line r (la name ++ newline :: la ("meta_overlay:" +:+ descr +:+ String newline "")) then Some (la owner) else
  if matches_line r (la descr ++ [newline]) then Some (la owner) else None.
Proof.
  intros Hn Hd. unfold haystack. rewrite la_app, la_app, la_app. change (la (String newline "")) with [newline]. cbn [app].
  pose proof (first_line r (la name) (la ("meta_overlay:" +:+ descr +:+ String newline "")) (one_line_list _ Hn)) as H1.
  change (la (String newline "") ++ ?x) with (newline :: x) in H1. rewrite H1. destruct (matches_line r _); [done|].
  rewrite la_app, la_app. change (la (String newline "")) with [newline]. rewrite (first_line r (la descr) [] (one_line_list _ Hd)). done.
Qed.
Lemma line_split (x y f rest : list ascii) : no_newline x -> no_newline f -> line_end y = true -> x ++ y = f ++ newline :: rest -> x = f.
Proof.
  intros Hx. revert f. induction Hx as [|c x Hc _ IH]; intros f Hf Hy E.
  - destruct f as [|d f]; [done|]. cbn [app] in E. subst y. cbn in Hy. apply Ascii.eqb_eq in Hy. inversion Hf. congruence.
  - destruct f as [|d f]; cbn [app] in E; injection E as E1 E2; [done|]. subst d. f_equal. apply IH; [by inversion Hf|done|done].
Qed.
Lemma plain_line lead trail t field rest : one_line t -> one_line field ->
  matches_line (plain_rx lead trail t) (la field ++ newline :: rest) = true <-> taken_from lead trail t field.
Proof.
  intros Ht Hf. rewrite matches_line_spec. setoid_rewrite plain_means. split.
  - intros (x & y & E & (a & b & -> & Ha & Hb & Ha' & Hb') & Hy).
    assert (Hx : no_newline (a ++ la t ++ b)) by (apply Forall_app; split; [done|]; apply Forall_app; split; [by apply one_line_list|done]).
    symmetry in E. apply (line_split _ y (la field) rest Hx (one_line_list _ Hf) Hy) in E.
    exists (string_of_list_ascii a), (string_of_list_ascii b). split.
    + apply la_inj. by rewrite !la_app, !list_ascii_of_string_of_list_ascii.
    + split; intros H; [by rewrite (Ha' H)|by rewrite (Hb' H)].
  - intros (a & b & -> & Ha & Hb). exists (la (a +:+ t +:+ b)), (newline :: rest). split; [done|]. split; [|done].
    apply one_line_list in Hf. rewrite !la_app in *. apply Forall_app in Hf as [Hf1 Hf]. apply Forall_app in Hf as [_ Hf2].
    exists (la a), (la b). split; [done|]. split; [done|]. split; [done|]. split; intros H; [by rewrite (Ha H)|by rewrite (Hb H)].
Qed.
