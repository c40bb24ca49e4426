(** The two patterns of standards.yml in words. *)
From Verif Require Import Spec_Standard Regex_proofs.
From Verif Require Import Condition_proofs.

Notation la := list_ascii_of_string.
Lemma la_app a b : la (a +:+ b) = la a ++ la b.
Proof. induction a as [|c a IH]; [done|]. cbn. by rewrite IH. Qed.
Lemma la_inj a b : la a = la b -> a = b.
Proof. intros E. rewrite <- (string_of_list_ascii_of_string a), <- (string_of_list_ascii_of_string b). by rewrite E. Qed.
Lemma la_split s u v : la s = u ++ v -> exists a b, s = a +:+ b /\ la a = u /\ la b = v.
Proof.
  intros E. exists (string_of_list_ascii u), (string_of_list_ascii v). rewrite !list_ascii_of_string_of_list_ascii. split; [|done].
  apply la_inj. by rewrite la_app, !list_ascii_of_string_of_list_ascii.
Qed.

Lemma means_cat_str a b s : means (RCat a b) (la s) <-> exists x y, s = x +:+ y /\ means a (la x) /\ means b (la y).
Proof.
  split.
  - intros H. inversion H as [| | | | |a' b' u v Hu Hv E1 E2| | | | |]; subst. symmetry in E2. apply la_split in E2 as (x & y & -> & <- & <-). eauto.
  - intros (x & y & -> & Hx & Hy). rewrite la_app. by constructor.
Qed.
Lemma means_alt a b s : means (RAlt a b) s <-> means a s \/ means b s.
Proof. split; [intros H; inversion H; subst; auto|]. intros [H|H]; [by apply m_left|by apply m_right]. Qed.
Lemma means_group a s : means (RGroup a) s <-> means a s.
Proof. split; [intros H; by inversion H|by constructor]. Qed.
Lemma means_empty s : means REmpty (la s) <-> s = "".
Proof. split; [intros H; inversion H as [E| | | | | | | | | |]; by destruct s|]. intros ->. constructor. Qed.
Lemma means_char c s : means (RChar c) (la s) <-> s = String c "".
Proof.
  split; [|intros ->; constructor]. intros H. inversion H as [|c' E| | | | | | | | |]; subst. destruct s as [|d [|]]; try discriminate. cbn in *. congruence.
Qed.

(** Every piece of a starred pattern takes one character of a class. *)
Definition one_of (p : ascii -> bool) (r : rx) : Prop := forall s, means r s <-> exists c, s = [c] /\ p c = true.
Lemma star_one p r s : one_of p r -> means (RStar r) (la s) <-> all_chars p s = true.
Proof.
  intros Hr. split.
  - assert (X : forall q w, means q w -> q = RStar r -> forall s', w = la s' -> all_chars p s' = true).
    { induction 1 as [| | | | | | | |a|a u v Hu _ Hv IH|]; intros Eq s' E; try discriminate.
      - by destruct s'.
      - injection Eq as ->. apply Hr in Hu as (c & -> & Hc). destruct s' as [|d s']; [done|]. cbn in E. injection E as -> ->.
        cbn. rewrite Hc. cbn. by apply IH. }
    intros H. by eapply X.
  - induction s as [|c s IH]; cbn; intros E; [constructor|]. apply andb_true_iff in E as [E1 E2].
    change (c :: la s) with ([c] ++ la s). constructor; [apply Hr; eauto|auto].
Qed.
Lemma plus_one p r s : one_of p r -> means (RCat r (RStar r)) (la s) <-> s <> "" /\ all_chars p s = true.
Proof.
  intros Hr. rewrite means_cat_str. split.
  - intros (x & y & -> & Hx & Hy). apply (star_one p) in Hy; [|done]. apply Hr in Hx as (c & E & Hc). destruct x as [|d [|]]; try discriminate.
    injection E as ->. split; [done|]. cbn. by rewrite Hc, Hy.
  - intros [Hn E]. destruct s as [|c s]; [done|]. cbn in E. apply andb_true_iff in E as [E1 E2]. exists (String c ""), s. split; [done|].
    split; [apply Hr; cbn; eauto|]. by apply (star_one p).
Qed.
Lemma one_class l : one_of (in_ranges l) (RClass false l).
Proof.
  intros s. split; [intros H; inversion H; subst; eauto|]. intros (c & -> & Hc). by constructor.
Qed.

(** A keyword in any case of letters. *)
Definition upper (c : ascii) : ascii := if in_ranges [("a", "z")]%char c then ascii_of_N (N_of_ascii c - 32) else c.
Definition letter (c : ascii) : rx :=
  if in_ranges [("a", "z")]%char c then RClass false [(upper c, upper c); (c, c)] else RChar c.
Fixpoint keyword (k : string) (r : rx) : rx := match k with "" => r | String c k' => RCat (letter c) (keyword k' r) end.
Fixpoint keyword_end (k : string) : rx := match k with "" => REmpty | String c "" => letter c | String c k' => RCat (letter c) (keyword_end k') end.
Fixpoint alternatives (l : list rx) : rx := match l with [] => REmpty | [r] => r | r :: l' => RAlt r (alternatives l') end.
(** Characters a keyword may hold: small letters, hyphens, colons and commas. *)
Definition kw_char (c : ascii) : bool := in_ranges [("a", "z"); ("-", "-"); (":", ":"); (",", ",")]%char c.
Lemma letter_ok_b : forallb (fun n => let c := ascii_of_nat n in negb (kw_char c) || forallb (fun m => let d := ascii_of_nat m in
  Bool.eqb (leaf_ok (letter c) d) (Ascii.eqb (lower d) c)) (seq 0 256)) (seq 0 256) = true.
Proof. vm_compute. reflexivity. Qed.
Lemma letter_leaf c d : kw_char c = true -> leaf_ok (letter c) d = Ascii.eqb (lower d) c.
Proof.
  intros Hc. pose proof letter_ok_b as H. rewrite forallb_forall in H. specialize (H (nat_of_ascii c)). cbv zeta in H. rewrite ascii_nat_embedding, Hc in H.
  assert (Hin : forall x, In (nat_of_ascii x) (seq 0 256)) by (intros x; apply in_seq; pose proof (nat_ascii_bounded x); lia).
  specialize (H (Hin c)). rewrite orb_false_l in H. rewrite forallb_forall in H. specialize (H _ (Hin d)). rewrite ascii_nat_embedding in H.
  by apply Bool.eqb_prop in H.
Qed.
Lemma letter_means c s : kw_char c = true -> means (letter c) s <-> exists d, s = [d] /\ lower d = c.
Proof.
  intros Hc. assert (Hl : match letter c with RChar _ | RDot | RClass _ _ => True | _ => False end) by (unfold letter; by destruct (in_ranges _ c)).
  split.
  - intros H. destruct s as [|d s]; [unfold letter in H; destruct (in_ranges _ c); inversion H|]. apply leaf_spec in H as [H ->]; [|done].
    rewrite letter_leaf in H by done. apply Ascii.eqb_eq in H. eauto.
  - intros (d & -> & E). apply leaf_spec; [done|]. split; [|done]. rewrite letter_leaf by done. by apply Ascii.eqb_eq.
Qed.
Lemma keyword_means k r s : all_chars kw_char k = true -> means (keyword k r) (la s) <-> exists x y, s = x +:+ y /\ lower_str x = k /\ means r (la y).
Proof.
  revert s. induction k as [|c k IH]; cbn [all_chars keyword]; intros s Hk.
  - split; [intros H; exists "", s; done|]. intros (x & y & -> & E & Hy). by destruct x.
  - apply andb_true_iff in Hk as [Hc Hk]. rewrite means_cat_str. split.
    + intros (x & y & -> & Hx & Hy). apply letter_means in Hx as (d & E & Hd); [|done]. destruct x as [|d' [|]]; try discriminate. injection E as ->.
      apply IH in Hy as (x & y' & -> & <- & Hy); [|done]. exists (String d x), y'. split; [done|]. split; [cbn; by rewrite Hd|done].
    + intros (x & y & -> & E & Hy). destruct x as [|d x]; [done|]. cbn in E. injection E as E1 E2. exists (String d ""), (x +:+ y).
      split; [done|]. split; [apply letter_means; cbn; eauto|]. apply IH; eauto.
Qed.
Lemma keyword_end_means k s : k <> "" -> all_chars kw_char k = true -> means (keyword_end k) (la s) <-> lower_str s = k.
Proof.
  revert s. induction k as [|c k IH]; [done|]. intros s _ Hk. cbn [all_chars] in Hk. apply andb_true_iff in Hk as [Hc Hk]. destruct k as [|c' k].
  - cbn [keyword_end]. rewrite letter_means by done. split.
    + intros (d & E & Hd). destruct s as [|d' [|]]; try discriminate. injection E as ->. cbn. by rewrite Hd.
    + intros E. destruct s as [|d [|]]; try discriminate. injection E as E. exists d. done.
  - change (keyword_end (String c (String c' k))) with (RCat (letter c) (keyword_end (String c' k))). rewrite means_cat_str. split.
    + intros (x & y & -> & Hx & Hy). apply letter_means in Hx as (d & E & Hd); [|done]. destruct x as [|d' [|]]; try discriminate. injection E as ->.
      apply IH in Hy; [|done|done]. cbn. by rewrite Hd, Hy.
    + intros E. destruct s as [|d s]; [done|]. cbn in E. injection E as E1 E2. exists (String d ""), s.
      split; [done|]. split; [apply letter_means; cbn; eauto|]. apply IH; done.
Qed.
Lemma alternatives_means l s : l <> [] -> means (alternatives l) s <-> Exists (fun r => means r s) l.
Proof.
  induction l as [|r l IH]; [done|]. intros _. destruct l as [|r' l].
  - cbn [alternatives]. rewrite Exists_cons, Exists_nil. tauto.
  - change (alternatives (r :: r' :: l)) with (RAlt r (alternatives (r' :: l))). rewrite means_alt, Exists_cons, IH by done. done.
Qed.
Lemma keywords_means ks s : ks <> [] -> Forall (fun k => k <> "" /\ all_chars kw_char k = true) ks ->
  means (alternatives (map keyword_end ks)) (la s) <-> lower_str s ∈ ks.
Proof.
  intros Hn Hk. rewrite alternatives_means by by destruct ks. rewrite Exists_fmap, Exists_exists. split.
  - intros (k & Hin & Hm). eapply Forall_forall in Hk as [H1 H2]; [|exact Hin]. apply keyword_end_means in Hm; [|done|done]. by subst.
  - intros Hin. exists (lower_str s). split; [done|]. eapply Forall_forall in Hk as [H1 H2]; [|exact Hin]. by apply keyword_end_means.
Qed.

Definition digit : rx := RClass false [("0", "9")]%char.
Definition plus (r : rx) : rx := RCat r (RStar r).
Definition word_rx : rx := RGroup (plus (RGroup (RAlt (RClass false [("0", "9"); ("A", "Z"); ("a", "z")]%char) (RChar "-")))).
Lemma word_one : one_of (in_ranges [("0", "9"); ("A", "Z"); ("a", "z"); ("-", "-")]%char) (RGroup (RAlt (RClass false [("0", "9"); ("A", "Z"); ("a", "z")]%char) (RChar "-"))).
Proof.
  intros s. rewrite means_group, means_alt. pose proof (one_class [("0", "9"); ("A", "Z"); ("a", "z")]%char s) as H1.
  assert (D : forall c, in_ranges [("0", "9"); ("A", "Z"); ("a", "z"); ("-", "-")]%char c = in_ranges [("0", "9"); ("A", "Z"); ("a", "z")]%char c || Ascii.eqb c "-").
  { intros c. unfold in_ranges. cbn [existsb fst snd]. rewrite !orb_false_r, <- !orb_assoc. do 3 f_equal.
    destruct (Ascii.eqb_spec c "-") as [->|Hc]; [done|]. apply andb_false_iff. destruct (N.leb_spec (N_of_ascii "-") (N_of_ascii c)); [|by left].
    destruct (N.leb_spec (N_of_ascii c) (N_of_ascii "-")); [|by right]. exfalso. apply Hc. rewrite <- (ascii_N_embedding c), <- (ascii_N_embedding "-").
    f_equal. by apply N.le_antisymm. }
  rewrite H1. split.
  - intros [(c & -> & E)|H]; [exists c; by rewrite D, E|]. inversion H; subst. exists "-"%char. done.
  - intros (c & -> & E). rewrite D in E. apply orb_true_iff in E as [E|E]; [left; eauto|]. apply Ascii.eqb_eq in E as ->. right. constructor.
Qed.
Lemma word_means s : means word_rx (la s) <-> word s.
Proof. unfold word_rx. rewrite means_group. apply plus_one, word_one. Qed.
Lemma number_means s : means (plus digit) (la s) <-> number s.
Proof. apply plus_one, one_class. Qed.

Definition ietf_rx : rx :=
  RGroup (alternatives (map (fun k => keyword k (RCat (RChar ":") (plus digit))) ["rfc"; "fyi"; "std"; "bcp"] ++
    map (fun k => keyword k (RCat (RChar ":") word_rx)) ["id"; "mtg"] ++ [word_rx])).
Lemma ietf_compiled : regexes "ietf" = Some ietf_rx.
Proof. vm_compute. reflexivity. Qed.
Lemma colon_means r s : means (RCat (RChar ":") r) (la s) <-> exists y, s = ":" +:+ y /\ means r (la y).
Proof.
  rewrite means_cat_str. split.
  - intros (x & y & -> & Hx & Hy). apply means_char in Hx as ->. eauto.
  - intros (y & -> & Hy). exists ":", y. split; [done|]. split; [by apply means_char|done].
Qed.
Lemma ietf_means s : means ietf_rx (la s) <-> ietf_name s.
Proof.
  unfold ietf_rx. rewrite means_group, alternatives_means by done. 
  assert (L : forall P : rx -> Prop, Exists P [word_rx] <-> P word_rx) by (intros P; rewrite Exists_cons, Exists_nil; tauto).
  rewrite !Exists_app, !Exists_fmap, L, word_means. clear L.
  assert (K : forall r ks, Forall (fun k => all_chars kw_char k = true) ks ->
    Exists ((fun q => means q (la s)) ∘ (fun k => keyword k (RCat (RChar ":") r))) ks <->
    exists series n, s = series +:+ ":" +:+ n /\ lower_str series ∈ ks /\ means r (la n)).
  { intros r ks Hks. rewrite Exists_exists. unfold compose. split.
    - intros (k & Hk & Hm). eapply Forall_forall in Hks; [|exact Hk]. apply keyword_means in Hm as (x & y & -> & <- & Hm); [|done].
      apply colon_means in Hm as (n & -> & Hn). eauto.
    - intros (series & n & -> & Hk & Hn). exists (lower_str series). split; [done|]. eapply Forall_forall in Hks; [|exact Hk]. apply keyword_means; [done|].
      exists series, (":" +:+ n). split; [done|]. split; [done|]. apply colon_means. eauto. }
  rewrite (K (plus digit)) by (repeat constructor). rewrite (K word_rx) by (repeat constructor).
  unfold ietf_name. setoid_rewrite number_means. setoid_rewrite word_means. split.
  - intros [(a & n & E & H1 & H2)|[(a & n & E & H1 & H2)|H]]; [right; exists a, n; auto|right; exists a, n; auto|by left].
  - intros [H|(a & n & E & [[H1 H2]|[H1 H2]])]; [by right; right|left; eauto|right; left; eauto].
Qed.

(** The iso pattern: its start, then parts that may all be missing. *)
Definition iso_rx (rest : rx) : rx :=
  keyword "std:" (RCat (RGroup (alternatives (map keyword_end iso_publishers)))
    (RCat (RAlt (RGroup (RCat (RChar ":") (RGroup (alternatives (map keyword_end iso_kinds))))) REmpty)
      (RCat (RChar ":") (RCat digit (RCat (RStar digit) rest))))).
Definition after_parts (n : nat) : rx -> option rx :=
  Nat.iter n (fun k r => match r with RCat _ b => k b | _ => None end) Some.
Definition iso_rest : rx := match regexes "iso" with Some r => match after_parts 9 r with Some x => x | None => REmpty end | None => REmpty end.
Lemma iso_compiled : regexes "iso" = Some (iso_rx iso_rest).
Proof. vm_compute. reflexivity. Qed.
Lemma rest_null : nullable iso_rest = true.
Proof. vm_compute. reflexivity. Qed.
(** The last part of a sequence, when everything before it may be missing. *)
Fixpoint tail_of (r : rx) : option rx :=
  match r with RCat a b => if nullable a then tail_of b else None | _ => Some r end.
Lemma tail_means r t s : tail_of r = Some t -> means t s -> means r s.
Proof.
  induction r as [| | | |a _ b IHb| | |]; cbn [tail_of]; intros E Hm; try (injection E as <-; done).
  destruct (nullable a) eqn:En; [|discriminate]. apply nullable_spec in En. change s with ([] ++ s). constructor; auto.
Qed.
Lemma rest_tail : exists t, tail_of iso_rest = Some (RAlt (RGroup (RGroup (RAlt t (RStar (RClass false [("A", "Z"); ("a", "z")]%char))))) REmpty).
Proof. eexists. vm_compute. reflexivity. Qed.
Lemma rest_letters s : letters_only s -> means iso_rest (la s).
Proof.
  intros H. destruct rest_tail as [t Et]. eapply tail_means; [exact Et|]. apply m_left. do 2 constructor. apply m_right.
  eapply star_one; [apply one_class|exact H].
Qed.

Lemma kinds_means s : means (RAlt (RGroup (RCat (RChar ":") (RGroup (alternatives (map keyword_end iso_kinds))))) REmpty) (la s) <->
  s = "" \/ exists t, s = ":" +:+ t /\ lower_str t ∈ iso_kinds.
Proof.
  rewrite means_alt, means_group, colon_means, means_empty. setoid_rewrite means_group. setoid_rewrite keywords_means; [tauto|done|].
  unfold iso_kinds. repeat apply Forall_cons_2; try apply Forall_nil_2; done.
Qed.
Lemma publishers_means s : means (RGroup (alternatives (map keyword_end iso_publishers))) (la s) <-> lower_str s ∈ iso_publishers.
Proof.
  rewrite means_group. apply keywords_means; [done|]. unfold iso_publishers. repeat apply Forall_cons_2; try apply Forall_nil_2; done.
Qed.
Lemma lower_app a b : lower_str (a +:+ b) = lower_str a +:+ lower_str b.
Proof. induction a as [|c a IH]; [done|]. cbn. by rewrite IH. Qed.
Lemma lower_colon_b : forallb (fun n => let c := ascii_of_nat n in Bool.eqb (Ascii.eqb (lower c) ":") (Ascii.eqb c ":")) (seq 0 256) = true.
Proof. vm_compute. reflexivity. Qed.
Lemma lower_colon c : lower c = ":"%char <-> c = ":"%char.
Proof.
  pose proof lower_colon_b as H. rewrite forallb_forall in H. specialize (H (nat_of_ascii c)). cbv zeta in H. rewrite ascii_nat_embedding in H.
  assert (Hin : In (nat_of_ascii c) (seq 0 256)) by (apply in_seq; pose proof (nat_ascii_bounded c); lia). apply H in Hin. apply Bool.eqb_prop in Hin.
  rewrite <- !Ascii.eqb_eq. by rewrite Hin.
Qed.
Lemma std_colon x : lower_str x = "std:" <-> exists w, x = w +:+ ":" /\ lower_str w = "std".
Proof.
  split.
  - intros E. destruct x as [|a [|b [|c [|d [|]]]]]; try discriminate. cbn in E. injection E as E1 E2 E3 E4. apply lower_colon in E4 as ->.
    exists (String a (String b (String c ""))). split; [done|]. cbn. by rewrite E1, E2, E3.
  - intros (w & -> & E). by rewrite lower_app, E.
Qed.
Lemma iso_means rest s : means (iso_rx rest) (la s) <-> exists h r, s = h +:+ r /\ iso_start h /\ means rest (la r).
Proof.
  unfold iso_rx. rewrite keyword_means by done. split.
  - intros (x & y & -> & Hx & Hy). apply std_colon in Hx as (w & -> & Hw). apply means_cat_str in Hy as (p & y1 & -> & Hp & Hy). apply publishers_means in Hp.
    apply means_cat_str in Hy as (k & y2 & -> & Hk & Hy). apply kinds_means in Hk. apply colon_means in Hy as (y3 & -> & Hy).
    apply means_cat_str in Hy as (d & y4 & -> & Hd & Hy). apply means_cat_str in Hy as (ds & r & -> & Hds & Hr).
    exists (w +:+ ":" +:+ p +:+ k +:+ ":" +:+ (d +:+ ds)), r. split; [by rewrite !append_assoc|]. split; [|done].
    exists w, p, k, (d +:+ ds). split; [done|]. split; [done|]. split; [done|]. split; [done|]. apply number_means. apply means_cat_str. eauto.
  - intros (h & r & -> & (w & p & k & n & -> & Hw & Hp & Hk & Hn) & Hr). apply number_means, means_cat_str in Hn as (d & ds & -> & Hd & Hds).
    exists (w +:+ ":"), (p +:+ k +:+ ":" +:+ d +:+ ds +:+ r). split; [by rewrite !append_assoc|]. split; [apply std_colon; eauto|].
    apply means_cat_str. exists p, (k +:+ ":" +:+ d +:+ ds +:+ r). split; [done|]. split; [by apply publishers_means|].
    apply means_cat_str. exists k, (":" +:+ d +:+ ds +:+ r). split; [done|]. split; [by apply kinds_means|]. apply colon_means. eexists. split; [done|].
    apply means_cat_str. exists d, (ds +:+ r). split; [done|]. split; [done|]. apply means_cat_str. eauto.
Qed.
Lemma lower_idem_b : forallb (fun n => let c := ascii_of_nat n in Ascii.eqb (lower (lower c)) (lower c)) (seq 0 256) = true.
Proof. vm_compute. reflexivity. Qed.
Lemma lower_idem s : lower_str (lower_str s) = lower_str s.
Proof.
  induction s as [|c s IH]; [done|]. cbn [lower_str]. rewrite IH. f_equal.
  pose proof lower_idem_b as H. rewrite forallb_forall in H. specialize (H (nat_of_ascii c)). cbv zeta in H. rewrite ascii_nat_embedding in H.
  apply Ascii.eqb_eq, H, in_seq. pose proof (nat_ascii_bounded c). lia.
Qed.
