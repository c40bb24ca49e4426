(** Reading and writing JSON text: exact descriptions. *)
From Coq Require Import Lia.
From Verif Require Export JsonText.
From Verif Require Import Condition_proofs.

Lemma app_cons c s t : String c s +:+ t = String c (s +:+ t).
Proof. reflexivity. Qed.
Lemma app_nil s : "" +:+ s = s.
Proof. reflexivity. Qed.
Notation asc := append_assoc.

(** ** Blanks *)
Lemma skip_blanks w s : blanks w -> skip (w +:+ s) = skip s.
Proof. unfold blanks. induction w as [|c w IH]; [done|]. cbn [all_chars]. intros H. apply andb_true_iff in H as [Hc Hw]. rewrite app_cons. cbn [skip]. rewrite Hc. by apply IH. Qed.
Lemma skip_split s : exists w, blanks w /\ s = w +:+ skip s.
Proof.
  induction s as [|c s (w & Hw & E)]; [by exists ""|]. cbn [skip]. destruct (blank c) eqn:B; [|by exists ""]. exists (String c w). split; [unfold blanks in *; cbn [all_chars]; by rewrite B|].
  rewrite app_cons. congruence.
Qed.
Lemma skip_start c s : blank c = false -> skip (String c s) = String c s.
Proof. intros H. cbn [skip]. by rewrite H. Qed.
Lemma skip_idem s : skip (skip s) = skip s.
Proof. induction s as [|c s IH]; [done|]. cbn [skip]. destruct (blank c) eqn:B; [done|]. cbn [skip]. by rewrite B. Qed.
Lemma skip_head s c r : skip s = String c r -> blank c = false.
Proof. intros E. pose proof (skip_idem s) as H. rewrite E in H. cbn [skip] in H. destruct (blank c); [|done]. exfalso. assert (L : forall x, (String.length (skip x) <= String.length x)%nat).
  { induction x as [|y x IH]; [done|]. cbn [skip]. destruct (blank y); cbn [String.length]; lia. } specialize (L r). rewrite H in L. cbn [String.length] in L. lia. Qed.

(** ** Strings *)
Lemma hex_val_spec c n : hex_val c = Some n <-> hex_digit c n.
Proof.
  split.
  - intros H. unfold hex_digit. destruct c as [[] [] [] [] [] [] [] []]; vm_compute in H; try discriminate H; injection H as <-;
      first [exists "0123456789abcdef"; split; [by left|reflexivity]|exists "0123456789ABCDEF"; split; [by right|reflexivity]].
  - intros (ds & Hd & E). assert (Hn : exists k, n = N.of_nat k) by (exists (N.to_nat n); by rewrite N2Nat.id). destruct Hn as [k ->]. rewrite Nat2N.id in E.
    destruct Hd as [-> | ->]; do 16 (destruct k as [|k]; [injection E as <-; reflexivity|]); discriminate E.
Qed.
Lemma hex_vals_spec a b c d n : hex_vals a b c d = Some n <-> hex4 a b c d n.
Proof.
  unfold hex_vals, hex4. split.
  - destruct (hex_val a) as [x|] eqn:Ea; [|done]. destruct (hex_val b) as [y|] eqn:Eb; [|done]. destruct (hex_val c) as [z|] eqn:Ec; [|done]. destruct (hex_val d) as [w|] eqn:Ed; [|done].
    intros [= <-]. exists x, y, z, w. by rewrite <- !hex_val_spec.
  - intros (x & y & z & w & Ha & Hb & Hc & Hd & ->). apply hex_val_spec in Ha, Hb, Hc, Hd. by rewrite Ha, Hb, Hc, Hd.
Qed.
Lemma short_val_spec e c : short_val e = Some c <-> (e, c) ∈ short_escapes.
Proof.
  unfold short_val. split.
  - destruct (List.find _ _) as [[x y]|] eqn:E; [|done]. intros [= <-]. apply List.find_some in E as [Hin Hx]. apply Ascii.eqb_eq in Hx. cbn in Hx. subst x. by apply elem_of_list_In.
  - intros H. repeat (apply elem_of_cons in H as [H|H]; [injection H as -> ->; reflexivity|]). by apply elem_of_nil in H.
Qed.
Lemma range_spec lo hi n : ((lo <=? n) && (n <? hi))%N = true <-> (lo <= n < hi)%N.
Proof. rewrite andb_true_iff, N.leb_le, N.ltb_lt. done. Qed.
Lemma range_not lo hi n : ((lo <=? n) && (n <? hi))%N = false <-> ~ (lo <= n < hi)%N.
Proof. rewrite <- range_spec. by destruct ((lo <=? n) && (n <? hi))%N. Qed.
Lemma str_complete v t r : quoted_text v t -> read_str (t +:+ QT +:+ r) = Some (v, r).
Proof.
  induction 1 as [|c v t Hc Hq Hb H IH|e c v t He H IH|a b c d n v t H4 Hh Hl H IH|a b c d n a' b' c' d' m v t H4 Hh H4' Hl H IH].
  - reflexivity.
  - rewrite app_cons. cbn [read_str]. apply Ascii.eqb_neq in Hq, Hb. rewrite Hq, Hb. assert (E : Nat.ltb (nat_of_ascii c) 32 = false) by (apply Nat.ltb_ge; lia). rewrite E, IH. reflexivity.
  - rewrite !app_cons. cbn [read_str Ascii.eqb Bool.eqb]. apply short_val_spec in He. rewrite He, IH. reflexivity.
  - rewrite !app_cons. cbn [read_str Ascii.eqb Bool.eqb]. change (short_val "u") with (@None ascii). cbv iota. apply hex_vals_spec in H4. rewrite H4.
    apply range_not in Hh, Hl. rewrite Hh, Hl, IH. reflexivity.
  - rewrite !app_cons. cbn [read_str Ascii.eqb Bool.eqb]. change (short_val "u") with (@None ascii). cbv iota. apply hex_vals_spec in H4, H4'. rewrite H4.
    apply range_spec in Hh, Hl. rewrite Hh. cbn [andb]. rewrite H4', Hl, IH. reflexivity.
Qed.
Lemma put_some v x s r : put v x = Some (s, r) -> exists s', x = Some (s', r) /\ s = v +:+ s'.
Proof. destruct x as [[s' r']|]; [|done]. cbn. intros [= <- <-]. eauto. Qed.
Lemma str_sound_n n : forall s v r, (String.length s <= n)%nat -> read_str s = Some (v, r) -> exists t, s = t +:+ QT +:+ r /\ quoted_text v t.
Proof.
  induction n as [|n IH]; intros s v r Hn H; (destruct s as [|c s]; [done|]); cbn [String.length] in Hn; [lia|]. cbn [read_str] in H.
  destruct (Ascii.eqb c "034") eqn:Eq; [apply Ascii.eqb_eq in Eq; subst c; injection H as <- <-; exists ""; split; [reflexivity|constructor]|].
  destruct (Ascii.eqb c "092") eqn:Eb.
  - apply Ascii.eqb_eq in Eb. subst c. destruct s as [|e s]; [done|]. cbn [String.length] in Hn. destruct (short_val e) as [x|] eqn:Es.
    + apply put_some in H as (s' & H & ->). apply IH in H as (t & -> & H); [|lia]. exists (String "\" (String e t)). split; [by rewrite !app_cons|]. apply short_val_spec in Es. by constructor.
    + destruct (Ascii.eqb e "u") eqn:Eu; [|done]. apply Ascii.eqb_eq in Eu. subst e. destruct s as [|a [|b [|c [|d s]]]]; try done. cbn [String.length] in Hn.
      destruct (hex_vals a b c d) as [m|] eqn:E4; [|done]. apply hex_vals_spec in E4. destruct ((55296 <=? m) && (m <? 56320))%N eqn:Eh.
      * apply range_spec in Eh. destruct s as [|k [|u [|a' [|b' [|c' [|d' s]]]]]]; try done. cbn [String.length] in Hn. destruct (Ascii.eqb k "092" && Ascii.eqb u "u") eqn:Ek; [|done].
        apply andb_true_iff in Ek as [Ek Eu]. apply Ascii.eqb_eq in Ek, Eu. subst k u. destruct (hex_vals a' b' c' d') as [p|] eqn:E4'; [|done]. apply hex_vals_spec in E4'.
        destruct ((56320 <=? p) && (p <? 57344))%N eqn:El; [|done]. apply range_spec in El. apply put_some in H as (s' & H & ->). apply IH in H as (t & -> & H); [|lia].
        eexists. split; [|by eapply qt_pair]. by rewrite !app_cons.
      * apply range_not in Eh. destruct ((56320 <=? m) && (m <? 57344))%N eqn:El; [done|]. apply range_not in El. apply put_some in H as (s' & H & ->). apply IH in H as (t & -> & H); [|lia].
        eexists. split; [|by eapply qt_code]. by rewrite !app_cons.
  - destruct (Nat.ltb (nat_of_ascii c) 32) eqn:E32; [done|]. apply Nat.ltb_ge in E32. apply Ascii.eqb_neq in Eq, Eb. apply put_some in H as (s' & H & ->). apply IH in H as (t & -> & H); [|lia].
    exists (String c t). split; [by rewrite app_cons|]. by apply qt_char.
Qed.
Lemma str_sound s v r : read_str s = Some (v, r) -> exists t, s = t +:+ QT +:+ r /\ quoted_text v t.
Proof. by apply (str_sound_n (String.length s)). Qed.

(** ** Numbers *)
Definition num_end (c : ascii) : bool := negb (is_digit c) && negb (existsb (Ascii.eqb c) ["."; "e"; "E"]%char).
Definition stops (r : string) : Prop := match r with String c _ => num_end c = true | EmptyString => True end.
Lemma span_complete p r : all_chars is_digit p = true -> stops r -> span_digits (p +:+ r) = (p, r).
Proof.
  intros Hp Hr. induction p as [|c p IH].
  - rewrite app_nil. destruct r as [|c r]; [done|]. cbn [span_digits]. cbn [stops] in Hr. apply andb_true_iff in Hr as [Hr _]. apply negb_true_iff in Hr. by rewrite Hr.
  - cbn [all_chars] in Hp. apply andb_true_iff in Hp as [Hc Hp]. rewrite app_cons. cbn [span_digits]. rewrite Hc, (IH Hp). reflexivity.
Qed.
Lemma span_sound s p r : span_digits s = (p, r) -> s = p +:+ r.
Proof.
  revert p r. induction s as [|c s IH]; intros p r H; [by injection H as <- <-|]. cbn [span_digits] in H. destruct (is_digit c); [|by injection H as <- <-].
  destruct (span_digits s) as [p' r'] eqn:E. injection H as <- <-. rewrite app_cons. f_equal. by apply IH.
Qed.
Lemma blank_stop c : blank c = true -> num_end c = true.
Proof. unfold blank. cbn [existsb]. rewrite !orb_true_iff. intros [H|[H|[H|[H|H]]]]; try discriminate H; apply Ascii.eqb_eq in H; subst c; reflexivity. Qed.
Lemma blanks_stop w r : blanks w -> stops r -> stops (w +:+ r).
Proof. destruct w as [|c w]; [done|]. unfold blanks. cbn [all_chars]. intros H _. apply andb_true_iff in H as [H _]. by apply blank_stop. Qed.
Lemma num_complete n r : stops r -> read_num (dec_of_nat n +:+ r) = Some (JNum n, r).
Proof.
  intros Hr. unfold read_num. rewrite (span_complete _ _ (dec_of_nat_digits n) Hr), nat_of_dec_of_nat, String.eqb_refl. destruct r as [|c r]; [done|].
  cbn [stops] in Hr. apply andb_true_iff in Hr as [_ Hr]. apply negb_true_iff in Hr. by rewrite Hr.
Qed.
Lemma num_sound s j r : read_num s = Some (j, r) -> exists n, j = JNum n /\ s = dec_of_nat n +:+ r.
Proof.
  unfold read_num. destruct (span_digits s) as [p q] eqn:E. apply span_sound in E. destruct (nat_of_dec p) as [n|]; [|done]. destruct (String.eqb (dec_of_nat n) p) eqn:Ep; [|done].
  apply String.eqb_eq in Ep. subst p. intros H. exists n. destruct q as [|c q]; [by injection H as <- <-|]. destruct (existsb _ _); [done|]. by injection H as <- <-.
Qed.
Lemma after_spec w s r : after w s = Some r <-> s = w +:+ r.
Proof.
  revert s. induction w as [|a w IH]; intros s; [cbn; split; congruence|]. destruct s as [|b s]; [by rewrite app_cons|]. cbn [after]. rewrite app_cons. destruct (Ascii.eqb a b) eqn:E.
  - apply Ascii.eqb_eq in E. subst b. rewrite IH. split; congruence.
  - apply Ascii.eqb_neq in E. split; congruence.
Qed.
Lemma digit_other c : is_digit c = true -> Ascii.eqb c "034" = false /\ Ascii.eqb c "[" = false /\ Ascii.eqb c "{" = false /\ blank c = false /\ Ascii.eqb "]" c = false /\ Ascii.eqb "}" c = false.
Proof. destruct c as [[] [] [] [] [] [] [] []]; vm_compute; done. Qed.
Lemma num_start n : exists c t, dec_of_nat n = String c t /\ is_digit c = true.
Proof.
  pose proof (dec_of_nat_nonempty n). pose proof (dec_of_nat_digits n) as D. destruct (dec_of_nat n) as [|c t]; [done|]. cbn [all_chars] in D. apply andb_true_iff in D as [D _]. eauto.
Qed.
(** No value starts with a blank or a closing bracket. *)
Lemma value_start j t : value_text j t -> exists c t', t = String c t' /\ blank c = false /\ Ascii.eqb "]" c = false /\ Ascii.eqb "}" c = false.
Proof.
  destruct 1 as [| | |n| | | | |]; try (eexists _, _; split; [reflexivity|]; done).
  destruct (num_start n) as (c & t & E & Hc). exists c, t. split; [done|]. by apply digit_other in Hc as (_ & _ & _ & ? & ? & ?).
Qed.
Lemma value_skip j t r : value_text j t -> skip (t +:+ r) = t +:+ r.
Proof. intros H. apply value_start in H as (c & t' & -> & B & _). rewrite app_cons. by apply skip_start. Qed.
Lemma items_open l t r : items_text l t -> after "]" (skip (t +:+ r)) = None.
Proof.
  intros H. assert (G : forall j w t r, blanks w -> value_text j t -> after "]" (skip (w +:+ t +:+ r)) = None).
  { intros j w u q Hw Hv. rewrite skip_blanks by done. rewrite (value_skip _ _ _ Hv). apply value_start in Hv as (c & t' & -> & _ & B & _). rewrite app_cons. cbn [after]. by rewrite B. }
  destruct H as [x w u w' Hw Hw' Hv|x w u w' l r' Hw Hw' Hv Hl]; rewrite !asc; by apply (G x).
Qed.
Lemma members_open l t r : members_text l t -> after "}" (skip (t +:+ r)) = None.
Proof.
  intros H. assert (G : forall w t, blanks w -> after "}" (skip (w +:+ QT +:+ t)) = None).
  { intros w u Hw. rewrite skip_blanks by done. reflexivity. }
  destruct H; rewrite !asc; by apply G.
Qed.

Scheme value_mind := Minimality for value_text Sort Prop with items_mind := Minimality for items_text Sort Prop with members_mind := Minimality for members_text Sort Prop.
Combined Scheme text_mind from value_mind, items_mind, members_mind.
Definition depth_list (l : list json) : nat := fold_right (fun x n => Nat.max (nesting x) n) 0 l.
Definition depth_members (l : list (string * json)) : nat := fold_right (fun kv n => Nat.max (nesting kv.2) n) 0 l.
Lemma close_stop c r : num_end c = true -> stops (String c r).
Proof. done. Qed.
Lemma read_value_digit n d c r : is_digit c = true -> read_value (S n) d (String c r) = read_num (String c r).
Proof. intros H. apply digit_other in H as H'. destruct H' as (H1 & H2 & H3 & _). cbn [read_value]. by rewrite H1, H2, H3, H. Qed.
Ltac len := unfold QT in *; cbn [String.length] in *; rewrite ?length_append in *; cbn [String.length] in *; lia.
Lemma read_complete :
  (forall j t, value_text j t -> forall n d r, (nesting j <= d)%nat -> (2 * String.length t <= n)%nat -> stops r -> read_value n d (t +:+ r) = Some (j, r)) /\
  (forall l t, items_text l t -> forall n d r, (depth_list l <= d)%nat -> (2 * String.length t + 1 <= n)%nat -> read_items n d (t +:+ "]" +:+ r) = Some (l, r)) /\
  (forall l t, members_text l t -> forall n d r, (depth_members l <= d)%nat -> (2 * String.length t + 1 <= n)%nat -> read_members n d (t +:+ "}" +:+ r) = Some (l, r)).
Proof.
  apply text_mind.
  - intros n d r _ Hn _. destruct n; [len|reflexivity].
  - intros n d r _ Hn _. destruct n; [len|reflexivity].
  - intros n d r _ Hn _. destruct n; [len|reflexivity].
  - intros k n d r _ Hn Hr. destruct (num_start k) as (c & t & E & Hc). rewrite E in Hn |- *. rewrite app_cons. destruct n; [len|]. rewrite read_value_digit by done. rewrite <- app_cons, <- E. by apply num_complete.
  - intros v t Hq n d r _ Hn _. destruct n; [len|]. unfold QT at 1. rewrite !asc, app_cons, app_nil. cbn [read_value Ascii.eqb Bool.eqb]. by rewrite (str_complete v).
  - intros w Hw n d r Hd Hn _. destruct n; [len|]. destruct d; [cbn in Hd; lia|]. rewrite !asc, app_cons, app_nil. cbn [read_value Ascii.eqb Bool.eqb]. rewrite skip_blanks by done. reflexivity.
  - intros l t Hl IH n d r Hd Hn _. destruct n; [len|]. destruct d; [cbn in Hd; lia|]. rewrite !asc, app_cons, app_nil. cbn [read_value Ascii.eqb Bool.eqb]. rewrite (items_open _ _ _ Hl).
    rewrite IH; [reflexivity|change (S (depth_list l) <= S d)%nat in Hd; lia|len].
  - intros w Hw n d r Hd Hn _. destruct n; [len|]. destruct d; [cbn in Hd; lia|]. rewrite !asc, app_cons, app_nil. cbn [read_value Ascii.eqb Bool.eqb]. rewrite skip_blanks by done. reflexivity.
  - intros l t Hl IH n d r Hd Hn _. destruct n; [len|]. destruct d; [cbn in Hd; lia|]. rewrite !asc, app_cons, app_nil. cbn [read_value Ascii.eqb Bool.eqb]. rewrite (members_open _ _ _ Hl).
    rewrite IH; [reflexivity|change (S (depth_members l) <= S d)%nat in Hd; lia|len].
  - intros x w t w' Hw Hw' Hv IH n d r Hd Hn. destruct n; [len|]. rewrite !asc. cbn [read_items]. rewrite skip_blanks, (value_skip _ _ _ Hv) by done.
    rewrite IH; [|cbn in Hd; lia|len|by apply blanks_stop]. rewrite skip_blanks by done. reflexivity.
  - intros x w t w' l u Hw Hw' Hv IH Hl IHl n d r Hd Hn. change (Nat.max (nesting x) (depth_list l) <= d)%nat in Hd. destruct n; [len|]. rewrite !asc. cbn [read_items]. rewrite skip_blanks, (value_skip _ _ _ Hv) by done.
    rewrite IH; [|lia|len|by apply blanks_stop]. rewrite skip_blanks by done. cbn [skip blank existsb Ascii.eqb Bool.eqb orb]. rewrite app_cons, app_nil. cbn [skip blank existsb Ascii.eqb Bool.eqb orb]. rewrite IHl; [done|lia|len].
  - intros k x w1 q w2 w3 t w4 H1 H2 H3 H4 Hq Hv IH n d r Hd Hn. destruct n; [len|]. rewrite !asc. cbn [read_members]. rewrite skip_blanks by done. unfold QT at 1. rewrite app_cons, app_nil.
    cbn [skip blank existsb Ascii.eqb Bool.eqb orb]. rewrite (str_complete k) by done. rewrite skip_blanks by done. rewrite app_cons, app_nil. cbn [skip blank existsb Ascii.eqb Bool.eqb orb].
    rewrite skip_blanks, (value_skip _ _ _ Hv) by done. rewrite IH; [|cbn in Hd; lia|len|by apply blanks_stop]. rewrite skip_blanks by done. reflexivity.
  - intros k x w1 q w2 w3 t w4 l u H1 H2 H3 H4 Hq Hv IH Hl IHl n d r Hd Hn. change (Nat.max (nesting x) (depth_members l) <= d)%nat in Hd. destruct n; [len|]. rewrite !asc. cbn [read_members]. rewrite skip_blanks by done. unfold QT at 1. rewrite app_cons, app_nil.
    cbn [skip blank existsb Ascii.eqb Bool.eqb orb]. rewrite (str_complete k) by done. rewrite skip_blanks by done. rewrite app_cons, app_nil. cbn [skip blank existsb Ascii.eqb Bool.eqb orb].
    rewrite skip_blanks, (value_skip _ _ _ Hv) by done. rewrite IH; [|lia|len|by apply blanks_stop]. rewrite skip_blanks by done. rewrite app_cons, app_nil. cbn [skip blank existsb Ascii.eqb Bool.eqb orb].
    rewrite IHl; [done|lia|len].
Qed.
(** ** Whatever is read says what was read *)
Lemma read_sound n :
  (forall d s j r, read_value n d s = Some (j, r) -> exists t, s = t +:+ r /\ value_text j t /\ (nesting j <= d)%nat) /\
  (forall d s l r, read_items n d s = Some (l, r) -> exists t, s = t +:+ "]" +:+ r /\ items_text l t /\ (depth_list l <= d)%nat) /\
  (forall d s l r, read_members n d s = Some (l, r) -> exists t, s = t +:+ "}" +:+ r /\ members_text l t /\ (depth_members l <= d)%nat).
Proof.
  induction n as [|n (IHv & IHi & IHm)]; [done|]. split; [|split].
  - intros d s j r H. destruct s as [|c s]; [done|]. cbn [read_value] in H. destruct (Ascii.eqb c "034") eqn:Eq.
    { apply Ascii.eqb_eq in Eq. subst c. destruct (read_str s) as [[v q]|] eqn:E; [|done]. injection H as <- <-. apply str_sound in E as (t & -> & Ht). exists (QT +:+ t +:+ QT).
      split; [by rewrite !asc|]. split; [by constructor|cbn; lia]. }
    destruct (Ascii.eqb c "[") eqn:Ea.
    { apply Ascii.eqb_eq in Ea. subst c. destruct d as [|d]; [done|]. destruct (after "]" (skip s)) as [q|] eqn:E.
      - injection H as <- <-. apply after_spec in E. destruct (skip_split s) as (w & Hw & Es). rewrite E in Es. exists ("[" +:+ w +:+ "]"). split; [rewrite Es, !asc; reflexivity|]. split; [by constructor|cbn; lia].
      - destruct (read_items n d s) as [[l q]|] eqn:El; [|done]. injection H as <- <-. apply IHi in El as (t & -> & Ht & Hd). exists ("[" +:+ t +:+ "]"). split; [by rewrite !asc|].
        split; [by constructor|]. change (S (depth_list l) <= S d)%nat. lia. }
    destruct (Ascii.eqb c "{") eqn:Eo.
    { apply Ascii.eqb_eq in Eo. subst c. destruct d as [|d]; [done|]. destruct (after "}" (skip s)) as [q|] eqn:E.
      - injection H as <- <-. apply after_spec in E. destruct (skip_split s) as (w & Hw & Es). rewrite E in Es. exists ("{" +:+ w +:+ "}"). split; [rewrite Es, !asc; reflexivity|]. split; [by constructor|cbn; lia].
      - destruct (read_members n d s) as [[l q]|] eqn:El; [|done]. injection H as <- <-. apply IHm in El as (t & -> & Ht & Hd). exists ("{" +:+ t +:+ "}"). split; [by rewrite !asc|].
        split; [by constructor|]. change (S (depth_members l) <= S d)%nat. lia. }
    destruct (is_digit c) eqn:Ed; [apply num_sound in H as (k & -> & ->); eexists; split; [reflexivity|]; split; [constructor|cbn; lia]|].
    destruct (after "null" (String c s)) as [q|] eqn:E1; [injection H as <- <-; apply after_spec in E1; eexists; split; [exact E1|]; split; [constructor|cbn; lia]|].
    destruct (after "true" (String c s)) as [q|] eqn:E2; [injection H as <- <-; apply after_spec in E2; eexists; split; [exact E2|]; split; [constructor|cbn; lia]|].
    destruct (after "false" (String c s)) as [q|] eqn:E3; [injection H as <- <-; apply after_spec in E3; eexists; split; [exact E3|]; split; [constructor|cbn; lia]|done].
  - intros d s l r H. cbn [read_items] in H. destruct (read_value n d (skip s)) as [[x q]|] eqn:E; [|done]. apply IHv in E as (t & E & Ht & Hd).
    destruct (skip_split s) as (w & Hw & Es). destruct (skip_split q) as (w' & Hw' & Eq'). destruct (skip q) as [|c q']; [done|]. rewrite E, Eq' in Es. destruct (Ascii.eqb c "]") eqn:Ec.
    + apply Ascii.eqb_eq in Ec. subst c. injection H as <- <-. exists (w +:+ t +:+ w'). split; [rewrite Es, !asc; reflexivity|]. split; [by constructor|cbn; lia].
    + destruct (Ascii.eqb c ",") eqn:Ec'; [|done]. apply Ascii.eqb_eq in Ec'. subst c. destruct (read_items n d q') as [[l' r']|] eqn:El; [|done]. injection H as <- <-.
      apply IHi in El as (u & -> & Hu & Hdu). exists (w +:+ t +:+ w' +:+ "," +:+ u). split; [rewrite Es, !asc; reflexivity|]. split; [by constructor|]. change (Nat.max (nesting x) (depth_list l') <= d)%nat. lia.
  - intros d s l r H. cbn [read_members] in H. destruct (skip_split s) as (w1 & H1 & Es). destruct (skip s) as [|q s']; [done|]. destruct (Ascii.eqb q "034") eqn:Eq; [|done].
    apply Ascii.eqb_eq in Eq. subst q. destruct (read_str s') as [[k s2]|] eqn:Ek; [|done]. apply str_sound in Ek as (kt & -> & Hk). destruct (skip_split s2) as (w2 & H2 & Es2).
    destruct (skip s2) as [|c s3]; [done|]. destruct (Ascii.eqb c ":") eqn:Ec; [|done]. apply Ascii.eqb_eq in Ec. subst c. destruct (read_value n d (skip s3)) as [[x s4]|] eqn:E; [|done].
    apply IHv in E as (t & E & Ht & Hd). destruct (skip_split s3) as (w3 & H3 & Es3). destruct (skip_split s4) as (w4 & H4 & Es4). destruct (skip s4) as [|c s5]; [done|].
    rewrite E, Es4 in Es3. rewrite Es3 in Es2. rewrite Es2 in Es. destruct (Ascii.eqb c "}") eqn:Ec.
    + apply Ascii.eqb_eq in Ec. subst c. injection H as <- <-. exists (w1 +:+ QT +:+ kt +:+ QT +:+ w2 +:+ ":" +:+ w3 +:+ t +:+ w4). split; [rewrite Es, !asc; reflexivity|]. split; [by constructor|cbn; lia].
    + destruct (Ascii.eqb c ",") eqn:Ec'; [|done]. apply Ascii.eqb_eq in Ec'. subst c. destruct (read_members n d s5) as [[l' r']|] eqn:El; [|done]. injection H as <- <-.
      apply IHm in El as (u & -> & Hu & Hdu). exists (w1 +:+ QT +:+ kt +:+ QT +:+ w2 +:+ ":" +:+ w3 +:+ t +:+ w4 +:+ "," +:+ u). split; [rewrite Es, !asc; reflexivity|]. split; [by constructor|].
      change (Nat.max (nesting x) (depth_members l') <= d)%nat. lia.
Qed.
Lemma blanks_alone w : blanks w -> skip w = "".
Proof. intros H. rewrite <- (append_nil_r w), skip_blanks by done. reflexivity. Qed.
Lemma read_json_spec s j : read_json s = Some j <-> json_text j s /\ (nesting j <= 127)%nat.
Proof.
  unfold read_json. split.
  - destruct (read_value _ 127 (skip s)) as [[j' r]|] eqn:E; [|done]. intros H. destruct (skip r) eqn:Er; [|done]. injection H as ->. apply read_sound in E as (t & E & Ht & Hd). split; [|done].
    destruct (skip_split s) as (w & Hw & Es). destruct (skip_split r) as (w' & Hw' & Er'). rewrite Er, append_nil_r in Er'. subst w'. rewrite E in Es. by exists w, t, r.
  - intros [(w & t & w' & Hw & Hw' & Ht & ->) Hd]. rewrite skip_blanks, (value_skip _ _ _ Ht) by done.
    rewrite (proj1 read_complete _ _ Ht); [by rewrite blanks_alone|done|len|]. rewrite <- (append_nil_r w'). by apply blanks_stop.
Qed.
(** A text says one tree at most. *)
Lemma text_unique j j' s : json_text j s -> json_text j' s -> j = j'.
Proof.
  intros (w & t & w' & Hw & Hw' & Ht & ->) (w2 & t2 & w2' & Hw2 & Hw2' & Ht2 & E). set (n := (2 * String.length t + 2 * String.length t2)%nat). set (d := Nat.max (nesting j) (nesting j')).
  apply (f_equal skip) in E. rewrite (skip_blanks w), (skip_blanks w2), (value_skip _ _ _ Ht), (value_skip _ _ _ Ht2) in E by done.
  assert (R1 : read_value n d (t +:+ w') = Some (j, w')) by (apply (proj1 read_complete _ _ Ht); [lia|lia|rewrite <- (append_nil_r w'); by apply blanks_stop]).
  assert (R2 : read_value n d (t2 +:+ w2') = Some (j', w2')) by (apply (proj1 read_complete _ _ Ht2); [lia|lia|rewrite <- (append_nil_r w2'); by apply blanks_stop]).
  rewrite E, R2 in R1. by injection R1.
Qed.

(** ** Writing *)
Lemma hex_char_digit n : (n < 16)%nat -> hex_digit (hex_char n) (N.of_nat n).
Proof. intros H. exists "0123456789abcdef". split; [by left|]. rewrite Nat2N.id. do 16 (destruct n as [|n]; [reflexivity|]). lia. Qed.
Lemma escape_char_spec c v t : quoted_text v t -> quoted_text (String c v) (escape_char c +:+ t).
Proof.
  intros H. unfold escape_char. assert (S : forall e, (e, c) ∈ short_escapes -> quoted_text (String c v) (String "\" (String e t))) by (intros e He; by constructor).
  destruct (Ascii.eqb c "034") eqn:E1; [apply (S "034"%char); apply Ascii.eqb_eq in E1; subst; by apply (bool_decide_unpack _)|].
  destruct (Ascii.eqb c "092") eqn:E2; [apply (S "092"%char); apply Ascii.eqb_eq in E2; subst; by apply (bool_decide_unpack _)|].
  destruct (Ascii.eqb c "008") eqn:E3; [apply (S "b"%char); apply Ascii.eqb_eq in E3; subst; by apply (bool_decide_unpack _)|].
  destruct (Ascii.eqb c "009") eqn:E4; [apply (S "t"%char); apply Ascii.eqb_eq in E4; subst; by apply (bool_decide_unpack _)|].
  destruct (Ascii.eqb c "010") eqn:E5; [apply (S "n"%char); apply Ascii.eqb_eq in E5; subst; by apply (bool_decide_unpack _)|].
  destruct (Ascii.eqb c "012") eqn:E6; [apply (S "f"%char); apply Ascii.eqb_eq in E6; subst; by apply (bool_decide_unpack _)|].
  destruct (Ascii.eqb c "013") eqn:E7; [apply (S "r"%char); apply Ascii.eqb_eq in E7; subst; by apply (bool_decide_unpack _)|].
  destruct (Nat.ltb (nat_of_ascii c) 32) eqn:E8.
  - apply Nat.ltb_lt in E8. rewrite asc, !app_cons, !app_nil. set (k := nat_of_ascii c) in *.
    assert (Q : quoted_text (utf8 (N.of_nat k) +:+ v) (String "\" (String "u" (String "0" (String "0" (String (hex_char (k / 16)) (String (hex_char (k mod 16)) t))))))).
    { apply qt_code; [|unfold high_surrogate; lia|unfold low_surrogate; lia|done]. exists 0%N, 0%N, (N.of_nat (k / 16)), (N.of_nat (k mod 16)).
      split; [by apply hex_val_spec|]. split; [by apply hex_val_spec|]. split; [apply hex_char_digit, Nat.div_lt_upper_bound; lia|]. split; [apply hex_char_digit, Nat.mod_upper_bound; lia|].
      pose proof (Nat.div_mod_eq k 16). lia. }
    assert (U : utf8 (N.of_nat k) = String c ""); [|by rewrite U in Q].
    subst k. clear Q. revert E8. clear. destruct c as [[] [] [] [] [] [] [] []]; vm_compute; intros H; try reflexivity; exfalso; lia.
  - apply Nat.ltb_ge in E8. rewrite app_cons, app_nil. apply Ascii.eqb_neq in E1, E2. by constructor.
Qed.
Lemma escape_spec s : quoted_text s (escape s).
Proof. induction s as [|c s IH]; [constructor|]. cbn [escape]. by apply escape_char_spec. Qed.
Lemma write_str_value s : value_text (JStr s) (write_str s).
Proof. apply vt_str, escape_spec. Qed.
Lemma write_items l : Forall (fun x => value_text x (write_json x)) l -> l <> [] -> items_text l (commas (map write_json l)).
Proof.
  induction 1 as [|x l Hx Hl IH]; [done|]. intros _. destruct l as [|y l].
  - pose proof (it_one x "" _ "" eq_refl eq_refl Hx) as H. by rewrite append_nil_r in H.
  - exact (it_more x "" _ "" (y :: l) _ eq_refl eq_refl Hx (IH ltac:(done))).
Qed.
Lemma write_members l : Forall (fun kv : string * json => value_text kv.2 (write_json kv.2)) l -> l <> [] ->
  members_text l (commas (map (fun kv => write_str kv.1 +:+ ":" +:+ write_json kv.2) l)).
Proof.
  induction 1 as [|[k x] l Hx Hl IH]; [done|]. intros _. cbn [snd] in Hx. destruct l as [|y l].
  - pose proof (mt_one k x "" _ "" "" _ "" eq_refl eq_refl eq_refl eq_refl (escape_spec k) Hx) as H. cbn [map commas fst snd]. unfold write_str. rewrite append_nil_r in H. rewrite !asc. exact H.
  - pose proof (mt_more k x "" _ "" "" _ "" (y :: l) _ eq_refl eq_refl eq_refl eq_refl (escape_spec k) Hx (IH ltac:(done))) as H. cbn [map fst snd].
    change (commas (?a :: ?b :: ?c)) with (a +:+ "," +:+ commas (b :: c)). unfold write_str at 1. rewrite !asc. exact H.
Qed.
Lemma write_value : forall j, value_text j (write_json j).
Proof.
  fix IH 1. intros [|b|n|s|l|l]; [constructor|destruct b; constructor|constructor|apply write_str_value| |].
  - cbn [write_json]. destruct l as [|x l]; [by apply (vt_arr0 "")|]. apply vt_arr, write_items; [|discriminate]. revert IH. clear. intros IH. generalize (x :: l). fix IHl 1. intros [|y m]; constructor; [apply IH|apply IHl].
  - cbn [write_json]. destruct l as [|x l]; [by apply (vt_obj0 "")|]. apply vt_obj, write_members; [|discriminate]. revert IH. clear. intros IH. generalize (x :: l). fix IHl 1. intros [|[k y] m]; constructor; [apply IH|apply IHl].
Qed.
Lemma write_text j : json_text j (write_json j).
Proof. exists "", (write_json j), "". split; [done|]. split; [done|]. split; [apply write_value|]. by rewrite append_nil_r. Qed.
