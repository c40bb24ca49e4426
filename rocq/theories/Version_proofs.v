(** Proofs about Version.v. *)
From Verif Require Import Base Bundle Spec_JsonText JsonText JsonText_proofs TFile Nesting Text Spec_Version Version.
From Verif Require Condition_proofs.
Local Open Scope string_scope.

Notation len := String.length.
Lemma len_app a b : len (a +:+ b) = len a + len b.
Proof. apply Condition_proofs.length_append. Qed.
Lemma sassoc a b c : (a +:+ b) +:+ c = a +:+ (b +:+ c).
Proof. apply Condition_proofs.append_assoc. Qed.
Lemma chars_app p a b : all_chars p (a +:+ b) = all_chars p a && all_chars p b.
Proof. apply Condition_proofs.all_chars_app. Qed.

(** ** Numbers *)
Lemma hex_char_ok n : (n < 16)%N -> hex_digit (hex_char (N.to_nat n)) n.
Proof. intros H. rewrite <- (N2Nat.id n) at 2. apply hex_char_digit. lia. Qed.
Lemma hex_char_as_is n : (n < 16)%nat -> as_is (hex_char n) = true.
Proof. intros H. do 16 (destruct n as [|n]; [reflexivity|]). lia. Qed.
Lemma hex_from_spec fuel : forall n acc, (0 < fuel)%nat -> (n < 16 ^ N.of_nat fuel)%N -> exists h, hex_from fuel n acc = h +:+ acc /\ hex_number h n /\ all_chars as_is h = true /\
  (forall k, (0 < k)%nat -> (n < 16 ^ N.of_nat k)%N -> len h <= k) /\ (forall k, (16 ^ N.of_nat k <= n)%N -> k < len h).
Proof.
  induction fuel as [|f IH]; intros n acc Hf Hn; [lia|]. cbn [hex_from]. cbv zeta.
  assert (Hm : (n mod 16 < 16)%N) by (apply N.mod_lt; lia).
  destruct (N.ltb_spec n 16) as [L|L].
  - exists (String (hex_char (N.to_nat (n mod 16))) ""). rewrite N.mod_small by done. split; [reflexivity|]. split.
    { replace n with (16 * 0 + n)%N at 2 by lia. change (String (hex_char (N.to_nat n)) "") with ("" +:+ String (hex_char (N.to_nat n)) ""). apply hn_digit; [apply hn_nil|by apply hex_char_ok]. }
    split; [cbn [all_chars]; rewrite hex_char_as_is by lia; reflexivity|]. split; [intros k Hk _; cbn; lia|].
    intros k Hk. destruct k as [|k]; [cbn; lia|]. exfalso. rewrite Nat2N.inj_succ, N.pow_succ_r' in Hk. assert (1 <= 16 ^ N.of_nat k)%N; [|lia]. clear. assert (16 ^ N.of_nat k <> 0)%N by (apply N.pow_nonzero; lia). lia.
  - assert (Hd : (n = 16 * (n / 16) + n mod 16)%N) by (apply N.div_mod; lia).
    destruct (IH (n / 16)%N (String (hex_char (N.to_nat (n mod 16))) acc)) as (h & E & Hh & Ha & Hu & Hl).
    { destruct f; [|lia]. cbn in Hn. lia. }
    { rewrite Nat2N.inj_succ, N.pow_succ_r' in Hn. apply N.div_lt_upper_bound; lia. }
    exists (h +:+ String (hex_char (N.to_nat (n mod 16))) ""). split; [rewrite E, sassoc; reflexivity|]. split.
    { rewrite Hd at 2. apply hn_digit; [done|by apply hex_char_ok]. }
    split; [rewrite chars_app, Ha; cbn [all_chars]; rewrite hex_char_as_is by lia; reflexivity|]. rewrite len_app. split.
    + intros [|[|k]] Hk Hlt; [lia| |].
      * cbn in Hlt. lia.
      * rewrite Nat2N.inj_succ, N.pow_succ_r' in Hlt. assert (len h <= S k); [|cbn; lia]. apply Hu; [lia|]. apply N.div_lt_upper_bound; lia.
    + intros [|k] Hk; [cbn; lia|]. rewrite Nat2N.inj_succ, N.pow_succ_r' in Hk. assert (k < len h); [|cbn; lia]. apply Hl. apply N.div_le_lower_bound; lia.
Qed.
Lemma size_bound n : (n < 16 ^ N.of_nat (S (N.size_nat n)))%N.
Proof.
  apply N.lt_le_trans with (2 ^ N.of_nat (N.size_nat n))%N.
  - destruct n as [|p]; [reflexivity|]. replace (N.of_nat (N.size_nat (N.pos p))) with (N.size (N.pos p)); [apply N.size_gt|].
    cbn. clear. induction p as [p IH|p IH|]; cbn [Pos.size Pos.size_nat]; [rewrite Nat2N.inj_succ, <- IH; reflexivity|rewrite Nat2N.inj_succ, <- IH; reflexivity|reflexivity].
  - rewrite Nat2N.inj_succ, N.pow_succ_r'. transitivity (16 ^ N.of_nat (N.size_nat n))%N; [apply N.pow_le_mono_l; lia|]. lia.
Qed.
Lemma hex_text_spec n : hex_number (hex_text n) n /\ all_chars as_is (hex_text n) = true /\ (forall k, (0 < k)%nat -> (n < 16 ^ N.of_nat k)%N -> len (hex_text n) <= k) /\ (forall k, (16 ^ N.of_nat k <= n)%N -> k < len (hex_text n)).
Proof.
  unfold hex_text. destruct (hex_from_spec (S (N.size_nat n)) n "") as (h & E & H); [lia|apply size_bound|]. rewrite E, Condition_proofs.append_nil_r. exact H.
Qed.
Lemma hex_zeros k : hex_number (zeros k) 0.
Proof.
  induction k as [|k IH]; [apply hn_nil|]. assert (E : zeros (S k) = zeros k +:+ "0"). { clear IH. induction k as [|k IH]; [reflexivity|]. cbn [zeros] in *. rewrite IH at 1. reflexivity. }
  rewrite E. change 0%N with (16 * 0 + 0)%N. apply hn_digit; [done|]. exists "0123456789abcdef". split; [by left|reflexivity].
Qed.
Lemma hex_app z s n : hex_number z 0 -> hex_number s n -> hex_number (z +:+ s) n.
Proof. intros Hz. induction 1 as [|s n c d H IH Hd]; [by rewrite Condition_proofs.append_nil_r|]. rewrite <- sassoc. by apply hn_digit. Qed.
Lemma len_zeros k : len (zeros k) = k.
Proof. induction k as [|k IH]; [reflexivity|cbn; by rewrite IH]. Qed.
Lemma zeros_as_is k : all_chars as_is (zeros k) = true.
Proof. induction k as [|k IH]; [reflexivity|cbn [zeros all_chars]; by rewrite IH]. Qed.
Lemma hex06_spec n : hex_number (hex06 n) n /\ all_chars as_is (hex06 n) = true /\ 6 <= len (hex06 n) /\ ((n < six_digits)%N -> len (hex06 n) = 6) /\ ((six_digits <= n)%N -> 6 < len (hex06 n)).
Proof.
  destruct (hex_text_spec n) as (H1 & H2 & H3 & H4). unfold hex06. split; [apply hex_app; [apply hex_zeros|done]|]. split; [rewrite chars_app, zeros_as_is; done|].
  rewrite len_app, len_zeros. split; [lia|]. split; intros H; [pose proof (H3 6 ltac:(lia) H); lia|pose proof (H4 6 H); lia].
Qed.
(** A digit has one value, and so has a number. *)
Lemma hex_digit_fun c a b : hex_digit c a -> hex_digit c b -> a = b.
Proof. intros H1 H2. apply hex_val_spec in H1, H2. congruence. Qed.
Lemma snoc_inj a b c d : a +:+ String c "" = b +:+ String d "" -> a = b /\ c = d.
Proof.
  revert b. induction a as [|x a IH]; intros [|y b] E; cbn in E.
  - by injection E.
  - injection E as _ E. by destruct b.
  - injection E as _ E. by destruct a.
  - injection E as -> E. apply IH in E as [-> ->]. done.
Qed.
Lemma hex_number_fun s n : hex_number s n -> forall m, hex_number s m -> n = m.
Proof.
  induction 1 as [|s n c d H IH Hd]; intros m Hm; inversion Hm as [E|s' n' c' d' H' Hd' E]; subst.
  - done.
  - by destruct s'.
  - by destruct s.
  - apply snoc_inj in E as [-> ->]. rewrite (IH _ H'), (hex_digit_fun _ _ _ Hd Hd'). done.
Qed.
Lemma hex06_inj n m : hex06 n = hex06 m -> n = m.
Proof. intros E. apply (hex_number_fun (hex06 n)); [apply hex06_spec|rewrite E; apply hex06_spec]. Qed.

(** ** Version strings *)
Definition proto_ok (p : proto) : Prop := all_chars as_is (pr_code p) = true /\ len (pr_code p) = 4 /\ pr_major p < 16 /\ pr_minor p < 16.
Lemma oca_proto_ok : proto_ok oca_proto. Proof. split; [reflexivity|]. split; [reflexivity|]. cbn; lia. Qed.
Lemma tr_proto_ok : proto_ok tr_proto. Proof. split; [reflexivity|]. split; [reflexivity|]. cbn; lia. Qed.
Lemma version_as_is p n : proto_ok p -> all_chars as_is (version_text p n) = true.
Proof.
  intros (H1 & _ & H2 & H3). unfold version_text. rewrite chars_app, H1. cbn [all_chars append]. rewrite !hex_char_as_is by done. cbn [andb].
  change (as_is "J") with true. change (as_is "S") with true. change (as_is "O") with true. change (as_is "N") with true. cbn [andb]. rewrite chars_app.
  destruct (hex06_spec n) as (_ & -> & _). reflexivity.
Qed.
Lemma version_len p n : proto_ok p -> len (version_text p n) = 11 + len (hex06 n).
Proof. intros (_ & H & _). unfold version_text. rewrite len_app, H. cbn [len append]. rewrite len_app. cbn [len]. lia. Qed.
Lemma app_inj_r a b c : a +:+ c = b +:+ c -> a = b.
Proof.
  intros E. assert (L : len a = len b). { apply (f_equal len) in E. rewrite !len_app in E. lia. }
  revert b E L. induction a as [|x a IH]; intros [|y b] E L; cbn in L; [done|lia|lia|]. cbn in E. injection E as -> E. f_equal. apply IH; [done|lia].
Qed.
Lemma app_inj_l a b c : a +:+ b = a +:+ c -> b = c.
Proof. induction a as [|x a IH]; [done|]. cbn. intros [= E]. by apply IH. Qed.
Lemma version_inj p n m : version_text p n = version_text p m -> n = m.
Proof.
  unfold version_text. intros E. apply app_inj_l in E. injection E as E. by apply app_inj_r, hex06_inj in E.
Qed.
Lemma version_states p n : proto_ok p -> states (version_text p n) (pr_code p) (N.of_nat (pr_major p)) (N.of_nat (pr_minor p)) n.
Proof.
  intros (_ & _ & H2 & H3). exists (hex_char (pr_major p)), (hex_char (pr_minor p)), (hex06 n). split; [reflexivity|]. split; [by apply hex_char_digit|]. split; [by apply hex_char_digit|].
  destruct (hex06_spec n) as (H & _ & L & _). done.
Qed.

(** ** Texts *)
Lemma escape_as_is s : all_chars as_is s = true -> escape s = s.
Proof.
  induction s as [|c s IH]; [done|]. cbn [all_chars escape]. intros H. apply andb_true_iff in H as [H1 H2]. rewrite IH by done.
  assert (E : escape_char c = String c ""); [|by rewrite E].
  unfold as_is in H1. apply andb_true_iff in H1 as [H1 H3]. apply andb_true_iff in H1 as [H1 H4]. apply negb_true_iff in H3, H4. apply Nat.leb_le in H1.
  unfold escape_char. rewrite H4, H3. assert (K : forall d, nat_of_ascii d < 32 -> Ascii.eqb c d = false). { intros d Hd. apply Ascii.eqb_neq. intros ->. lia. }
  do 5 (rewrite K by (apply Nat.ltb_lt; reflexivity)). destruct (Nat.ltb_spec (nat_of_ascii c) 32); [lia|done].
Qed.
(** What follows the SAID of an object. *)
Definition tail_of (r : list (string * json)) : string :=
  match r with [] => "" | _ => "," +:+ commas (map (fun kv : string * json => write_str kv.1 +:+ ":" +:+ write_json kv.2) r) end +:+ "}".
Lemma commas_cons x r : commas (x :: r) = x +:+ match r with [] => "" | _ => "," +:+ commas r end.
Proof. destruct r; [by rewrite Condition_proofs.append_nil_r|reflexivity]. Qed.
Lemma obj_text k x r : write_json (JObj ((k, x) :: r)) = "{" +:+ write_str k +:+ ":" +:+ write_json x +:+ tail_of r.
Proof.
  cbn [write_json map]. rewrite commas_cons. cbn [fst snd]. unfold tail_of. rewrite !sassoc. destruct r; reflexivity.
Qed.
Lemma tail_cons k x r : tail_of ((k, x) :: r) = "," +:+ write_str k +:+ ":" +:+ write_json x +:+ tail_of r.
Proof. unfold tail_of at 1. cbn [map]. rewrite commas_cons. cbn [fst snd]. unfold tail_of. rewrite !sassoc. destruct r; reflexivity. Qed.
Lemma versioned_text v d r : all_chars as_is v = true -> versioned v (("d", d) :: r) =
  "{" +:+ QT +:+ "v" +:+ QT +:+ ":" +:+ QT +:+ v +:+ QT +:+ "," +:+ QT +:+ "d" +:+ QT +:+ ":" +:+ write_json d +:+ tail_of r.
Proof.
  intros Hv. unfold versioned. rewrite obj_text, tail_cons. change (write_json (JStr v)) with (write_str v). unfold write_str. rewrite (escape_as_is v), (escape_as_is "v"), (escape_as_is "d") by done. rewrite !sassoc. reflexivity.
Qed.
Lemma versioned_opening v s r : all_chars as_is v = true -> all_chars as_is s = true -> versioned v (("d", JStr s) :: r) = opening v +:+ s +:+ QT +:+ tail_of r.
Proof.
  intros Hv Hs. rewrite versioned_text by done. change (write_json (JStr s)) with (write_str s). unfold write_str, opening. rewrite (escape_as_is s) by done. rewrite !sassoc. reflexivity.
Qed.
Lemma plain_text s r : all_chars as_is s = true -> write_json (JObj (("d", JStr s) :: r)) = plain_opening +:+ s +:+ QT +:+ tail_of r.
Proof. intros Hs. rewrite obj_text. change (write_json (JStr s)) with (write_str s). unfold write_str, plain_opening. rewrite (escape_as_is s), (escape_as_is "d") by done. rewrite !sassoc. reflexivity. Qed.
Lemma dummy_ok : all_chars as_is dummy_said = true. Proof. reflexivity. Qed.
Lemma len_opening v : len (opening v) = 13 + len v.
Proof. unfold opening, QT. cbn [len append]. rewrite len_app. cbn [len append]. lia. Qed.

(** Objects whose first field is the SAID. *)
Section Fields.
Variables (p : proto) (f : json -> list (string * json)) (r : list (string * json)).
Hypothesis Hp : proto_ok p.
Hypothesis Hf : forall d, f d = ("d", d) :: r.
Definition base_size : N := text_size (versioned (version_text p 0) (f (JStr dummy_said))).
Lemma derivation_is : derivation_text p f = opening (version_text p base_size) +:+ placeholder +:+ QT +:+ tail_of r.
Proof. unfold derivation_text. fold base_size. rewrite Hf, versioned_opening; [reflexivity|by apply version_as_is|apply dummy_ok]. Qed.
Lemma base_len : base_size = N.of_nat (13 + 11 + 6 + 44 + 1 + len (tail_of r)).
Proof.
  unfold base_size, text_size. rewrite Hf, versioned_opening; [|by apply version_as_is|apply dummy_ok]. rewrite !len_app, len_opening, version_len by done.
  destruct (hex06_spec 0) as (_ & _ & _ & H6 & _). rewrite H6 by reflexivity. change (len dummy_said) with 44. change (len QT) with 1. f_equal; lia.
Qed.
Lemma derivation_len : text_size (derivation_text p f) = (base_size + N.of_nat (len (hex06 base_size) - 6))%N.
Proof.
  rewrite derivation_is, base_len. set (b := N.of_nat _). unfold text_size. rewrite !len_app, len_opening, version_len by done. destruct (hex06_spec b) as (_ & _ & L & _).
  change (len placeholder) with 44. change (len QT) with 1. unfold b at 2. lia.
Qed.
Lemma small_size : (base_size < six_digits)%N <-> (text_size (derivation_text p f) < six_digits)%N.
Proof. rewrite derivation_len. destruct (hex06_spec base_size) as (_ & _ & L & H1 & H2). split; intros H; [rewrite H1 by done; lia|lia]. Qed.
Lemma same_size : (base_size < six_digits)%N -> text_size (derivation_text p f) = base_size.
Proof. intros H. rewrite derivation_len. destruct (hex06_spec base_size) as (_ & _ & _ & H6 & _). rewrite H6 by done. lia. Qed.
Lemma encode_is s : all_chars as_is s = true -> encode_text p f (JStr s) = opening (version_text p (text_size (derivation_text p f))) +:+ s +:+ QT +:+ tail_of r.
Proof. intros Hs. unfold encode_text. rewrite Hf, versioned_opening; [done|by apply version_as_is|done]. Qed.
(** The text is as long as stated, unless the size of the size changes. *)
Lemma encode_len s : said_text s -> text_size (encode_text p f (JStr s)) = (base_size + N.of_nat (len (hex06 (text_size (derivation_text p f))) - 6))%N.
Proof.
  intros [L H]. rewrite encode_is by done. set (n := text_size (derivation_text p f)). unfold text_size. rewrite !len_app, len_opening, version_len, L, base_len by done. destruct (hex06_spec n) as (_ & _ & L6 & _). change (len QT) with 1. lia.
Qed.
Lemma encode_small s : said_text s -> ((text_size (encode_text p f (JStr s)) < six_digits)%N <-> (base_size < six_digits)%N) /\
  ((base_size < six_digits)%N -> text_size (encode_text p f (JStr s)) = base_size /\ version_text p (text_size (derivation_text p f)) = version_text p base_size).
Proof.
  intros Hs. rewrite encode_len by done. assert (K : (base_size < six_digits)%N -> text_size (derivation_text p f) = base_size /\ len (hex06 base_size) = 6).
  { intros H. split; [by apply same_size|]. by apply hex06_spec. }
  split.
  - split; [lia|]. intros H. destruct (K H) as [-> ->]. lia.
  - intros H. destruct (K H) as [-> ->]. split; [lia|done].
Qed.
End Fields.

(** ** Stores *)
Lemma versioned_round v l : shallow (JObj l) -> read_json (versioned v l) = Some (JObj (("v", JStr v) :: l)).
Proof.
  intros H. unfold versioned. apply read_json_spec. split; [apply write_text|]. unfold shallow in H. cbn [nesting map list_max fold_right fst snd] in *. lia.
Qed.
Lemma store_ok : text_ok store_write store_read.
Proof.
  intros j H. assert (R : read_json (write_json j) = Some j) by (apply read_json_spec; split; [apply write_text|exact H]).
  unfold store_write. destruct j as [| | | | |l]; try (unfold store_read; rewrite R; reflexivity). destruct (versionable l) eqn:V.
  - unfold store_read. rewrite versioned_round by done. change (String.eqb "v" "v") with true. rewrite V. reflexivity.
  - unfold store_read. rewrite R. destruct l as [|[k x] l]; [done|]. cbn [versionable] in V. destruct (String.eqb k "v"); [by rewrite V|done].
Qed.
