From Verif Require Import Condition.
From Coq Require Import Lia.

Lemma length_append a b : String.length (a +:+ b)%string = String.length a + String.length b.
Proof. induction a as [|c a IH]; simpl; [done|]. by rewrite IH. Qed.
Lemma append_nil_r s : (s +:+ "")%string = s.
Proof. induction s as [|c s IH]; simpl; [done|]. by rewrite IH. Qed.
Lemma append_assoc a b c : ((a +:+ b) +:+ c)%string = (a +:+ (b +:+ c))%string.
Proof. induction a as [|x a IH]; simpl; [done|]. by rewrite IH. Qed.

Lemma split_rbrace_spec s a b :
  split_rbrace s = Some (a, b) -> s = (a +:+ String rbrace b)%string /\ all_chars (fun c => negb (Ascii.eqb c rbrace)) a = true.
Proof.
  revert a b; induction s as [|c s IH]; simpl; intros a b; [done|].
  destruct (Ascii.eqb_spec c rbrace) as [->|Hne].
  - intros [= <- <-]. done.
  - destruct (split_rbrace s) as [[a' b']|] eqn:E; [|done].
    intros [= <- <-]. destruct (IH _ _ eq_refl) as [-> Ha]. simpl. rewrite Ha.
    split; [done|]. destruct (Ascii.eqb_spec c rbrace); done.
Qed.
Lemma split_rbrace_none s : split_rbrace s = None -> all_chars (fun c => negb (Ascii.eqb c rbrace)) s = true.
Proof.
  induction s as [|c s IH]; simpl; [done|].
  destruct (Ascii.eqb_spec c rbrace) as [->|Hne]; [done|].
  destruct (split_rbrace s) as [[??]|]; [done|]. intros _. by rewrite IH.
Qed.
Lemma split_rbrace_app a b :
  all_chars (fun c => negb (Ascii.eqb c rbrace)) a = true ->
  split_rbrace (a +:+ String rbrace b)%string = Some (a, b).
Proof.
  induction a as [|c a IH]; simpl.
  - done.
  - destruct (Ascii.eqb_spec c rbrace); simpl; [done|]. intros H. by rewrite IH.
Qed.

(** The text a token list stands for. *)
Fixpoint untoken (ts : list token) : string :=
  match ts with
  | [] => ""
  | TLit c :: ts' => String c (untoken ts')
  | TVar n :: ts' => (wrap_var n +:+ untoken ts')%string
  end.

Lemma split_digits_spec s a b : split_digits s = (a, b) ->
  s = (a +:+ b)%string /\ all_chars is_digit a = true.
Proof.
  revert a b; induction s as [|c s IH]; simpl; intros a b.
  - intros [= <- <-]. done.
  - destruct (is_digit c) eqn:Hc.
    + destruct (split_digits s) as [a' b'] eqn:E. intros [= <- <-].
      destruct (IH _ _ eq_refl) as [-> Ha]. simpl. by rewrite Hc, Ha.
    + intros [= <- <-]. done.
Qed.
Lemma match_index_spec s a b : match_index s = Some (a, b) ->
  s = (a +:+ String rbrace b)%string /\ all_chars is_digit a = true /\ a <> "".
Proof.
  unfold match_index. destruct (split_digits s) as [ds rest] eqn:E.
  apply split_digits_spec in E as [-> Hd].
  destruct ds as [|d ds]; [done|]. destruct rest as [|c rest]; [done|].
  destruct (Ascii.eqb_spec c rbrace) as [->|]; [|done].
  intros [= <- <-]. done.
Qed.

Definition good_matcher (m : string -> option (string * string)) : Prop :=
  forall s a b, m s = Some (a, b) -> s = (a +:+ String rbrace b)%string.

Lemma tokenise_untoken m : good_matcher m -> forall fuel s,
  String.length s <= fuel -> untoken (tokenise m fuel s) = s.
Proof.
  intros Hm. induction fuel as [|f IH]; intros s Hs.
  { destruct s; simpl in *; [done|lia]. }
  destruct s as [|c s1]; [done|]. cbn [tokenise].
  destruct (Ascii.eqb_spec c dollar) as [->|Hc].
  2:{ simpl. f_equal. apply IH. simpl in Hs. lia. }
  destruct s1 as [|c2 rest]; [done|].
  destruct (Ascii.eqb_spec c2 lbrace) as [->|Hc2].
  2:{ cbn [untoken]. f_equal. apply IH. simpl in *. lia. }
  destruct (m rest) as [[cap after]|] eqn:E.
  2:{ cbn [untoken]. f_equal. apply IH. simpl in *. lia. }
  apply Hm in E. subst rest. cbn [untoken].
  assert (Hl : String.length after <= f).
  { cbn [String.length] in Hs. rewrite length_append in Hs. cbn [String.length] in Hs. lia. }
  rewrite (IH after Hl). unfold wrap_var. rewrite !append_assoc. done.
Qed.

Lemma tokens_names_untoken s : untoken (tokens_names s) = s.
Proof. apply tokenise_untoken; [|done]. intros ? ? ? H. by apply split_rbrace_spec in H as [-> _]. Qed.
Lemma tokens_indices_untoken s : untoken (tokens_indices s) = s.
Proof. apply tokenise_untoken; [|done]. intros ? ? ? H. by apply match_index_spec in H as [-> _]. Qed.

(** A token list with no pending "${" in its literals: scanning the literals at any
    position never completes a name match.  [no_match ts]: at each literal '$' followed by
    text starting with '{', there is no '}' in the remaining text. *)
Fixpoint clean (ts : list token) : Prop :=
  match ts with
  | [] => True
  | TVar n :: ts' => all_chars (fun c => negb (Ascii.eqb c rbrace)) n = true /\ clean ts'
  | TLit c :: ts' =>
      (c = dollar -> forall r, untoken ts' = String lbrace r -> split_rbrace r = None) /\ clean ts'
  end.

Lemma tokens_names_clean fuel s : String.length s <= fuel -> clean (tokenise split_rbrace fuel s).
Proof.
  revert s; induction fuel as [|f IH]; intros s Hs; [done|].
  destruct s as [|c s1]; [done|]. cbn [tokenise].
  assert (Hg : good_matcher split_rbrace).
  { intros ? ? ? H. by apply split_rbrace_spec in H as [-> _]. }
  destruct (Ascii.eqb_spec c dollar) as [->|Hc].
  2:{ simpl. split; [done|]. apply IH. simpl in Hs. lia. }
  destruct s1 as [|c2 rest]; [simpl; split; [|done]; intros _ r; done|].
  destruct (Ascii.eqb_spec c2 lbrace) as [->|Hc2].
  2:{ cbn [clean]. split; [|apply IH; simpl in *; lia].
      intros _ r. rewrite tokenise_untoken; [|done|simpl in *; lia]. intros [= ? ?]; done. }
  destruct (split_rbrace rest) as [[cap after]|] eqn:E.
  - cbn [clean]. apply split_rbrace_spec in E as [-> Hcap]. split; [done|].
    apply IH. cbn [String.length] in Hs. rewrite length_append in Hs. cbn [String.length] in Hs. lia.
  - cbn [clean]. split; [|apply IH; simpl in *; lia].
    intros _ r. rewrite tokenise_untoken; [|done|simpl in *; lia]. intros [= <-]. done.
Qed.

(** Decimal numbers. *)
Lemma uint_digits d : all_chars is_digit (DecimalString.NilEmpty.string_of_uint d) = true.
Proof. induction d; simpl; try done. Qed.
Lemma dec_of_nat_digits n : all_chars is_digit (dec_of_nat n) = true.
Proof. apply uint_digits. Qed.
Lemma to_uint_nonnil n : Nat.to_uint n <> Decimal.Nil.
Proof. pose proof (DecimalNat.Unsigned.of_to n) as H. intros E. rewrite E in H.
  simpl in H. subst n. vm_compute in E. done. Qed.
Lemma dec_of_nat_nonempty n : dec_of_nat n <> "".
Proof. unfold dec_of_nat. pose proof (to_uint_nonnil n). by destruct (Nat.to_uint n). Qed.
Lemma nat_of_dec_of_nat n : nat_of_dec (dec_of_nat n) = Some n.
Proof.
  unfold nat_of_dec. pose proof (dec_of_nat_nonempty n) as Hne.
  destruct (dec_of_nat n) eqn:E; [done|]. rewrite <- E. unfold dec_of_nat.
  rewrite DecimalString.NilEmpty.usu. simpl. by rewrite DecimalNat.Unsigned.of_to.
Qed.
Lemma split_digits_app a b :
  all_chars is_digit a = true -> (forall c s, b = String c s -> is_digit c = false) ->
  split_digits (a +:+ b)%string = (a, b).
Proof.
  intros Ha Hb. induction a as [|c a IH]; simpl.
  - destruct b as [|c b]; [done|]. simpl. by rewrite (Hb _ _ eq_refl).
  - simpl in Ha. apply andb_true_iff in Ha as [Hc Ha]. rewrite Hc, IH by done. done.
Qed.
Lemma match_index_app a b :
  all_chars is_digit a = true -> a <> "" -> match_index (a +:+ String rbrace b)%string = Some (a, b).
Proof.
  intros Ha Hne. unfold match_index. rewrite split_digits_app; [|done|].
  2:{ intros c s [= <- <-]. done. }
  destruct a; [done|]. done.
Qed.
Lemma digits_no_rbrace a : all_chars is_digit a = true -> all_chars (fun c => negb (Ascii.eqb c rbrace)) a = true.
Proof.
  induction a as [|c a IH]; simpl; [done|]. intros H. apply andb_true_iff in H as [Hc Ha].
  rewrite IH by done. destruct (Ascii.eqb_spec c rbrace) as [->|]; [by vm_compute in Hc|done].
Qed.
Lemma match_index_none_of_rbrace s : split_rbrace s = None -> match_index s = None.
Proof.
  intros H. destruct (match_index s) as [[a b]|] eqn:E; [|done].
  apply match_index_spec in E as (-> & Ha & _).
  rewrite split_rbrace_app in H; [done|]. by apply digits_no_rbrace.
Qed.

(** Encoded token lists: the same literals, variables renamed to indices. *)
Fixpoint enc_list (ts : list token) (deps : list string) : list token * list string :=
  match ts with
  | [] => ([], deps)
  | TLit c :: ts' => let '(s, d) := enc_list ts' deps in (TLit c :: s, d)
  | TVar n :: ts' =>
      let '(i, deps') := match position n deps with
                         | Some i => (i, deps)
                         | None => (length deps, deps ++ [n])
                         end in
      let '(s, d) := enc_list ts' deps' in (TVar (dec_of_nat i) :: s, d)
  end.
Lemma encode_enc_list ts : forall deps,
  encode_tokens ts deps = (untoken (enc_list ts deps).1, (enc_list ts deps).2).
Proof.
  induction ts as [|[c|n] ts IH]; intros deps; cbn [encode_tokens enc_list]; [done| |].
  - rewrite IH. by destruct (enc_list ts deps).
  - destruct (match position n deps with Some i => _ | None => _ end) as [i deps'].
    rewrite IH. by destruct (enc_list ts deps').
Qed.

(** '}' occurs in the encoded rest iff it occurred in the original rest. *)
Lemma all_chars_app f a b : all_chars f (a +:+ b)%string = all_chars f a && all_chars f b.
Proof. induction a as [|c a IH]; simpl; [done|]. by rewrite IH, andb_assoc. Qed.
Lemma enc_no_rbrace ts : forall deps,
  all_chars (fun c => negb (Ascii.eqb c rbrace)) (untoken ts) = true ->
  all_chars (fun c => negb (Ascii.eqb c rbrace)) (untoken (enc_list ts deps).1) = true.
Proof.
  induction ts as [|[c|n] ts IH]; intros deps; cbn [enc_list]; [done| |].
  - specialize (IH deps). destruct (enc_list ts deps). cbn [untoken fst all_chars] in *.
    intros H. apply andb_true_iff in H as [-> H]. by apply IH.
  - cbn [untoken]. unfold wrap_var. rewrite !all_chars_app. simpl.
    rewrite !andb_false_r. by rewrite andb_false_l.
Qed.
Lemma no_rbrace_none s : all_chars (fun c => negb (Ascii.eqb c rbrace)) s = true -> split_rbrace s = None.
Proof.
  induction s as [|c s IH]; simpl; [done|].
  destruct (Ascii.eqb_spec c rbrace); simpl; [done|]. intros H. by rewrite IH.
Qed.

(** Re-scanning for ${digits} finds exactly the inserted indices. *)
Lemma rescan ts : forall deps fuel, clean ts ->
  String.length (untoken (enc_list ts deps).1) <= fuel ->
  tokenise match_index fuel (untoken (enc_list ts deps).1) = (enc_list ts deps).1.
Proof.
  induction ts as [|[c|n] ts IH]; intros deps fuel Hcl Hf.
  - destruct fuel; done.
  - cbn [enc_list] in *. specialize (IH deps).
    assert (Hno : c = dollar -> forall r, untoken (enc_list ts deps).1 = String lbrace r -> match_index r = None).
    { intros -> r Hr. destruct Hcl as [Hc Hcl]. apply match_index_none_of_rbrace.
      (* the original rest also starts with '{' *)
      destruct ts as [|[c'|n'] ts']; cbn [enc_list] in Hr.
      - done.
      - destruct (enc_list ts' deps) as [l d] eqn:El. cbn in Hr. injection Hr as -> Hr.
        specialize (Hc eq_refl _ eq_refl). apply split_rbrace_none in Hc.
        pose proof (enc_no_rbrace ts' deps Hc) as Hx. rewrite El in Hx. cbn in Hx.
        rewrite <- Hr. by apply no_rbrace_none.
      - destruct (match position n' deps with Some i => _ | None => _ end) as [i deps'].
        destruct (enc_list ts' deps'). cbn in Hr. discriminate Hr. }
    destruct Hcl as [_ Hcl].
    destruct (enc_list ts deps) as [l d]. cbn [fst untoken] in *.
    destruct fuel as [|f]; [simpl in Hf; lia|]. cbn [String.length] in Hf.
    cbn [tokenise].
    destruct (Ascii.eqb_spec c dollar) as [->|Hne].
    2:{ f_equal. apply IH; [done|lia]. }
    destruct (untoken l) as [|c2 r] eqn:Eu.
    { destruct l as [|[]]; done. }
    rewrite <- Eu in *.
    destruct (Ascii.eqb_spec c2 lbrace) as [->|Hne2].
    + rewrite (Hno eq_refl r Eu). f_equal. rewrite <- (IH f) at 2 by (done || lia). done.
    + f_equal. rewrite <- (IH f) at 2 by (done || lia). done.
  - cbn [enc_list] in *. destruct Hcl as [Hn Hcl].
    destruct (match position n deps with Some i => _ | None => _ end) as [i deps'].
    specialize (IH deps'). destruct (enc_list ts deps') as [l d]. cbn [fst untoken] in *.
    unfold wrap_var in *. rewrite !append_assoc in *. rewrite !length_append in Hf. cbn [String.length append] in *.
    destruct fuel as [|f]; [lia|]. cbn [tokenise].
    rewrite (match_index_app _ _ (dec_of_nat_digits i) (dec_of_nat_nonempty i)).
    simpl. f_equal. apply IH; [done|]. lia.
Qed.

(** Facts about the dependency list. *)
Lemma position_lookup x l i : position x l = Some i -> l !! i = Some x.
Proof.
  revert i; induction l as [|y l IH]; simpl; intros i; [done|].
  destruct (String.eqb_spec x y) as [->|Hne]; [intros [= <-]; done|].
  destruct (position x l) as [j|]; [|done]. intros [= <-]. simpl. by apply IH.
Qed.
Lemma position_none x l : position x l = None -> x ∉ l.
Proof.
  induction l as [|y l IH]; simpl; [intros _; apply not_elem_of_nil|].
  destruct (String.eqb_spec x y) as [->|Hne]; [done|].
  destruct (position x l); [done|]. intros _. apply not_elem_of_cons. eauto.
Qed.
Lemma enc_list_prefix ts : forall deps, deps `prefix_of` (enc_list ts deps).2.
Proof.
  induction ts as [|[c|n] ts IH]; intros deps; cbn [enc_list]; [done| |].
  - specialize (IH deps). by destruct (enc_list ts deps).
  - destruct (position n deps).
    + specialize (IH deps). by destruct (enc_list ts deps).
    + specialize (IH (deps ++ [n])). destruct (enc_list ts (deps ++ [n])). simpl in *.
      etrans; [|done]. by apply prefix_app_r.
Qed.
Lemma enc_list_nodup ts : forall deps, NoDup deps -> NoDup (enc_list ts deps).2.
Proof.
  induction ts as [|[c|n] ts IH]; intros deps Hd; cbn [enc_list]; [done| |].
  - specialize (IH deps Hd). by destruct (enc_list ts deps).
  - destruct (position n deps) eqn:E.
    + specialize (IH deps Hd). by destruct (enc_list ts deps).
    + assert (NoDup (deps ++ [n])) as Hd'.
      { apply NoDup_app. split; [done|]. split; [|apply NoDup_singleton].
        intros x Hx Hn. apply elem_of_list_singleton in Hn as ->. by apply position_none in E. }
      specialize (IH _ Hd'). by destruct (enc_list ts (deps ++ [n])).
Qed.
Lemma enc_list_elem ts : forall deps x,
  x ∈ (enc_list ts deps).2 <-> x ∈ deps \/ TVar x ∈ ts.
Proof.
  induction ts as [|[c|n] ts IH]; intros deps x; cbn [enc_list].
  - simpl. split; [by left|]. intros [?|H]; [done|]. by apply elem_of_nil in H.
  - specialize (IH deps x). destruct (enc_list ts deps). simpl in *. rewrite IH.
    rewrite elem_of_cons. naive_solver.
  - destruct (position n deps) eqn:E.
    + specialize (IH deps x). destruct (enc_list ts deps). simpl in *. rewrite IH.
      rewrite elem_of_cons. apply position_lookup, elem_of_list_lookup_2 in E. naive_solver.
    + specialize (IH (deps ++ [n]) x). destruct (enc_list ts (deps ++ [n])). simpl in *. rewrite IH.
      rewrite elem_of_cons, elem_of_app, elem_of_list_singleton. naive_solver.
Qed.

(** Substitution on the encoded tokens. *)
Fixpoint subst_names (f : string -> option string) (ts : list token) : option string :=
  match ts with
  | [] => Some ""
  | TLit c :: ts' => option_map (String c) (subst_names f ts')
  | TVar n :: ts' => match f n, subst_names f ts' with
                     | Some v, Some s => Some (v +:+ s)%string
                     | _, _ => None
                     end
  end.
Lemma subst_enc (g : string -> option string) ts : forall deps all,
  (enc_list ts deps).2 `prefix_of` all ->
  subst_indices (fun i => match all !! i with Some d => g d | None => None end) (enc_list ts deps).1
  = subst_names g ts.
Proof.
  induction ts as [|[c|n] ts IH]; intros deps all Hp; cbn [enc_list] in *; [done| |].
  - specialize (IH deps all). destruct (enc_list ts deps). simpl in *. by rewrite IH.
  - assert (Hstep : forall i deps', deps' !! i = Some n -> (enc_list ts deps').2 `prefix_of` all ->
      subst_indices (fun i => match all !! i with Some d => g d | None => None end)
        (TVar (dec_of_nat i) :: (enc_list ts deps').1) = subst_names g (TVar n :: ts)).
    { intros i deps' Hi Hpre. cbn [subst_indices subst_names]. rewrite nat_of_dec_of_nat.
      rewrite (IH deps' all Hpre).
      assert (Hall : all !! i = Some n).
      { eapply prefix_lookup; [|exact Hpre]. eapply prefix_lookup; [exact Hi|]. apply enc_list_prefix. }
      by rewrite Hall. }
    destruct (position n deps) eqn:E.
    + pose proof (Hstep n0 deps (position_lookup _ _ _ E)) as Hs.
      destruct (enc_list ts deps) as [l d]. simpl in *. by apply Hs.
    + pose proof (Hstep (length deps) (deps ++ [n])) as Hs.
      rewrite lookup_app_r, Nat.sub_diag in Hs by lia. specialize (Hs eq_refl).
      destruct (enc_list ts (deps ++ [n])) as [l d]. simpl in *. by apply Hs.
Qed.

Lemma encode_condition_eq c :
  encode_condition c = (untoken (enc_list (tokens_names c) []).1, (enc_list (tokens_names c) []).2).
Proof. apply encode_enc_list. Qed.

Lemma tokens_indices_encode c :
  tokens_indices (encode_condition c).1 = (enc_list (tokens_names c) []).1.
Proof.
  rewrite encode_condition_eq. unfold tokens_indices. apply rescan; [|done].
  by apply tokens_names_clean.
Qed.

Lemma subst_names_wrap ts : subst_names (fun n => Some (wrap_var n)) ts = Some (untoken ts).
Proof. induction ts as [|[c|n] ts IH]; simpl; [done| |]; by rewrite IH. Qed.

(** Main round trip. *)
Lemma decode_encode_condition c :
  decode_condition (encode_condition c).1 (encode_condition c).2 = Some c.
Proof.
  unfold decode_condition. rewrite tokens_indices_encode.
  assert (Hx : forall (f h : nat -> option string), (forall i, f i = h i) -> forall ts, subst_indices f ts = subst_indices h ts).
  { intros f h Hfh. induction ts as [|[]]; simpl; [done| |].
    - by rewrite IHts.
    - destruct (nat_of_dec name); [|done]. by rewrite Hfh, IHts. }
  rewrite (Hx _ (fun i => match (encode_condition c).2 !! i with Some d => Some (wrap_var d) | None => None end)).
  2:{ intros i. by destruct (_ !! i). }
  rewrite encode_condition_eq. cbn [snd].
  rewrite (subst_enc (fun n => Some (wrap_var n))) by done.
  rewrite subst_names_wrap. by rewrite tokens_names_untoken.
Qed.

Lemma encode_deps_nodup c : NoDup (encode_condition c).2.
Proof. rewrite encode_condition_eq. simpl. apply enc_list_nodup, NoDup_nil_2. Qed.
Lemma encode_deps_elem c x : x ∈ (encode_condition c).2 <-> TVar x ∈ tokens_names c.
Proof.
  rewrite encode_condition_eq. simpl. rewrite enc_list_elem. rewrite elem_of_nil. naive_solver.
Qed.
Lemma encode_script c vals :
  script_of (encode_condition c).1 (encode_condition c).2 vals = subst_names (fun n => vals !! n) (tokens_names c).
Proof.
  unfold script_of. rewrite tokens_indices_encode, encode_condition_eq. cbn [snd].
  by rewrite (subst_enc (fun n => vals !! n)).
Qed.
Lemma subst_names_total f ts : (forall n, TVar n ∈ ts -> is_Some (f n)) -> is_Some (subst_names f ts).
Proof.
  induction ts as [|[c|n] ts IH]; intros H; simpl; [by eexists| |].
  - destruct IH as [s Hs]; [intros m Hm; apply H; by apply elem_of_list_further|]. rewrite Hs. by eexists.
  - destruct (H n) as [v Hv]; [apply elem_of_list_here|]. rewrite Hv.
    destruct IH as [s Hs]; [intros m Hm; apply H; by apply elem_of_list_further|]. rewrite Hs. by eexists.
Qed.
