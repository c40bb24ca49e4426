(** Proofs about the versioned build. *)
From Verif Require Import Base Spec_Bundle Spec_Build Spec_VBuild Upd_proofs Effect_proofs Command_proofs Bundle_proofs Box_proofs Determinism_proofs Run_proofs Build_proofs
  Incremental_proofs Condition_proofs Tamper_proofs Facade_proofs Props_Bundle Stored_proofs.

Section V.
Variable digest : json -> string.
Variable from1 : string -> option string.
Variables said_ok digits lang_ok : string -> bool.
Variable standard_read : string -> option string.
Variable to_text : json -> string.
Variable of_text : string -> option json.
Variable os : nat -> nat -> order.
Notation step := (vstep digest from1 said_ok digits lang_ok standard_read to_text of_text os).
Notation loop := (vloop digest from1 said_ok digits lang_ok standard_read to_text of_text os).

Lemma gen_said o b B : generate_bundle digest o b = Some B -> b_said B = Some (digest (bundle_json_d (JStr dummy_said) B)).
Proof. intros H. by destruct (C03_generated_saids_verify _ _ _ _ H) as [? _]. Qed.

Lemma restart_ok st c : command_ok c -> st_ok st -> st_ok (restart (apply_command from1 st c)).
Proof.
  intros Hc Hs b. unfold restart. destruct (apply_command from1 st c) as [b'|e|] eqn:E; intros H; injection H as H; subst b.
  - by eapply apply_api in E.
  - exact (tk_api1 (fun _ => ∅) _ _ (new_tracked _)).
  - exact (tk_api1 (fun _ => ∅) _ _ (new_tracked _)).
Qed.
Lemma vbox_restart st c b : vbox from1 st c = Ok b <-> apply_command from1 st c <> Panic /\ restart (apply_command from1 st c) = Some b.
Proof. unfold vbox, restart. destruct (apply_command from1 st c) as [x|e|]; split; try done; try (intros [_ H]; congruence); try (intros H; injection H as H; subst; done). all: by intros []. Qed.

Definition parent_is (o : order) (st : option obox) (p : option string) : Prop :=
  match st with None => p = None | Some b => exists P, generate_bundle digest o b = Some P /\ p = b_said P end.
Lemma len_prefixed_counted s : len_prefixed s = if (String.length s <=? 255)%nat then Ok (counted s) else Panic.
Proof. done. Qed.
Lemma vrecord_ok p c r : vrecord to_text p c = Ok r <->
  (String.length (unwrap_or "" p) <= 255)%nat /\ (String.length (to_text (command_json c)) <= 255)%nat /\
  r = (counted (unwrap_or "" p) +:+ counted (to_text (command_json c)))%string.
Proof.
  unfold vrecord. assert (E : match p with Some s => len_prefixed s | None => Ok (String zero EmptyString) end =
    if (String.length (unwrap_or "" p) <=? 255)%nat then Ok (counted (unwrap_or "" p)) else Panic) by by destruct p. rewrite E, len_prefixed_counted.
  destruct (Nat.leb_spec (String.length (unwrap_or "" p)) 255); cbn [obind]; [|split; [done|lia]].
  destruct (Nat.leb_spec (String.length (to_text (command_json c))) 255); cbn [obind]; [|split; [done|lia]].
  split; [intros [= <-]; done|intros (_ & _ & ->); done].
Qed.
Lemma vwork_ok o0 o1 st c b s r B : vwork digest from1 to_text o0 o1 st c = Ok (b, s, r, B) <->
  vbox from1 st c = Ok b /\ generate_bundle digest o0 b = Some B /\ b_said B = Some s /\
  exists p, parent_is o1 st p /\ vrecord to_text p c = Ok r.
Proof.
  unfold vwork, vgenerate. destruct (vbox from1 st c) as [b0|e|] eqn:E; cbn [obind]; [|split; [done|by intros (H & _)]..].
  destruct (generate_bundle digest o0 b0) as [B0|] eqn:G; cbn [unwrap_some obind].
  2:{ split; [done|]. intros ([= ->] & H & _). congruence. }
  destruct st as [x|]; cbn [parent_is].
  - destruct (generate_bundle digest o1 x) as [P|] eqn:GP; cbn [unwrap_some obind].
    2:{ split; [done|]. by intros (_ & _ & _ & p & (P & H & _) & _). }
    rewrite (gen_said _ _ _ GP). cbn [unwrap_some obind]. destruct (vrecord _ _ _) as [r0|e|] eqn:R; cbn [obind].
    + rewrite (gen_said _ _ _ G). cbn [unwrap_some obind]. split.
      * intros H. injection H as <- <- <- <-. split; [done|]. split; [done|]. split; [by rewrite (gen_said _ _ _ G)|]. eexists. split; [by exists P; rewrite (gen_said _ _ _ GP)|done].
      * intros ([= <-] & G2 & E1 & p & (P' & [= <-] & ->) & R'). rewrite G in G2. injection G2 as <-. rewrite (gen_said _ _ _ GP) in R'. rewrite (gen_said _ _ _ G) in E1. injection E1 as <-. congruence.
    + split; [done|]. intros (_ & _ & _ & p & (P' & [= <-] & ->) & R'). rewrite (gen_said _ _ _ GP) in R'. congruence.
    + split; [done|]. intros (_ & _ & _ & p & (P' & [= <-] & ->) & R'). rewrite (gen_said _ _ _ GP) in R'. congruence.
  - cbn [obind]. destruct (vrecord _ _ _) as [r0|e|] eqn:R; cbn [obind].
    + rewrite (gen_said _ _ _ G). cbn [unwrap_some obind]. split.
      * intros H. injection H as <- <- <- <-. split; [done|]. split; [done|]. split; [by rewrite (gen_said _ _ _ G)|]. by exists None.
      * intros ([= <-] & G2 & E1 & p & -> & R'). rewrite G in G2. injection G2 as <-. rewrite (gen_said _ _ _ G) in E1. injection E1 as <-. congruence.
    + split; [done|]. intros (_ & _ & _ & p & -> & R'). congruence.
    + split; [done|]. intros (_ & _ & _ & p & -> & R'). congruence.
Qed.
Lemma vwork_no_err o0 o1 st c e : vwork digest from1 to_text o0 o1 st c <> Err e.
Proof.
  unfold vwork, vgenerate, vbox, vrecord, len_prefixed. destruct (apply_command from1 st c); cbn [obind]; try done;
  (destruct (generate_bundle digest o0 _) as [B0|]; cbn [unwrap_some obind]; [|done]);
  (destruct st as [x|]; [destruct (generate_bundle digest o1 x) as [P|]; cbn [unwrap_some obind]; [destruct (b_said P) as [s|]; cbn [unwrap_some obind]; [|done]|done]|]);
  cbn [obind]; repeat (destruct (_ <=? _)%nat; cbn [obind]; try done); by destruct (b_said B0).
Qed.

(** ** One command *)
Lemma vstep_ok i st c m d b : cmd_kind c <> CFrom -> step i st c (Some m) = (d, Ok b) <->
  vbox from1 st c = Ok b /\ exists B s p, generate_bundle digest (os i 0) b = Some B /\ b_said B = Some s /\ parent_is (os i 1) st p /\
    (String.length (unwrap_or "" p) <= 255)%nat /\ (String.length (to_text (command_json c)) <= 255)%nat /\
    d = Some (<[vbundle_key s := to_text (bundle_json B)]> (<[vop_key s := (counted (unwrap_or "" p) +:+ counted (to_text (command_json c)))%string]> m)).
Proof.
  intros Hk. unfold vstep. destruct (cmd_kind c) eqn:Ek; try done; clear Hk;
  (destruct (vwork digest from1 to_text (os i 0) (os i 1) st c) as [[[[b0 s0] r0] B0]|e|] eqn:W;
   [apply vwork_ok in W as (W1 & W2 & W3 & p & W4 & W5); apply vrecord_ok in W5 as (W5 & W6 & ->); cbn [v_insert]; split;
     [intros [= <- <-]; split; [done|]; exists B0, s0, p; done|
      intros (E & B & s & p' & G & Hs & Hp & L1 & L2 & ->); rewrite W1 in E; injection E as ->; rewrite W2 in G; injection G as ->; rewrite W3 in Hs; injection Hs as ->;
      assert (p = p') as -> by (unfold parent_is in *; destruct st; [destruct W4 as (P & G & ->), Hp as (P' & G' & ->); congruence|congruence]); done]
   |by destruct (vwork_no_err _ _ _ _ _ W)|
    split; [done|]; intros (E & B & s & p & G & Hs & Hp & L1 & L2 & _); exfalso;
    assert (X : vwork digest from1 to_text (os i 0) (os i 1) st c = Ok (b, s, (counted (unwrap_or "" p) +:+ counted (to_text (command_json c)))%string, B)); [|congruence];
    apply vwork_ok; split; [done|]; split; [done|]; split; [done|]; exists p; split; [done|]; by apply vrecord_ok]).
Qed.
Lemma vstep_not_err i st c m d e : cmd_kind c <> CFrom -> step i st c (Some m) = (d, Err e) -> False.
Proof.
  intros Hk. unfold vstep. destruct (cmd_kind c) eqn:Ek; try done; clear Hk;
  (destruct (vwork digest from1 to_text (os i 0) (os i 1) st c) as [[[[b0 s0] r0] B0]|e'|] eqn:W; [done|by destruct (vwork_no_err _ _ _ _ _ W)|done]).
Qed.
Lemma vstep_panic_db i st c m d : step i st c (Some m) = (d, Panic) -> d = Some m.
Proof.
  unfold vstep. destruct (cmd_kind c);
  (destruct (vwork digest from1 to_text (os i 0) (os i 1) st c) as [[[[b0 s0] r0] B0]|e|]; try done; by intros [= <-]) || by intros [= <-].
Qed.

(** ** The whole loop *)
Fixpoint vchain (i : nat) (st : option obox) (cs : list command) (ss : list bstep) : Prop :=
  match cs, ss with
  | [], [] => True
  | c :: cs', s :: ss' => bs_cmd s = c /\ parent_is (os i 1) st (bs_parent s) /\ (String.length (unwrap_or "" (bs_parent s)) <= 255)%nat /\
      (String.length (to_text (command_json c)) <= 255)%nat /\
      exists b, vbox from1 st c = Ok b /\ generate_bundle digest (os i 0) b = Some (bs_result s) /\ vchain (S i) (Some b) cs' ss'
  | _, _ => False
  end.
Lemma last_with_cons k s0 l s : last_with k (s0 :: l) s -> (s = s0 /\ b_said (bs_result s) = Some k /\ forall s', s' ∈ l -> b_said (bs_result s') <> Some k) \/ last_with k l s.
Proof. intros (pre & post & E & H1 & H2). destruct pre as [|x pre]; injection E as -> ->; [by left|right; by exists pre, post]. Qed.
Lemma last_with_or k l : (exists s, last_with k l s) \/ forall s, s ∈ l -> b_said (bs_result s) <> Some k.
Proof. exact (step_of_or k l). Qed.
Lemma append_inv_head (a b c : string) : (a +:+ b)%string = (a +:+ c)%string -> b = c.
Proof. induction a as [|x a IH]; [done|]. cbn. intros [= H]. by apply IH. Qed.
Lemma vkeys_apart : plain_saids digest -> forall j j', vbundle_key (digest j) <> vop_key (digest j').
Proof. intros [_ H] j j' E. unfold vbundle_key, vop_key in E. apply append_inv_head in E. by apply (H j j'). Qed.
Lemma recorded_cons m m1 m' s l k : (forall s', s' ∈ s :: l -> exists j, b_said (bs_result s') = Some (digest j)) -> plain_saids digest -> b_said (bs_result s) = Some k ->
  m1 = <[vbundle_key k := to_text (bundle_json (bs_result s))]> (<[vop_key k := (counted (unwrap_or "" (bs_parent s)) +:+ counted (to_text (command_json (bs_cmd s))))%string]> m) ->
  recorded to_text m1 m' l -> recorded to_text m m' (s :: l).
Proof.
  intros Hs Hp Hk -> [R1 R2 R3].
  assert (Hd : exists j, k = digest j) by (destruct (Hs s (elem_of_list_here _ _)) as [j Hj]; exists j; congruence).
  assert (Hap : forall a b s1 s2, s1 ∈ s :: l -> s2 ∈ s :: l -> b_said (bs_result s1) = Some a -> b_said (bs_result s2) = Some b -> vbundle_key a <> vop_key b).
  { intros a b s1 s2 H1 H2 E1 E2. destruct (Hs _ H1) as [j Hj], (Hs _ H2) as [j' Hj']. assert (a = digest j) as -> by congruence. assert (b = digest j') as -> by congruence. by apply vkeys_apart. }
  assert (Hself : vbundle_key k <> vop_key k) by (eapply Hap; [left|left|done|done]).
  split.
  - intros k' s' H. apply last_with_cons in H as [(-> & E & Hn)|H]; [|by apply R1]. rewrite Hk in E. injection E as <-. rewrite R3.
    + change ("oca." +:+ k +:+ ".operation")%string with (vop_key k). rewrite lookup_insert_ne by done. by rewrite lookup_insert.
    + intros s' k' Hin E. split.
      * intros X. apply append_inv_head in X. assert (k = k'); [|subst; by apply (Hn s')]. clear -X.
        revert k' X. induction k as [|x k IH]; intros [|y k'] X; try done.
        -- exfalso. apply (f_equal String.length) in X. cbn in X. rewrite length_append in X. cbn in X. lia.
        -- exfalso. apply (f_equal String.length) in X. cbn in X. rewrite length_append in X. cbn in X. lia.
        -- cbn in X. injection X as -> X. f_equal. by apply IH.
      * intros X. eapply (Hap k' k s' s); [by right|left|done|done|by symmetry].
  - intros k' s' H. apply last_with_cons in H as [(-> & E & Hn)|H]; [|by apply R2]. rewrite Hk in E. injection E as <-. rewrite R3.
    + change ("oca." +:+ k)%string with (vbundle_key k). by rewrite lookup_insert.
    + intros s' k' Hin E. split.
      * intros X. eapply (Hap k k' s s'); [left|by right|done|done|done].
      * intros X. apply append_inv_head in X. subst k'. by apply (Hn s').
  - intros key H. rewrite R3.
    + destruct (H s k (elem_of_list_here _ _) Hk) as [N1 N2]. rewrite !lookup_insert_ne; [done| |]; intros <-; done.
    + intros s' k' Hin E. apply (H s'); [by right|done].
Qed.
Lemma vloop_ok cs : plain_saids digest -> no_from cs -> forall i st m d B, loop i st cs (Some m) = (d, Ok B) ->
  exists ss m', d = Some m' /\ vchain i st cs ss /\ recorded to_text m m' ss /\ (forall s, s ∈ ss -> exists j, b_said (bs_result s) = Some (digest j)) /\
  Forall (fun r => is_panic r = false) (outcomes_restarting from1 st cs) /\
  exists b, state_restarting from1 st cs = Some b /\ generate_bundle digest (os (i + length cs) 0) b = Some B.
Proof.
  intros Hp. induction cs as [|c cs IH]; intros Hn i st m d B; cbn [vloop].
  - intros [= <- H]. destruct st as [b|]; [|done]. cbn in H. unfold vgenerate in H. rewrite Nat.add_0_r. exists [], m. split; [done|]. split; [done|]. split.
    { split; [intros k s (pre & post & E & _); by destruct pre..|done]. }
    split; [intros s Hs; by apply elem_of_nil in Hs|]. split; [constructor|]. exists b. split; [done|]. by apply unwrap_ok in H.
  - destruct (step i st c (Some m)) as [d1 [b|e|]] eqn:E; try done. intros H.
    apply vstep_ok in E as (Hb & B1 & s & p & G & Hs & Hpar & L1 & L2 & ->); [|apply Hn; left].
    destruct (IH (fun c' Hc' => Hn c' (elem_of_list_further _ _ _ Hc')) _ _ _ _ _ H) as (ss & m' & -> & Hch & Hr & Hss & Ho & b' & Eb' & Gb').
    exists (BStep p c B1 :: ss), m'. split; [done|]. split; [cbn; repeat (split; [done|]); by exists b|].
    assert (Hss' : forall s', s' ∈ BStep p c B1 :: ss -> exists j, b_said (bs_result s') = Some (digest j)).
    { intros s' Hin. apply elem_of_cons in Hin as [->|Hin]; [|by apply Hss]. cbn. eexists. by apply (gen_said _ _ _ G). }
    split; [by eapply recorded_cons|]. split; [done|]. apply vbox_restart in Hb as [Hb1 Hb2]. split.
    + cbn [outcomes_restarting]. rewrite Hb2. constructor; [|done]. by destruct (apply_command from1 st c).
    + exists b'. split; [|cbn [length]; by rewrite Nat.add_succ_r]. cbn. by rewrite Hb2.
Qed.
Lemma vloop_never_err cs : no_from cs -> forall i st m d e, loop i st cs (Some m) <> (d, Err e).
Proof.
  induction cs as [|c cs IH]; intros Hn i st m d e; cbn [vloop].
  - intros [= _ H]. destruct st as [b|]; [|done]. cbn in H. unfold vgenerate in H. by destruct (generate_bundle digest (os i 0) b).
  - destruct (step i st c (Some m)) as [d1 [b|e'|]] eqn:E; [| |done].
    + pose proof E as E'. apply vstep_ok in E' as (_ & B1 & s1 & p1 & _ & _ & _ & _ & _ & ->); [|apply Hn; left]. apply IH. intros c' Hc'. apply Hn. by right.
    + intros _. by eapply vstep_not_err in E; [|apply Hn; left].
Qed.
Lemma vloop_total cs : plain_saids digest -> (forall i n, order_ok (os i n)) -> no_from cs -> Forall command_ok cs ->
  (forall c, c ∈ cs -> (String.length (to_text (command_json c)) <= 255)%nat) ->
  forall i st m, st_ok st -> (is_Some st \/ cs <> []) -> Forall (fun r => is_panic r = false) (outcomes_restarting from1 st cs) ->
  exists d B, loop i st cs (Some m) = (d, Ok B).
Proof.
  intros Hp Ho. assert (Gt : forall i n b, api_box b -> exists B, generate_bundle digest (os i n) b = Some B).
  { intros i n b Hb. destruct (C02_proof (os i n) (Ho i n) digest b (api_box_ok b Hb)) as (B & H & _). by exists B. }
  induction cs as [|c cs IH]; intros Hn Hc Hl i st m Hs Hne Hpa; cbn [vloop].
  - destruct Hne as [[b ->]|]; [|done]. destruct (Gt i 0 b) as [B G]; [by apply Hs|]. exists (Some m), B. cbn. unfold vgenerate. by rewrite G.
  - apply Forall_cons in Hc as [Hc Hcs]. cbn [outcomes_restarting] in Hpa. apply Forall_cons in Hpa as [Hp1 Hp2].
    pose proof (restart_ok st c Hc Hs) as Hs'. destruct (restart (apply_command from1 st c)) as [b|] eqn:Eb; [|by destruct (apply_command from1 st c)].
    assert (Hb : vbox from1 st c = Ok b). { apply vbox_restart. split; [by intros X; rewrite X in Hp1|done]. }
    destruct (Gt i 0 b) as [B G]; [by apply Hs'|]. destruct Hp as [Hp0 Hp0'].
    assert (Hpar : exists p, parent_is (os i 1) st p /\ (String.length (unwrap_or "" p) <= 255)%nat).
    { destruct st as [x|]; [|exists None; split; [done|cbn; lia]]. destruct (Gt i 1 x) as [P GP]; [by apply Hs|]. exists (b_said P). split; [by exists P|].
      rewrite (gen_said _ _ _ GP). apply Hp0. }
    destruct Hpar as (p & Hpar & Lp). assert (X : exists m', step i st c (Some m) = (Some m', Ok b)).
    { eexists. apply (vstep_ok i st c m); [apply Hn; left|]. split; [done|]. exists B, (digest (bundle_json_d (JStr dummy_said) B)), p.
      split; [done|]. split; [by apply (gen_said _ _ _ G)|]. split; [done|]. split; [done|]. split; [apply Hl; left|reflexivity]. }
    destruct X as [m' ->].
    apply IH; try done.
    + intros c' Hc'. apply Hn. by right.
    + intros c' Hc'. apply Hl. by right.
    + left. by exists b.
Qed.
Lemma vchain_index cs : forall ss i st, vchain i st cs ss -> length ss = length cs /\
  forall j s, ss !! j = Some s -> cs !! j = Some (bs_cmd s) /\ parent_is (os (i + j) 1) (state_restarting from1 st (take j cs)) (bs_parent s) /\
    exists b, state_restarting from1 st (take (S j) cs) = Some b /\ generate_bundle digest (os (i + j) 0) b = Some (bs_result s).
Proof.
  induction cs as [|c cs IH]; intros [|s ss] i st H; try done. cbn [vchain] in H. destruct H as (E & Hp & _ & _ & b & Hb & G & H).
  apply IH in H as [L H]. split; [cbn; by rewrite L|]. apply vbox_restart in Hb as [_ Hb]. intros [|j] s' Hj.
  - cbn in Hj. injection Hj as <-. rewrite Nat.add_0_r. cbn [lookup list_lookup take]. rewrite E. split; [done|]. split; [done|]. exists b. cbn. by rewrite Hb.
  - cbn in Hj. destruct (H j s' Hj) as (H1 & H2 & H3). rewrite <- Nat.add_succ_comm. split; [done|]. cbn [take]. unfold state_restarting in *. cbn [fold_left]. by rewrite Hb.
Qed.
Lemma vchain_lengths cs : forall ss i st, vchain i st cs ss -> forall c, c ∈ cs -> (String.length (to_text (command_json c)) <= 255)%nat.
Proof.
  induction cs as [|c cs IH]; intros [|s ss] i st H c' Hc'; try done; [by apply elem_of_nil in Hc'|]. cbn [vchain] in H. destruct H as (E & Hp & _ & L & b & Hb & G & H).
  apply elem_of_cons in Hc' as [->|Hc']; [done|]. by eapply IH.
Qed.
Lemma vloop_app pre post : forall i st d, loop i st (pre ++ post) d =
  match pre with [] => loop i st post d | _ =>
  (fix go i st pre d := match pre with [] => loop i st post d | c :: r => match step i st c d with (d', Ok b) => go (S i) (Some b) r d' | (d', Err e) => (d', Err e) | (d', Panic) => (d', Panic) end end) i st pre d end.
Proof.
  induction pre as [|c pre IH]; intros i st d; [done|]. cbn [app vloop]. destruct (step i st c d) as [d' [b|e|]]; try done. rewrite IH. by destruct pre.
Qed.
(** A failure at a later command keeps what the commands before it wrote. *)
Lemma vloop_prefix pre c post : forall i st d d' b B, loop i st pre d = (d', Ok B) -> no_from pre -> (exists m, d = Some m) ->
  state_restarting from1 st pre = Some b ->
  loop i st (pre ++ c :: post) d = match step (i + length pre) (Some b) c d' with (d2, Ok b2) => loop (S (i + length pre)) (Some b2) post d2 | (d2, Err e) => (d2, Err e) | (d2, Panic) => (d2, Panic) end.
Proof.
  induction pre as [|x pre IH]; intros i st d d' b B H Hn [m ->] Hst; cbn [app vloop length] in *.
  - cbn in Hst. subst st. injection H as <- _. by rewrite Nat.add_0_r.
  - destruct (step i st x (Some m)) as [d1 [b1|e|]] eqn:E; try done.
    pose proof E as E'. apply vstep_ok in E' as (Hb & B1 & s1 & p1 & _ & _ & _ & _ & _ & ->); [|apply Hn; left].
    rewrite (IH (S i) (Some b1) _ d' b B); [by rewrite <- Nat.add_succ_comm|done|intros y Hy; apply Hn; by right|by eexists|].
    apply vbox_restart in Hb as [_ Hb]. cbn in Hst. by rewrite Hb in Hst.
Qed.
End V.
