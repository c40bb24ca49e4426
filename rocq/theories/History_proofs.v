(** The stored history (C22). *)
From Verif Require Import Base Condition_proofs Spec_Bundle Spec_Build Spec_Facade Props_Storage Props_Relations Codec_proofs Props_Codec BundleCodec_proofs Props_BundleCodec
  Props_Bundle Props_Build Props_Dag Tamper_proofs Inj_digest Facade_proofs Props_Facade.

Section History.
Variables from1 to1 : string -> option string.
Variable listing : string -> list oobject -> list oobject.
Variables said_ok digits lang_ok : string -> bool.
Variable standard_read : string -> option string.
Variable to_text : json -> string.
Variable of_text : string -> option json.
Variable hash : string -> string.
Hypothesis Ht : text_ok to_text of_text.
Hypothesis Hd : digits_class digits.
Hypothesis Hempty : said_ok "" = false.
Notation fetch := (get_bundle said_ok digits lang_ok standard_read of_text).
Notation loop := (steps_loop said_ok digits lang_ok standard_read of_text).
Notation op := (get_op said_ok of_text).
Notation said s := (b_said (bs_result s)).

Lemma op_entry d k : op d k = match entry d NsOCA (op_key k) with Some r => op_decode said_ok of_text r | None => Err [("No history found for said: " +:+ k)%string] end.
Proof. unfold get_op. rewrite get_entry. by destruct (entry d NsOCA (op_key k)). Qed.
Lemma loop_mono n : forall m f k x, loop n f k = Some x -> (n <= m)%nat -> loop m f k = Some x.
Proof.
  induction n as [|n IH]; intros [|m] f k x H Hm; cbn in H; try discriminate; [lia|]. cbn [steps_loop]. destruct (op (fa_db f) k) as [[p c]|e|]; [|done..].
  destruct (String.eqb p k); [done|]. destruct (negb (said_ok k)); [done|]. destruct (fetch (fa_cache f) k) as [B|e|]; [|done..].
  cbv zeta in *. destruct (String.eqb p ""); [done|]. destruct (loop n f p) as [y|] eqn:E; [|done].
  rewrite (IH m f p y E) by lia. done.
Qed.
(** The loop only looks at the SAIDs it lists. *)
Lemma loop_frame n f f' : consistent said_ok digits lang_ok standard_read of_text (fa_cache f) ->
  forall k L, loop n f k = Some (Ok L) ->
  (forall k', Some k' ∈ map (fun s => said s) L -> entry (fa_db f') NsOCA (op_key k') = entry (fa_db f) NsOCA (op_key k') /\ entry (fa_cache f') NsBundles k' = entry (fa_cache f) NsBundles k') ->
  loop n f' k = Some (Ok L).
Proof.
  intros Hc. induction n as [|n IH]; intros k L H He; cbn in H; [discriminate|]. cbn [steps_loop].
  destruct (op (fa_db f) k) as [[p c]|e|] eqn:Eo; try discriminate. destruct (String.eqb p k) eqn:Ep; [discriminate|].
  destruct (negb (said_ok k)) eqn:Es; [discriminate|]. destruct (fetch (fa_cache f) k) as [B|e|] eqn:Ef; try discriminate.
  pose proof (Hc k B Ef) as Hk. cbv zeta in *.
  assert (HL : exists L', L = BStep (if said_ok p then Some p else None) c B :: L' /\ (String.eqb p "" = true /\ L' = [] \/ String.eqb p "" = false /\ loop n f p = Some (Ok L'))).
  { destruct (String.eqb p ""); [injection H as <-; eexists; split; [done|by left]|]. destruct (loop n f p) as [[l|e|]|]; try discriminate. injection H as <-.
    eexists. split; [done|]. by right. }
  destruct HL as (L' & -> & HL). destruct (He k) as [E1 E2]; [cbn; rewrite Hk; left|].
  assert (Eo' : op (fa_db f') k = op (fa_db f) k) by (rewrite !op_entry; by rewrite E1).
  assert (Ef' : fetch (fa_cache f') k = fetch (fa_cache f) k) by (rewrite !fetch_entry; by rewrite E2).
  rewrite Eo', Eo, Ep, Ef', Ef. cbv zeta. destruct HL as [[-> ->]|[-> HL]]; [done|]. rewrite (IH p L' HL); [done|].
  intros k' Hk'. apply He. cbn. by right.
Qed.
Lemma loop_head n f k L : consistent said_ok digits lang_ok standard_read of_text (fa_cache f) -> loop n f k = Some (Ok L) ->
  said_ok k = true /\ exists s L', L = s :: L' /\ said s = Some k.
Proof.
  intros Hc H. destruct n as [|n]; cbn in H; [discriminate|]. destruct (op (fa_db f) k) as [[p c]|e|] eqn:Eo; try discriminate.
  destruct (String.eqb p k); [discriminate|]. destruct (said_ok k) eqn:Es; cbn [negb] in H; [|discriminate]. split; [done|].
  destruct (fetch (fa_cache f) k) as [B|e|] eqn:Ef; try discriminate. pose proof (Hc k B Ef) as Hk. cbv zeta in H.
  destruct (String.eqb p ""); [injection H as <-; by eexists _, _|]. destruct (loop n f p) as [[l|e|]|]; try discriminate. injection H as <-. by eexists _, _.
Qed.

(** One record read back. *)
Lemma loop_step n f k s p r L : op_encode to_text (bs_parent s) (bs_cmd s) = Ok r -> entry (fa_db f) NsOCA (op_key k) = Some r ->
  entry (fa_cache f) NsBundles k = Some (to_text (bundle_json (bs_result s))) -> step_storable said_ok digits lang_ok s -> said s = Some k ->
  p = unwrap_or "" (bs_parent s) -> p <> k -> (forall q, bs_parent s = Some q -> said_ok q = true) ->
  (bs_parent s = None /\ L = [] \/ is_Some (bs_parent s) /\ loop n f p = Some (Ok L)) ->
  exists s', loop (S n) f k = Some (Ok (s' :: L)) /\ same_step s s'.
Proof.
  intros Er E1 E2 [Hr Hg (Hc1 & Hc2 & Hc3) [Hx1 Hx2]] Hk -> Hne Hq HL.
  assert (Hlen : (String.length (unwrap_or "" (bs_parent s)) <= 255)%nat).
  { destruct (bs_parent s) as [q|]; cbn; [|lia]. unfold op_encode, len_prefixed in Er. destruct (Nat.leb_spec (String.length q) 255); [done|discriminate]. }
  destruct (C40_round_trip said_ok to_text of_text (bs_parent s) (bs_cmd s) Ht Hc1 Hc2 Hc3 Hx2 Hlen) as (r' & Er' & Dr).
  rewrite Er in Er'. injection Er' as <-. destruct (fetch_written said_ok digits lang_ok standard_read to_text of_text Ht Hd _ k _ Hr Hg Hx1 E2) as (Bk & F & J & S & _).
  assert (Hs : said_ok k = true) by (apply (re_said _ _ _ _ Hr); by left).
  assert (Es : same_step s (BStep (bs_parent s) (bs_cmd s) Bk)) by done.
  exists (BStep (bs_parent s) (bs_cmd s) Bk). split; [|done]. cbn [steps_loop]. rewrite op_entry, E1, Dr, F.
  rewrite (proj2 (String.eqb_neq _ _) Hne), Hs. cbn [negb]. cbv zeta. destruct HL as [[Hp ->]|[[q Hp] HL]].
  - rewrite Hp. cbn [unwrap_or]. by rewrite Hempty.
  - rewrite Hp in *. cbn [unwrap_or] in *. rewrite (Hq q) by done. assert (q <> "") as Hq0 by (intros ->; specialize (Hq "" eq_refl); congruence).
    rewrite (proj2 (String.eqb_neq _ _) Hq0), HL. done.
Qed.

Lemma chained_at base l : forall i s, chained base l -> l !! i = Some s -> bs_parent s = match i with 0 => base | S j => l !! j ≫= fun p => said p end.
Proof.
  revert base. induction l as [|x l IH]; intros base i s H Hi; [done|]. cbn in H. destruct H as [H1 H2]. destruct i as [|i]; cbn in Hi; [congruence|].
  rewrite (IH _ _ _ H2 Hi). by destruct i.
Qed.
Lemma nodup_step_of l i s k : NoDup (map (fun s => said s) l) -> l !! i = Some s -> said s = Some k -> step_of k l s.
Proof.
  intros Hn Hi Hk. exists (take i l), (drop (S i) l). assert (El : l = take i l ++ s :: drop (S i) l) by (by rewrite <- (drop_S _ _ _ Hi), take_drop).
  split; [done|]. split; [done|]. intros s' Hs' E. rewrite El, map_app in Hn. cbn in Hn. apply NoDup_app in Hn as (_ & _ & Hn). apply NoDup_cons in Hn as [Hn _].
  apply Hn. rewrite Hk. apply elem_of_list_In, in_map_iff. exists s'. split; [done|]. by apply elem_of_list_In.
Qed.

Context (B B' : bundle) (steps : list bstep) (f f' : facade) (base : option string) (H0 : list bstep) (n0 : nat).
Hypothesis HB : build from1 to1 listing to_text hash B steps f = Ok (f', B').
Hypothesis Hcons : consistent said_ok digits lang_ok standard_read of_text (fa_cache f).
Hypothesis Hch : chained base steps.
Hypothesis Hst : forall s, s ∈ steps -> step_storable said_ok digits lang_ok s.
Hypothesis Hbase : match base with None => H0 = [] | Some p => loop n0 f p = Some (Ok (rev H0)) end.
Hypothesis Hnd : NoDup (map (fun s => said s) (H0 ++ steps)).

Lemma base_kept p : base = Some p -> loop n0 f' p = Some (Ok (rev H0)).
Proof.
  intros E. rewrite E in Hbase. apply (loop_frame n0 f f' Hcons); [done|]. intros k' Hk'. destruct (build_effect _ _ _ _ _ _ _ _ _ _ HB) as (_ & _ & _ & _ & O).
  apply O. intros s Hs Es. rewrite map_app in Hnd. apply NoDup_app in Hnd as (_ & Hn & _). apply (Hn (Some k')).
  - rewrite map_rev in Hk'. apply elem_of_list_In in Hk'. apply in_rev in Hk'. by apply elem_of_list_In.
  - rewrite <- Es. apply elem_of_list_In, in_map_iff. exists s. split; [done|]. by apply elem_of_list_In.
Qed.
Lemma base_said p : base = Some p -> said_ok p = true /\ Some p ∈ map (fun s => said s) H0.
Proof.
  intros E. rewrite E in Hbase. destruct (loop_head _ _ _ _ Hcons Hbase) as [Hs (s & L & EL & Hp)]. split; [done|].
  apply elem_of_list_In. rewrite <- (rev_involutive H0), EL, map_rev. apply -> in_rev. cbn. left. done.
Qed.
Lemma history_at i : forall s k, steps !! i = Some s -> said s = Some k ->
  exists H, loop (n0 + S i) f' k = Some (Ok (rev (H0 ++ H))) /\ Forall2 same_step (take (S i) steps) H.
Proof.
  destruct (build_effect _ _ _ _ _ _ _ _ _ _ HB) as (_ & _ & _ & I & _).
  assert (Cb : base = None \/ exists p, base = Some p) by (destruct base; eauto).
  assert (Hnd' : NoDup (map (fun s => said s) steps)) by (rewrite map_app in Hnd; by apply NoDup_app in Hnd as (_ & _ & ?)).
  induction i as [|i IH]; intros s k Hi Hk.
  - pose proof (chained_at _ _ _ _ Hch Hi) as Hp. cbn in Hp. destruct (I k s (nodup_step_of _ _ _ _ Hnd' Hi Hk)) as (r & Er & E1 & E2).
    assert (Hs : step_storable said_ok digits lang_ok s) by (apply Hst; by eapply elem_of_list_lookup_2).
    assert (Hk1 : said_ok k = true) by (apply (re_said _ _ _ _ (ss_bundle _ _ _ _ Hs)); by left).
    assert (Et : take 1 steps = [s]) by (destruct steps; [done|]; cbn in Hi; by injection Hi as ->).
    destruct (loop_step n0 f' k s (unwrap_or "" base) r (rev H0)) as (s' & L & Ss); try done.
    + by rewrite Hp.
    + intros E. destruct Cb as [Eb|[p Eb]]; rewrite Eb in E; cbn in E; [congruence|]. subst p. destruct (base_said k Eb) as [_ Hin].
      rewrite map_app in Hnd. apply NoDup_app in Hnd as (_ & Hn & _). apply (Hn _ Hin). rewrite <- Hk. apply elem_of_list_In, (in_map (fun s => said s)), elem_of_list_In.
      by eapply elem_of_list_lookup_2.
    + intros q Hq. rewrite Hp in Hq. by apply base_said.
    + rewrite Hp. destruct Cb as [Eb|[p Eb]]; rewrite Eb; [left|right; split; [by eexists|]; by apply base_kept].
      split; [done|]. pose proof Hbase as Hb. rewrite Eb in Hb. by rewrite Hb.
    + exists [s']. rewrite rev_app_distr. cbn [rev app]. rewrite Nat.add_1_r. rewrite Et. split; [done|]. constructor; [done|constructor].
  - pose proof (chained_at _ _ _ _ Hch Hi) as Hp. cbn in Hp.
    destruct (lookup_lt_is_Some_2 steps i) as [s0 Hs0]; [apply lookup_lt_Some in Hi; lia|]. rewrite Hs0 in Hp. cbn in Hp.
    assert (Hst0 : step_storable said_ok digits lang_ok s0) by (apply Hst; by eapply elem_of_list_lookup_2).
    destruct (build_effect _ _ _ _ _ _ _ _ _ _ HB) as (_ & Hsm & _ & _ & _).
    destruct (Hsm s0) as [k0 Hk0]; [by eapply elem_of_list_lookup_2|]. rewrite Hk0 in Hp. destruct (IH s0 k0 Hs0 Hk0) as (H & L0 & HF).
    assert (Hk1 : said_ok k0 = true) by (apply (re_said _ _ _ _ (ss_bundle _ _ _ _ Hst0)); by left).
    destruct (I k s (nodup_step_of _ _ _ _ Hnd' Hi Hk)) as (r & Er & E1 & E2).
    destruct (loop_step (n0 + S i) f' k s k0 r (rev (H0 ++ H))) as (s' & L & Ss); try done.
    + apply Hst. by eapply elem_of_list_lookup_2.
    + by rewrite Hp.
    + intros ->. assert (X : i = S i); [|lia]. eapply (NoDup_lookup _ _ _ (said s) Hnd'); [change (map (fun s => said s) steps) with ((fun s => said s) <$> steps)..];
        rewrite list_lookup_fmap; [rewrite Hs0|rewrite Hi]; cbn; congruence.
    + intros q Hq. rewrite Hp in Hq. by injection Hq as <-.
    + right. split; [by eexists|done].
    + exists (H ++ [s']). rewrite app_assoc, rev_app_distr. cbn [rev app]. split; [by rewrite Nat.add_succ_r|].
      rewrite (take_S_r _ _ _ Hi). apply Forall2_app; [done|]. constructor; [done|constructor].
Qed.
End History.
