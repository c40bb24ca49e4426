(** C30, C31: version graph. *)
From Verif Require Import Spec_Dag Spec_Build Props_Storage Props_Relations Condition_proofs Codec_proofs Inj_digest Props_Bundle Props_Build.
From Coq Require Import Lia.

Lemma latest_ext P steps steps' i x : (forall j, (j < i)%nat -> steps !! j = steps' !! j) -> latest P steps i x -> latest P steps' i x.
Proof.
  intros H. destruct x as [v|]; cbn.
  - intros (j & s & Hj & Hs & HP & Hn). exists j, s. split; [done|]. split; [by rewrite <- H|]. split; [done|].
    intros j' s' Hj' Hs'. apply (Hn j' s' Hj'). rewrite H by lia. done.
  - intros Hn j s Hj Hs. apply (Hn j s Hj). by rewrite H.
Qed.
Lemma latest_app P pre post x : latest P pre (length pre) x -> latest P (pre ++ post) (length pre) x.
Proof. apply latest_ext. intros j Hj. by rewrite lookup_app_l. Qed.
Lemma snoc_lookup {A} (pre : list A) s : (pre ++ [s]) !! length pre = Some s.
Proof. rewrite lookup_app_r by lia. by rewrite Nat.sub_diag. Qed.
Lemma latest_hit (P : bstep -> string -> Prop) pre s v : P s v -> latest P (pre ++ [s]) (length (pre ++ [s])) (Some v).
Proof.
  intros H. rewrite app_length. cbn. exists (length pre), s. split; [lia|]. split; [apply snoc_lookup|]. split; [done|]. intros j' s' Hj'. lia.
Qed.
Lemma latest_miss (P : bstep -> string -> Prop) pre s x : (forall v, ~ P s v) -> latest P pre (length pre) x -> latest P (pre ++ [s]) (length (pre ++ [s])) x.
Proof.
  intros H Hl. rewrite app_length. cbn. assert (J : forall j' s', (j' < length pre + 1)%nat -> (pre ++ [s]) !! j' = Some s' -> (j' < length pre)%nat \/ s' = s).
  { intros j' s' Hj' Hs'. destruct (decide (j' = length pre)) as [->|]; [right; rewrite snoc_lookup in Hs'; by injection Hs'|left; lia]. }
  destruct x as [v|]; cbn in Hl |- *.
  - destruct Hl as (j & s0 & Hj & Hs & HP & Hn). exists j, s0. split; [lia|]. split; [by rewrite lookup_app_l|]. split; [done|].
    intros j' s' Hj' Hs' v'. destruct (J j' s') as [Hlt| ->]; [lia|done| |apply H]. rewrite lookup_app_l in Hs' by done. by apply (Hn j' s'); [lia|].
  - intros j' s' Hj' Hs' v'. destruct (J j' s') as [Hlt| ->]; [lia|done| |apply H]. rewrite lookup_app_l in Hs' by done. by apply (Hl j' s').
Qed.

Lemma kname_no_dash k : no_char "-" (okind_name k) = true. Proof. by destruct k. Qed.
Lemma kname_inj k k' : okind_name k = okind_name k' -> k = k'. Proof. destruct k, k'; (reflexivity || (intros H; discriminate H)). Qed.
Lemma line_key_inj to1 k l k' l' key : (forall l l' c, to1 l = Some c -> to1 l' = Some c -> l = l') ->
  line_key to1 k l = Ok key -> line_key to1 k' l' = Ok key -> k = k' /\ l = l'.
Proof.
  intros Hi. unfold line_key.
  assert (D : forall a c b, no_char "-" b = true -> (a +:+ "-" +:+ c)%string <> b).
  { intros a c b Hb <-. clear -Hb. induction a as [|x a IH]; cbn in Hb; [done|]. apply andb_true_iff in Hb as [_ Hb]. auto. }
  destruct l as [l|], l' as [l'|].
  - destruct (to1 l) as [c|] eqn:E; cbn; [|discriminate]. destruct (to1 l') as [c'|] eqn:E'; cbn; [|discriminate]. intros H H'.
    injection H as <-. injection H' as H'.
    pose proof (split_once_app "-" (okind_name k) c (kname_no_dash k)) as S1. pose proof (split_once_app "-" (okind_name k') c' (kname_no_dash k')) as S2.
    cbn in H'. rewrite H', S1 in S2. injection S2 as Hk <-. apply kname_inj in Hk. split; [done|]. by rewrite (Hi l l' c).
  - destruct (to1 l) as [c|]; cbn; [|discriminate]. intros H H'. injection H as <-. injection H' as H'. exfalso. eapply D; [|symmetry; exact H']. apply kname_no_dash.
  - destruct (to1 l') as [c|]; cbn; [|discriminate]. intros H H'. injection H as <-. injection H' as H'. exfalso. eapply D; [|exact H']. apply kname_no_dash.
  - intros H H'. injection H as <-. injection H' as H'. by apply kname_inj in H'.
Qed.

Section Chain.
Variables from1 to1 : string -> option string.
Variable to_text : json -> string.
Variable hash : string -> string.
Hypothesis Hcodes : codes_ok from1 to1.
Definition cb_step (s : bstep) (x : string) : Prop := capture_step s /\ cb_said (b_cb (bs_result s)) = Some x.
Record st_ok (pre : list bstep) (st : dstate) : Prop := {
  so_b : ds_bundle st = s ← last pre; b_said (bs_result s);
  so_c : latest cb_step pre (length pre) (ds_cb st);
  so_o : forall k l key, line_key to1 k l = Ok key -> latest (fun s => overlay_step from1 s k l) pre (length pre) (ds_ovs st !! key) }.
Lemma find_split {A} (f : A -> bool) l x : List.find f l = Some x -> exists pre post, l = pre ++ x :: post /\ f x = true /\ forall y, y ∈ pre -> f y = false.
Proof.
  induction l as [|a l IH]; cbn; [done|]. destruct (f a) eqn:E.
  - intros [= ->]. exists [], l. split; [done|]. split; [done|]. intros y Hy. by apply elem_of_nil in Hy.
  - intros H. destruct (IH H) as (pre & post & -> & Hx & Hn). exists (a :: pre), post. split; [done|]. split; [done|].
    intros y Hy. apply elem_of_cons in Hy as [->|Hy]; [done|]. by apply Hn.
Qed.
Lemma overlay_step_find s k l x : overlay_step from1 s k l x <-> exists t ct ov, cmd_obj (bs_cmd s) = OOverlay t ct /\
  find_overlay t (cmd_lang from1 (ct_props ct)) (b_ovs (bs_result s)) = Some ov /\ l = cmd_lang from1 (ct_props ct) /\ k = ot_kind t /\ ov_said ov = Some x.
Proof.
  split.
  - intros (t & ct & pre & ov & post & E & -> & -> & Eo & Ht & Hl & Hs & Hn). exists t, ct, ov. repeat split; try done.
    rewrite Eo. unfold find_overlay. clear -Ht Hl Hn. induction pre as [|a pre IH]; cbn.
    + rewrite !bool_decide_eq_true_2 by done. done.
    + destruct (bool_decide (ov_type a = t)) eqn:E1; cbn.
      * destruct (bool_decide (ov_lang a = _)) eqn:E2.
        -- exfalso. apply bool_decide_eq_true in E1, E2. apply (Hn a); [left|done].
        -- apply IH. intros ov' H. apply Hn. by right.
      * apply IH. intros ov' H. apply Hn. by right.
  - intros (t & ct & ov & E & Hf & -> & -> & Hs). apply find_split in Hf as (pre & post & Eo & Hx & Hn).
    apply andb_true_iff in Hx as [Hx1 Hx2]. apply bool_decide_eq_true in Hx1, Hx2.
    exists t, ct, pre, ov, post. repeat split; try done. intros ov' Hin [H1 H2]. specialize (Hn ov' Hin). cbv beta in Hn.
    rewrite !bool_decide_eq_true_2 in Hn by done. done.
Qed.
Definition node_ok (steps : list bstep) (i : nat) (s : bstep) (m : rmodel) : Prop :=
  let text := to_text (command_json (bs_cmd s)) in
  rm_cmd m = CmdModel (hash text) text /\
  b_said (bs_result s) = Some (bn_said (rm_bundle m)) /\
  bn_parent (rm_bundle m) = (p ← (match i with 0 => None | S j => steps !! j end); b_said (bs_result p)) /\
  cb_said (b_cb (bs_result s)) = Some (bn_cb (rm_bundle m)) /\
  map ov_said (b_ovs (bs_result s)) = map Some (bn_ovs (rm_bundle m)) /\
  (match rm_cb m with
   | Some n => capture_step s /\ cb_said (b_cb (bs_result s)) = Some (nd_said n) /\ nd_digest n = hash text /\ latest cb_step steps i (nd_parent n)
   | None => ~ capture_step s end) /\
  (match rm_ov m with
   | Some n => exists k l, overlay_step from1 s k l (nd_said n) /\ nd_digest n = hash text /\ latest (fun s => overlay_step from1 s k l) steps i (nd_parent n)
   | None => forall k l x, ~ overlay_step from1 s k l x end).
Lemma unwrap_all_some {A} (l : list (option A)) : Forall is_Some l -> exists l', unwrap_all l = Ok l' /\ l = map Some l'.
Proof.
  induction l as [|x l IH]; intros H; [by exists []|]. apply Forall_cons in H as [[a ->] H]. destruct (IH H) as (l' & E & ->).
  exists (a :: l'). cbn. by rewrite E.
Qed.
Lemma not_overlay s : (forall t ct, cmd_obj (bs_cmd s) <> OOverlay t ct) -> forall k l x, ~ overlay_step from1 s k l x.
Proof. intros H k l x (t & ct & pre & ov & post & E & _). by apply (H t ct). Qed.
Lemma step_ok pre st s post : saids_present (bs_result s) -> st_ok pre st ->
  exists st' m, dag_step from1 to1 to_text hash st s = Ok (st', m) /\ st_ok (pre ++ [s]) st' /\ node_ok (pre ++ s :: post) (length pre) s m.
Proof.
  intros ([bs Hb] & [cs Hc] & Ho) HS. unfold dag_step.
  destruct (unwrap_all_some (map ov_said (b_ovs (bs_result s)))) as (xs & Ex & Exs).
  { apply Forall_fmap. eapply Forall_impl; [exact Ho|]. done. }
  assert (Par : ds_bundle st = p ← (match length pre with 0 => None | S j => (pre ++ s :: post) !! j end); b_said (bs_result p)).
  { rewrite (so_b _ _ HS). destruct pre as [|p pre'] using rev_ind; [done|]. rewrite last_snoc, app_length. cbn [length].
    replace (length pre' + 1)%nat with (S (length pre')) by lia. rewrite <- app_assoc. cbn. rewrite lookup_app_r by lia. by rewrite Nat.sub_diag. }
  assert (SB : Some bs = s0 ← last (pre ++ [s]); b_said (bs_result s0)) by (rewrite last_snoc; cbn; congruence).
  destruct (cmd_obj (bs_cmd s)) as [cc|bc|t ct] eqn:Eo.
  - rewrite Hc, Hb. cbn [unwrap_some obind]. rewrite Ex. cbn [obind fst snd]. eexists _, _. split; [reflexivity|].
    assert (NO : forall k l x, ~ overlay_step from1 s k l x) by (apply not_overlay; rewrite Eo; done).
    assert (CS : capture_step s) by by exists cc. split.
    + split; cbn; [exact SB|apply latest_hit; done|]. intros k l key Hk. apply latest_miss; [intros v; apply NO|by apply HS].
    + unfold node_ok. cbn. repeat split; try done. apply latest_app, (so_c _ _ HS).
  - rewrite Hb, Hc. cbn [unwrap_some obind]. rewrite Ex. cbn [obind fst snd]. eexists _, _. split; [reflexivity|].
    assert (NO : forall k l x, ~ overlay_step from1 s k l x) by (apply not_overlay; rewrite Eo; done).
    assert (CS : ~ capture_step s) by (intros [cc E]; congruence). split.
    + split; cbn; [exact SB|apply latest_miss; [by intros v [? _]|by apply HS]|].
      intros k l key Hk. apply latest_miss; [intros v; apply NO|by apply HS].
    + unfold node_ok. cbn. repeat split; try done.
  - assert (CS : ~ capture_step s) by (intros [cc E]; congruence).
    destruct (find_overlay t (cmd_lang from1 (ct_props ct)) (b_ovs (bs_result s))) as [ov|] eqn:Ef.
    + pose proof Ef as Ef'. apply find_split in Ef' as (p1 & p2 & Eov & Hx & _). apply andb_true_iff in Hx as [Hx1 Hx2]. apply bool_decide_eq_true in Hx1, Hx2.
      assert (Hin : ov ∈ b_ovs (bs_result s)) by (rewrite Eov; apply elem_of_app; right; left).
      destruct (proj1 (Forall_forall _ _) Ho ov Hin) as [x Hs].
      assert (Hk : body_kind (ov_body ov) = ot_kind t) by by rewrite <- Hx1.
      assert (OS : overlay_step from1 s (ot_kind t) (cmd_lang from1 (ct_props ct)) x) by (apply overlay_step_find; by exists t, ct, ov).
      assert (exists key, line_key to1 (ot_kind t) (cmd_lang from1 (ct_props ct)) = Ok key) as [key Hkey].
      { unfold line_key. destruct (cmd_lang from1 (ct_props ct)) as [l|] eqn:El; [|by eexists].
        assert (exists c, from1 c = Some l) as [c Hcl].
        { unfold cmd_lang in El. destruct (ct_props ct) as [p|]; [|done]. destruct (imap_get "lang" p) as [[| | |]|]; try done. by eexists. }
        destruct (proj1 Hcodes _ _ Hcl) as [c' ->]. by eexists. }
      rewrite Hk, Hx2, Hkey. cbn [obind]. rewrite Hs, Hb, Hc. cbn [unwrap_some obind]. rewrite Ex. cbn [obind fst snd]. eexists _, _. split; [reflexivity|]. split.
      * split; cbn; [exact SB|apply latest_miss; [by intros v [? _]|by apply HS]|].
        intros k l key' Hkey'. destruct (decide (key' = key)) as [->|Hne].
        -- destruct (line_key_inj to1 _ _ _ _ _ (proj2 Hcodes) Hkey Hkey') as [<- <-]. rewrite lookup_insert. by apply latest_hit.
        -- rewrite lookup_insert_ne by done. apply latest_miss; [|by apply HS]. intros v (t' & ct' & ov' & E & _ & -> & -> & _)%overlay_step_find.
           rewrite Eo in E. injection E as <- <-. rewrite Hkey in Hkey'. by injection Hkey'.
      * unfold node_ok. cbn. repeat split; try done. exists (ot_kind t), (cmd_lang from1 (ct_props ct)). split; [done|]. split; [done|].
        apply latest_app. by apply (so_o _ _ HS).
    + rewrite Hb, Hc. cbn [unwrap_some obind]. rewrite Ex. cbn [obind fst snd]. eexists _, _. split; [reflexivity|].
      assert (NO : forall k l x, ~ overlay_step from1 s k l x).
      { intros k l x (t' & ct' & ov' & E & Hf & _)%overlay_step_find. rewrite Eo in E. injection E as <- <-. congruence. } split.
      * split; cbn; [exact SB|apply latest_miss; [by intros v [? _]|by apply HS]|].
        intros k l key Hk. apply latest_miss; [intros v; apply NO|by apply HS].
      * unfold node_ok. cbn. repeat split; try done.
Qed.
Lemma steps_ok l : forall pre st, Forall (fun s => saids_present (bs_result s)) l -> st_ok pre st ->
  exists ms, dag_steps from1 to1 to_text hash st l = Ok ms /\ length ms = length l /\
  forall i s m, l !! i = Some s -> ms !! i = Some m -> node_ok (pre ++ l) (length pre + i) s m.
Proof.
  induction l as [|s l IH]; intros pre st Hp HS; [by exists []|]. apply Forall_cons in Hp as [Hs Hp].
  destruct (step_ok pre st s l Hs HS) as (st' & m & E & HS' & Hm). cbn [dag_steps]. rewrite E. cbn [obind fst snd].
  destruct (IH (pre ++ [s]) st' Hp HS') as (ms & Ems & Hlen & Hall). rewrite Ems. cbn [obind]. eexists. split; [reflexivity|]. split; [cbn; lia|].
  intros [|i] s' m' Hs' Hm'; cbn in Hs', Hm'.
  - injection Hs' as <-. injection Hm' as <-. by rewrite Nat.add_0_r.
  - specialize (Hall i s' m' Hs' Hm'). rewrite <- app_assoc, app_length in Hall. cbn in Hall. by replace (length pre + S i)%nat with (length pre + 1 + i)%nat by lia.
Qed.
End Chain.

(** ** C30: one node set per step.  The bundle node records the step's bundle, capture base and overlays and has the
    previous step's bundle as parent; a capture base command gives a capture base node whose parent is the capture base
    after the latest earlier capture base command; an overlay command gives a node of the matching overlay whose parent
    is the latest earlier node of the same kind and language. *)
Theorem C30_version_dag : forall from1 to1 to_text hash steps, codes_ok from1 to1 -> Forall (fun s => saids_present (bs_result s)) steps ->
  exists ms, build_core_db_model from1 to1 to_text hash steps = Ok ms /\ length ms = length steps /\
  forall i s m, steps !! i = Some s -> ms !! i = Some m ->
  let text := to_text (command_json (bs_cmd s)) in
  rm_cmd m = CmdModel (hash text) text /\
  b_said (bs_result s) = Some (bn_said (rm_bundle m)) /\
  bn_parent (rm_bundle m) = (p ← (match i with 0 => None | S j => steps !! j end); b_said (bs_result p)) /\
  cb_said (b_cb (bs_result s)) = Some (bn_cb (rm_bundle m)) /\
  map ov_said (b_ovs (bs_result s)) = map Some (bn_ovs (rm_bundle m)) /\
  (match rm_cb m with
   | Some n => capture_step s /\ cb_said (b_cb (bs_result s)) = Some (nd_said n) /\ nd_digest n = hash text /\
               latest (fun s x => capture_step s /\ cb_said (b_cb (bs_result s)) = Some x) steps i (nd_parent n)
   | None => ~ capture_step s end) /\
  (match rm_ov m with
   | Some n => exists k l, overlay_step from1 s k l (nd_said n) /\ nd_digest n = hash text /\ latest (fun s => overlay_step from1 s k l) steps i (nd_parent n)
   | None => forall k l x, ~ overlay_step from1 s k l x end).
Proof.
  intros from1 to1 to_text hash steps Hc Hp.
  destruct (steps_ok from1 to1 to_text hash Hc steps [] dstate_new Hp) as (ms & E & Hl & H).
  { split; cbn; [done| |]; intros; try lia. rewrite lookup_empty. cbn. intros; lia. }
  exists ms. split; [exact E|]. split; [exact Hl|]. exact H.
Qed.
Print Assumptions C30_version_dag.
(** The steps of every successful build qualify. *)
Lemma generated_present digest o b B : generate_bundle digest o b = Some B -> saids_present B.
Proof.
  intros G. destruct (C03_generated_saids_verify _ _ _ _ G) as (S1 & S2 & S3). split; [by rewrite S1|]. split; [by rewrite S2|].
  apply Forall_forall. intros ov Hov. destruct (S3 ov Hov) as [-> _]. by eexists.
Qed.
Theorem C30_builds : forall digest from1 os from a st B steps, base_of (os (S (length (ast_commands a)))) from st ->
  from_ast digest from1 os from a = BuildOk B steps -> Forall (fun s => saids_present (bs_result s)) steps /\ saids_present B.
Proof.
  intros digest from1 os from a st B steps Hb H. destruct (C13_step_chain _ _ _ _ _ _ _ _ Hb H) as (_ & Hs & b & _ & G).
  split; [|by eapply generated_present]. apply Forall_forall. intros s Hin. apply elem_of_list_lookup in Hin as [i Hi].
  destruct (Hs i s Hi) as (_ & _ & b' & _ & G'). by eapply generated_present.
Qed.
Print Assumptions C30_builds.
(** A build on a base: the first step's parent is the base, but the graph's first bundle node has no parent. *)
Theorem C30_base_is_not_parent_refuted : forall digest from1 to1 to_text hash os B0 a st B steps s ms m, codes_ok from1 to1 ->
  base_of (os (S (length (ast_commands a)))) (Some B0) st -> from_ast digest from1 os (Some B0) a = BuildOk B steps ->
  build_core_db_model from1 to1 to_text hash steps = Ok ms -> steps !! 0 = Some s -> ms !! 0 = Some m ->
  bs_parent s = b_said B0 /\ bn_parent (rm_bundle m) = None.
Proof.
  intros digest from1 to1 to_text hash os B0 a st B steps s ms m Hc Hb H Hm Hs Hms.
  destruct (C13_step_chain _ _ _ _ _ _ _ _ Hb H) as (_ & HC & _). destruct (HC 0 s Hs) as (_ & Hp & _). split; [exact Hp|].
  destruct (C30_version_dag from1 to1 to_text hash steps Hc (proj1 (C30_builds _ _ _ _ _ _ _ _ Hb H))) as (ms' & E & _ & HD).
  rewrite Hm in E. injection E as <-. destruct (HD 0 s m Hs Hms) as (_ & _ & HP & _). exact HP.
Qed.
Print Assumptions C30_base_is_not_parent_refuted.

Definition ex_to1 (l : string) : option string :=
  if String.eqb l "eng" then Some "en" else if String.eqb l "pol" then Some "pl" else if String.eqb l "fra" then Some "fr" else None.
Definition link_to (t : string) (a : string) : command := Command CAdd (OOverlay (OType KLink "1.1") (Content (Some [(a, VVal "x")]) (Some [("target", VRef (RSaid t))]))).
(** Two links to different targets: the command adding the second one is recorded as a node of the first. *)
Theorem C30_second_link_refuted :
  match from_ast inj_digest ex_from1 (fun _ => ord1) None (mk_ast [add_attrs [("a", NVal TText)]; link_to "T2" "a"; link_to "T1" "a"]) with
  | BuildOk B steps => match build_core_db_model ex_from1 ex_to1 inj_digest id steps with
    | Ok ms => match ms !! 2, List.find (fun ov => match ov_body ov with BLink t _ => String.eqb t "T2" | _ => false end) (b_ovs B) with
      | Some m, Some ov => match rm_ov m, ov_said ov with Some n, Some s => String.eqb (nd_said n) s | _, _ => false end
      | _, _ => false end
    | _ => false end
  | _ => false end = true.
Proof. vm_compute. reflexivity. Qed.
Print Assumptions C30_second_link_refuted.
Lemma ex_codes_ok : codes_ok ex_from1 ex_to1.
Proof.
  assert (T : forall l c, ex_to1 l = Some c -> (l, c) ∈ [("eng", "en"); ("pol", "pl"); ("fra", "fr")]).
  { intros l c. unfold ex_to1. destruct (String.eqb_spec l "eng") as [->|_]; [intros [= <-]; left|]. destruct (String.eqb_spec l "pol") as [->|_]; [intros [= <-]; right; left|].
    destruct (String.eqb_spec l "fra") as [->|_]; [intros [= <-]; right; right; left|done]. }
  split.
  - intros c l. unfold ex_from1. repeat match goal with |- context [String.eqb c ?x] => destruct (String.eqb c x); [intros [= <-]; by eexists|] end. done.
  - intros l l' c H H'. apply T, elem_of_list_In in H. apply T, elem_of_list_In in H'. cbn in H, H'.
    destruct H as [H|[H|[H|[]]]], H' as [H'|[H'|[H'|[]]]]; congruence.
Qed.
(** A capture base line and two label lines. *)
Example C30_example : codes_ok ex_from1 ex_to1 /\
  match from_ast inj_digest ex_from1 (fun _ => ord1) None (mk_ast [add_attrs [("a", NVal TText)];
      add_ov KLabel [("a", VVal "A")] [("lang", VVal "en")]; add_attrs [("b", NVal TText)]; add_ov KLabel [("a", VVal "A2")] [("lang", VVal "en")]]) with
  | BuildOk B steps => match build_core_db_model ex_from1 ex_to1 inj_digest id steps with
    | Ok ms => match ms !! 0, ms !! 1, ms !! 2, ms !! 3 with
      | Some m0, Some m1, Some m2, Some m3 =>
        match rm_cb m0, rm_cb m2, rm_ov m1, rm_ov m3 with
        | Some c0, Some c2, Some o1, Some o3 =>
          match nd_parent c0, nd_parent c2, nd_parent o1, nd_parent o3 with
          | None, Some p2, None, Some p3 => String.eqb p2 (nd_said c0) && String.eqb p3 (nd_said o1)
          | _, _, _, _ => false end
        | _, _, _, _ => false end
      | _, _, _, _ => false end
    | _ => false end
  | _ => false end = true.
Proof. split; [apply ex_codes_ok|]. vm_compute. reflexivity. Qed.

(** ** C31 *)
Lemma append_suffix a b c d : (a +:+ b = c +:+ d)%string -> String.length b = String.length d -> a = c /\ b = d.
Proof.
  intros H Hl. assert (L : String.length a = String.length c).
  { apply (f_equal String.length) in H. rewrite !length_append in H. lia. }
  clear Hl. revert c L H. induction a as [|x a IH]; intros [|y c] L H; cbn in *; try lia; [done|]. injection H as -> H. injection L as L.
  by destruct (IH c L H) as [-> ->].
Qed.
Lemma up_inj a b : up_key a = up_key b -> a = b. Proof. intros H. by apply append_suffix in H as [-> _]. Qed.
Lemma down_inj a b : down_key a = down_key b -> a = b. Proof. intros H. by apply append_suffix in H as [-> _]. Qed.
Lemma up_down a b : up_key a <> down_key b.
Proof.
  unfold up_key, down_key. change ".upscending" with ("." +:+ "upscending")%string. change ".downscending" with (".do" +:+ "wnscending")%string.
  rewrite <- !append_assoc. intros H. by apply append_suffix in H as [_ H].
Qed.
Lemma len_prefixed_ok s : (String.length s <= 255)%nat -> len_prefixed s = Ok (String (ascii_of_nat (String.length s)) s).
Proof. intros H. unfold len_prefixed. by rewrite (proj2 (Nat.leb_le _ _) H). Qed.
Lemma prefixed_app l l' a b : prefixed_all l = Ok a -> prefixed_all l' = Ok b -> prefixed_all (l ++ l') = Ok (a +:+ b)%string.
Proof.
  revert a. induction l as [|s l IH]; intros a; cbn; [by intros [= <-]|]. destruct (len_prefixed s) as [x| |]; cbn; try discriminate.
  destruct (prefixed_all l) as [y| |]; cbn; try discriminate. intros [= <-] Hb. rewrite (IH y eq_refl Hb). cbn. by rewrite append_assoc.
Qed.
Lemma prefixed_inj l : forall l' s, prefixed_all l = Ok s -> prefixed_all l' = Ok s -> l = l'.
Proof.
  induction l as [|a l IH]; intros [|b l'] s; cbn; [done| | |].
  - intros [= <-]. unfold len_prefixed. destruct (_ <=? _)%nat; cbn; [|discriminate]. destruct (prefixed_all l'); cbn; discriminate.
  - intros H [= <-]. revert H. unfold len_prefixed. destruct (_ <=? _)%nat; cbn; [|discriminate]. destruct (prefixed_all l); cbn; discriminate.
  - unfold len_prefixed. destruct (Nat.leb_spec (String.length a) 255) as [Ha|]; cbn; [|discriminate]. destruct (Nat.leb_spec (String.length b) 255) as [Hb|]; cbn; [|discriminate].
    destruct (prefixed_all l) as [x| |] eqn:E; cbn; try discriminate. destruct (prefixed_all l') as [y| |] eqn:E'; cbn; try discriminate. intros [= <-] H. injection H as Hc H.
    apply (f_equal nat_of_ascii) in Hc. rewrite !nat_ascii in Hc by done.
    pose proof (split_at_app a x) as S1. pose proof (split_at_app b y) as S2. rewrite <- Hc in S1. rewrite H in S2. rewrite S1 in S2. injection S2 as -> ->.
    by rewrite (IH l' y eq_refl E').
Qed.
(** The encoding of a list of names is unambiguous, and defined iff all names have at most 255 bytes. *)
Theorem C31_encoding : (forall l l' s, prefixed_all l = Ok s -> prefixed_all l' = Ok s -> l = l') /\
  (forall l, (exists s, prefixed_all l = Ok s) <-> Forall (fun n => String.length n <= 255)%nat l) /\
  forall l, ~ Forall (fun n => String.length n <= 255)%nat l -> prefixed_all l = Panic.
Proof.
  assert (A : forall l, Forall (fun n => String.length n <= 255)%nat l -> exists s, prefixed_all l = Ok s).
  { induction l as [|n l IH]; intros H; [by eexists|]. apply Forall_cons in H as [Hn H]. destruct (IH H) as [s Hs]. cbn. rewrite len_prefixed_ok by done. cbn. rewrite Hs. by eexists. }
  assert (P : forall l, ~ Forall (fun n => String.length n <= 255)%nat l -> prefixed_all l = Panic).
  { induction l as [|n l IH]; intros H; [destruct H; constructor|]. cbn. unfold len_prefixed. destruct (Nat.leb_spec (String.length n) 255); [|done]. cbn.
    rewrite IH; [done|]. intros H'. apply H. by constructor. }
  split; [exact prefixed_inj|]. split; [|exact P]. intros l. split; [|apply A]. intros [s Hs].
  destruct (decide (Forall (fun n => String.length n <= 255)%nat l)) as [|H]; [done|]. rewrite (P l H) in Hs. discriminate.
Qed.
Print Assumptions C31_encoding.
(** The children of [t] in the order they were added, and the parent given when [n] was last added. *)
Definition children (t : string) (es : list edge) : list string := omap (fun e => if bool_decide (e.2 = Some t) then Some e.1 else None) es.
Definition parent_of (n : string) (es : list edge) (p : option (option string)) : Prop :=
  match p with
  | Some q => exists pre post, es = pre ++ (n, q) :: post /\ forall q', (n, q') ∉ post
  | None => forall q, (n, q) ∉ es end.
Definition names_short (es : list edge) : Prop := forall n t, (n, Some t) ∈ es -> (String.length n <= 255)%nat /\ (String.length t <= 255)%nat.
Definition graph (es : list edge) : outcome (gmap string string) := fold_left (fun acc e => let! d := acc in graph_add e.1 e.2 d) es (Ok ∅).
Theorem C31_graph : forall es, names_short es -> exists db, graph es = Ok db /\
  (forall t, (children t es = [] /\ db !! down_key t = None) \/ (children t es <> [] /\ exists v, db !! down_key t = Some v /\ prefixed_all (children t es) = Ok v)) /\
  (forall n, (parent_of n es None /\ db !! up_key n = None) \/
             (parent_of n es (Some None) /\ db !! up_key n = Some EmptyString) \/
             (exists p v, parent_of n es (Some (Some p)) /\ db !! up_key n = Some v /\ prefixed_all [p] = Ok v)).
Proof.
  induction es as [|e es IH] using rev_ind; intros Hs.
  - exists ∅. split; [done|]. split; [intros t; left; done|]. intros n. left. split; [|done]. intros q H. by apply elem_of_nil in H.
  - destruct IH as (db & E & HD & HU). { intros n t Hin. apply Hs. apply elem_of_app. by left. }
    destruct e as [n0 to]. unfold graph in *. rewrite fold_left_app, E. cbn [fold_left obind fst snd].
    assert (CH : forall t, children t (es ++ [(n0, to)]) = children t es ++ (if bool_decide (to = Some t) then [n0] else [])).
    { intros t. unfold children. rewrite omap_app. f_equal. cbn. by destruct (bool_decide _). }
    assert (PN : parent_of n0 (es ++ [(n0, to)]) (Some to)) by (exists es, []; split; [done|]; intros q H; by apply elem_of_nil in H).
    assert (PK : forall n p, n <> n0 -> parent_of n es p -> parent_of n (es ++ [(n0, to)]) p).
    { intros n [q|] Hn; cbn.
      - intros (pre & post & -> & Hq). exists pre, (post ++ [(n0, to)]). split; [by rewrite <- app_assoc|]. intros q' H. apply elem_of_app in H as [H|H]; [by apply (Hq q')|].
        apply elem_of_list_singleton in H. by injection H as ->.
      - intros H q Hq. apply elem_of_app in Hq as [Hq|Hq]; [by apply (H q)|]. apply elem_of_list_singleton in Hq. by injection Hq as ->. }
    destruct to as [t0|]; cbn [graph_add parents_digests obind].
    + destruct (Hs n0 t0) as [Ln Lt]; [apply elem_of_app; right; left|]. unfold graph_add, parents_digests. rewrite len_prefixed_ok by done. cbn [obind].
      rewrite lookup_insert_ne by apply up_down. unfold children_digests. rewrite len_prefixed_ok by done. cbn [obind]. eexists. split; [reflexivity|]. split.
      * intros t. rewrite CH. destruct (decide (t = t0)) as [->|Ht].
        -- rewrite bool_decide_eq_true_2 by done. right. split; [by destruct (children t0 es)|]. rewrite lookup_insert. eexists. split; [reflexivity|].
           assert (P1 : prefixed_all [n0] = Ok (String (ascii_of_nat (String.length n0)) n0)).
           { cbn. rewrite len_prefixed_ok by done. cbn. by rewrite append_nil_r. }
           destruct (HD t0) as [[-> ->]|(_ & v & -> & Hv)]; [exact P1|]. cbn [unwrap_or]. by apply prefixed_app.
        -- rewrite bool_decide_eq_false_2 by congruence. rewrite app_nil_r. rewrite lookup_insert_ne by (intros H; by apply down_inj in H).
           rewrite lookup_insert_ne by apply up_down. apply HD.
      * intros n. rewrite lookup_insert_ne by (intros H; symmetry in H; by apply up_down in H). destruct (decide (n = n0)) as [->|Hn].
        -- right; right. exists t0. eexists. rewrite lookup_insert. split; [exact PN|]. split; [reflexivity|]. cbn. rewrite len_prefixed_ok by done. cbn. by rewrite append_nil_r.
        -- rewrite lookup_insert_ne by (intros H; by apply up_inj in H).
           destruct (HU n) as [[H1 H2]|[[H1 H2]|(p & v & H1 & H2 & H3)]]; [left|right; left|right; right; exists p, v]; (split; [by apply PK|done]).
    + unfold graph_add. cbn [parents_digests obind]. eexists. split; [reflexivity|]. split.
      * intros t. rewrite CH, bool_decide_eq_false_2 by done. rewrite app_nil_r. rewrite lookup_insert_ne by apply up_down. apply HD.
      * intros n. destruct (decide (n = n0)) as [->|Hn].
        -- right; left. rewrite lookup_insert. done.
        -- rewrite lookup_insert_ne by (intros H; by apply up_inj in H).
           destruct (HU n) as [[H1 H2]|[[H1 H2]|(p & v & H1 & H2 & H3)]]; [left|right; left|right; right; exists p, v]; (split; [by apply PK|done]).
Qed.
Print Assumptions C31_graph.
Theorem C31_long_names_panic : forall n t db, (255 < String.length n)%nat \/ (255 < String.length t)%nat -> graph_add n (Some t) db = Panic.
Proof.
  intros n t db H. unfold graph_add, parents_digests, children_digests, len_prefixed.
  destruct (Nat.leb_spec (String.length t) 255); cbn; [|done]. destruct (Nat.leb_spec (String.length n) 255); cbn; [lia|done].
Qed.
Print Assumptions C31_long_names_panic.
Example C31_example : let es := [("d1", None); ("d2", Some "d1"); ("d3", Some "d2"); ("d4", Some "d2"); ("d5", Some "d4")] in
  children "d2" es = ["d3"; "d4"] /\ match graph es with Ok db => bool_decide (db !! "d2.downscending" = Some (String "002" "d3" +:+ String "002" "d4")%string) | _ => false end = true.
Proof. split; vm_compute; reflexivity. Qed.
