From Verif Require Import Validator Spec_Bundle Spec_Condition Overlays_proofs Bundle_proofs Determinism_proofs Sort_proofs
  Condition_proofs Condition_spec_proofs.
From Coq Require Import Lia.

Lemma opt_str_eqb_refl a : opt_str_eqb a a = true.
Proof. by apply bool_decide_eq_true_2. Qed.
Lemma concat_nil {A} (l : list (list A)) : concat l = [] <-> forall x, x ∈ l -> x = [].
Proof.
  induction l as [|x l IH]; simpl.
  - split; [|done]. intros _ x H. by apply not_elem_of_nil in H.
  - split.
    + intros H. apply app_eq_nil in H as [-> H]. intros y Hy. apply elem_of_cons in Hy as [->|Hy]; [done|]. by apply IH.
    + intros H. rewrite (H x) by apply elem_of_list_here. simpl. apply IH. intros y Hy. apply H. by apply elem_of_list_further.
Qed.

Section V.
Context (digest : json -> string) (lua : string -> bool + string).

Lemma ov_sign_self c ov : ov_said (ov_sign digest c ov) = ov_said (ov_fill digest (ov_sign digest c ov)).
Proof. done. Qed.
Lemma cb_fill_idem cb : cb_said (cb_fill digest (cb_fill digest cb)) = cb_said (cb_fill digest cb).
Proof. done. Qed.
(** said_errors empty, spelled out. *)
Lemma said_errors_nil b : said_errors digest b = [] <->
  b_said b = Some (digest (bundle_json_d (JStr dummy_said) b)) /\
  cb_said (b_cb b) = Some (digest (cb_json_d (JStr dummy_said) (b_cb b))) /\
  forall ov, ov ∈ b_ovs b -> ov_said ov = Some (digest (overlay_json_d (JStr dummy_said) ov)) /\ ov_cb ov = cb_said (b_cb b).
Proof.
  unfold said_errors. unfold opt_str_eqb. split.
  - intros H. apply app_eq_nil in H as [H1 H]. apply app_eq_nil in H as [H2 H3].
    case_bool_decide as E1; [|done]. case_bool_decide as E2; [|done].
    split; [done|]. split; [done|]. intros ov Hov. rewrite concat_nil in H3.
    specialize (H3 _ (proj2 (elem_of_list_In _ _) (in_map _ _ _ (proj1 (elem_of_list_In _ _) Hov)))).
    apply app_eq_nil in H3 as [H3 H4]. case_bool_decide as E3; [|done]. case_bool_decide as E4; done.
  - intros (E1 & E2 & E3). rewrite bool_decide_eq_true_2 by done. rewrite bool_decide_eq_true_2 by done. simpl.
    apply concat_nil. intros x Hx. apply elem_of_list_In, in_map_iff in Hx as (ov & <- & Hov).
    apply elem_of_list_In in Hov. destruct (E3 ov Hov) as [F1 F2].
    rewrite bool_decide_eq_true_2 by done. by rewrite bool_decide_eq_true_2.
Qed.
Lemma generated_said_errors o b B : generate_bundle digest o b = Some B -> said_errors digest B = [].
Proof.
  unfold generate_bundle. destruct (generate_capture_base o b) as [cb|]; [|done]. intros [= <-].
  apply said_errors_nil. split; [done|]. split; [done|]. intros ov Hov. apply elem_of_list_In in Hov.
  cbn [bundle_fill b_ovs] in Hov. apply in_map_iff in Hov as (y & <- & _). done.
Qed.
Lemma validate_valid_said o langs b : validate digest lua o langs b = VValid ->
  said_errors digest b = [] /\ translation_errors langs (b_ovs b) = [] /\
  match find_conditional (b_ovs b) with
  | None => True
  | Some (c, d) => cond_errors lua (cb_attrs (b_cb b)) d (o ["conditions"] _ c) = Some []
  end.
Proof.
  unfold validate. intros H.
  destruct (find_conditional (b_ovs b)) as [[c d]|].
  - destruct (cond_errors _ _ _ _) as [[|]|]; try done.
    destruct (said_errors digest b ++ _) eqn:E; [|done]. by apply app_eq_nil in E as [-> ->].
  - destruct (said_errors digest b ++ _) eqn:E; [|done]. by apply app_eq_nil in E as [-> ->].
Qed.
Lemma validate_langs o langs b : validate digest lua o [] b = VValid ->
  validate digest lua o langs b = match translation_errors langs (b_ovs b) with [] => VValid | es => VInvalid es end.
Proof.
  intros H. apply validate_valid_said in H as (H1 & _ & H3). unfold validate. rewrite H1. cbn [app].
  destruct (find_conditional (b_ovs b)) as [[c d]|]; [|done]. by rewrite H3.
Qed.
Lemma cond_errors_only types d cs es e : cond_errors lua types d cs = Some es -> e ∈ es ->
  (exists a, e = VCondSelf a) \/ (exists a m, e = VCondLua a m).
Proof.
  revert es. induction cs as [|[attr c] cs IH]; intros es; simpl.
  - intros [= <-] H. by apply not_elem_of_nil in H.
  - destruct (d !! attr) as [deps|]; [|done].
    set (here := if existsb (String.eqb attr) deps then _ else _).
    destruct here as [l|] eqn:E; [|done].
    destruct (cond_errors lua types d cs) as [r|]; [|done]. intros [= <-] Hin.
    apply elem_of_app in Hin as [Hin|Hin]; [|by eapply IH].
    unfold here in E. destruct (existsb _ _).
    + injection E as <-. apply elem_of_list_singleton in Hin. eauto.
    + destruct (mocks types deps) as [m|]; [|done]. destruct (script_of c deps m) as [s|]; [|done].
      destruct (lua _); injection E as <-; [by apply not_elem_of_nil in Hin|]. apply elem_of_list_singleton in Hin. eauto.
Qed.

(** Condition checks of a generated bundle. *)
Lemma imap_get_elem {V} (m : imap V) k v : NoDup (map fst m) -> imap_get k m = Some v <-> (k, v) ∈ m.
Proof.
  induction m as [|[k' v'] m IH]; simpl; intros Hn.
  - split; [done|]. intros H. by apply not_elem_of_nil in H.
  - apply NoDup_cons in Hn as [H1 H2]. rewrite elem_of_cons. destruct (String.eqb_spec k k') as [->|Hne].
    + split; [intros [= ->]; by left|]. intros [[= ->]|Hin]; [done|]. exfalso. apply H1.
      apply elem_of_list_In, in_map_iff. exists (k', v). split; [done|]. by apply elem_of_list_In.
    + rewrite IH by done. split; [by right|]. intros [[= ? ?]|?]; done.
Qed.
Lemma imap_get_not {V} (m : imap V) k : imap_get k m = None <-> k ∉ map fst m.
Proof.
  induction m as [|[k' v'] m IH]; simpl; [split; [intros _; apply not_elem_of_nil|done]|].
  rewrite not_elem_of_cons. destruct (String.eqb_spec k k') as [->|Hne]; [naive_solver|]. rewrite IH. naive_solver.
Qed.
Lemma mocks_spec types deps : 
  (forall m, mocks types deps = Some m -> forall d, d ∈ deps -> exists t v, imap_get d types = Some t /\ mock t = Some v /\ m !! d = Some v) /\
  ((forall d, d ∈ deps -> exists t v, imap_get d types = Some t /\ mock t = Some v) -> is_Some (mocks types deps)).
Proof.
  induction deps as [|x deps [IH1 IH2]]; simpl.
  - split; [intros m _ d H; by apply not_elem_of_nil in H|by eexists].
  - split.
    + intros m. destruct (imap_get x types) as [t|] eqn:Ht; [|done]. destruct (mock t) as [v|] eqn:Hv; [|done].
      destruct (mocks types deps) as [m'|]; [|done]. intros [= <-] d Hd.
      destruct (decide (d = x)) as [->|Hne]; [exists t, v; by rewrite lookup_insert|].
      apply elem_of_cons in Hd as [->|Hd]; [done|]. rewrite lookup_insert_ne by done. by apply IH1.
    + intros H. destruct (H x) as (t & v & Ht & Hv); [apply elem_of_list_here|]. rewrite Ht, Hv.
      destruct IH2 as [m Hm]; [intros d Hd; apply H; by apply elem_of_list_further|]. rewrite Hm. by eexists.
Qed.
Lemma cond_errors_nil types d cs : cond_errors lua types d cs = Some [] <->
  forall attr c, (attr, c) ∈ cs -> exists deps, d !! attr = Some deps /\ attr ∉ deps /\
    exists m s bo, mocks types deps = Some m /\ script_of c deps m = Some s /\ lua ("return " +:+ s)%string = inl bo.
Proof.
  induction cs as [|[attr c] cs IH]; simpl.
  - split; [|done]. intros _ a c H. by apply not_elem_of_nil in H.
  - split.
    + destruct (d !! attr) as [deps|] eqn:Ed; [|done].
      destruct (existsb (String.eqb attr) deps) eqn:Ex.
      { destruct (cond_errors lua types d cs); [|done]. intros [= ?]. }
      destruct (mocks types deps) as [m|] eqn:Em; [|done]. destruct (script_of c deps m) as [s|] eqn:Es; [|done].
      destruct (lua _) as [bo|] eqn:El.
      2:{ destruct (cond_errors lua types d cs); [|done]. intros [= ?]. }
      destruct (cond_errors lua types d cs) as [r|]; [|done]. simpl. intros [= ->].
      intros a c' Hin. apply elem_of_cons in Hin as [[= -> ->]|Hin].
      * exists deps. split; [done|]. split; [|by exists m, s, bo]. intros Hin. 
        assert (existsb (String.eqb attr) deps = true); [|congruence]. apply existsb_exists. exists attr.
        split; [by apply elem_of_list_In|apply String.eqb_refl].
      * by apply IH.
    + intros H. destruct (H attr c) as (deps & Ed & Hni & m & s & bo & Em & Es & El); [apply elem_of_list_here|].
      rewrite Ed. destruct (existsb (String.eqb attr) deps) eqn:Ex.
      { exfalso. apply Hni. apply existsb_exists in Ex as (x & Hx & E). apply String.eqb_eq in E as <-. by apply elem_of_list_In. }
      rewrite Em, Es, El. rewrite (proj2 IH); [done|]. intros a c' Hin. apply H. by apply elem_of_list_further.
Qed.

Lemma find_conditional_spec ovs :
  match find_conditional ovs with
  | None => forall ov c d, ov ∈ ovs -> ov_body ov <> BConditional c d
  | Some (c, d) => exists ov, ov ∈ ovs /\ ov_body ov = BConditional c d
  end.
Proof.
  induction ovs as [|ov ovs IH]; simpl.
  - intros ov c d H. by apply not_elem_of_nil in H.
  - assert (Hrec : (forall c d, ov_body ov <> BConditional c d) ->
      match find_conditional ovs with
      | None => forall ov0 c d, ov0 ∈ ov :: ovs -> ov_body ov0 <> BConditional c d
      | Some (c, d) => exists ov0, ov0 ∈ ov :: ovs /\ ov_body ov0 = BConditional c d
      end).
    { intros Hno. destruct (find_conditional ovs) as [[c d]|].
      - destruct IH as (x & Hx & E). exists x. split; [by apply elem_of_list_further|done].
      - intros x c d Hx. apply elem_of_cons in Hx as [->|Hx]; [apply Hno|by apply IH]. }
    destruct (ov_body ov) eqn:E; try (apply Hrec; intros ? ?; congruence).
    exists ov. split; [apply elem_of_list_here|done].
Qed.
Lemma right_conditional b B : bundle_right b B ->
  match find_conditional (b_ovs B) with
  | None => forall n a, bx_attrs b !! n = Some a -> at_cond a = None
  | Some (c, d) => forall n, c !! n = (a ← bx_attrs b !! n; at_cond a) /\
      (forall a x, bx_attrs b !! n = Some a -> at_cond a = Some x -> d !! n = at_deps a)
  end.
Proof.
  intros Hr. pose proof (find_conditional_spec (b_ovs B)) as Hf.
  destruct (find_conditional (b_ovs B)) as [[c d]|].
  - destruct Hf as (ov & Hov & E). intros n.
    pose proof (br_facts b B Hr ov n) as Hfacts. rewrite E in Hfacts. simpl in Hfacts.
    assert (Hf : forall dt, (fun x => DCondition x (d !! n)) <$> c !! n = Some dt <->
       (a ← bx_attrs b !! n; (fun c => DCondition c (at_deps a)) <$> at_cond a) = Some dt).
    { intros dt. by apply Hfacts. }
    split.
    + destruct (c !! n) as [x|] eqn:Ec; simpl in Hf.
      * pose proof (proj1 (Hf _) eq_refl) as Hx. apply bind_Some in Hx as (a & Ha & Hx). rewrite Ha. simpl.
        destruct (at_cond a); simpl in Hx; [|done]. by injection Hx as ->.
      * destruct (bx_attrs b !! n) as [a|] eqn:Ha; simpl in *; [|done].
        destruct (at_cond a); [|done]. simpl in Hf. by pose proof (proj2 (Hf _) eq_refl).
    + intros a x Ha Hx. rewrite Ha in Hf. simpl in Hf. rewrite Hx in Hf. simpl in Hf.
      pose proof (proj2 (Hf _) eq_refl) as Hy. destruct (c !! n); simpl in Hy; [|done]. by injection Hy.
  - intros n a Ha. destruct (at_cond a) as [x|] eqn:Hx; [|done]. exfalso.
    destruct (proj2 (br_exists b B Hr (SPlain KConditional) ltac:(done))) as (ov & Hov & Hs).
    { exists n, (DCondition x (at_deps a)). simpl. rewrite Ha. simpl. by rewrite Hx. }
    pose proof (br_tidy b B Hr ov Hov) as Ht.
    destruct (ov_body ov) eqn:E; simpl in Hs; try done.
    + by eapply Hf.
    + by destruct (meta !! "frame_id").
Qed.

Definition mock_of (b : obox) (n : string) : option string :=
  a ← bx_attrs b !! n; t ← at_type a; mock t.

Lemma types_get b B n : bundle_right b B -> imap_get n (cb_attrs (b_cb B)) = (a ← bx_attrs b !! n; at_type a).
Proof.
  intros Hr. apply option_eq. intros t. rewrite (imap_get_elem _ _ _ (br_names b B Hr)).
  rewrite (br_types b B Hr), bind_Some. done.
Qed.

Lemma C03_verdict o o' b B : order_ok o -> order_ok o' -> box_ok b -> generate_bundle digest o b = Some B ->
  validate digest lua o' [] B = VValid <->
  (forall n a c ps, bx_attrs b !! n = Some a -> at_cond a = Some (encode_condition c).1 ->
     at_deps a = Some (encode_condition c).2 -> reads c ps ->
     PName n ∉ ps /\ (forall d, PName d ∈ ps -> is_Some (mock_of b d)) /\
     exists bo, lua ("return " +:+ render (fun d => unwrap_or "" (mock_of b d)) ps)%string = inl bo).
Proof.
  intros Ho Ho' Hb HB. destruct (C02_proof o Ho digest b Hb) as (B' & HB' & Hr). assert (B' = B) as -> by congruence.
  pose proof (generated_said_errors o b B HB) as Hsaid. unfold validate. rewrite Hsaid. simpl.
  pose proof (right_conditional b B Hr) as Hc. destruct (find_conditional (b_ovs B)) as [[cm dm]|].
  2:{ split; [|done]. intros _ n a c ps Ha Hcond. rewrite (Hc _ _ Ha) in Hcond. done. }
  assert (Hiff : cond_errors lua (cb_attrs (b_cb B)) dm (o' ["conditions"] _ cm) = Some [] <->
    (forall n a c ps, bx_attrs b !! n = Some a -> at_cond a = Some (encode_condition c).1 ->
     at_deps a = Some (encode_condition c).2 -> reads c ps ->
     PName n ∉ ps /\ (forall d, PName d ∈ ps -> is_Some (mock_of b d)) /\
     exists bo, lua ("return " +:+ render (fun d => unwrap_or "" (mock_of b d)) ps)%string = inl bo)).
  { rewrite cond_errors_nil. split.
    - intros H n a c ps Ha Hca Hda Hps.
      destruct (H n (encode_condition c).1) as (deps & Hdeps & Hni & m & s & bo & Hm & Hs & Hl).
      { apply (order_elem o' Ho'). destruct (Hc n) as [-> _]. rewrite Ha. done. }
      destruct (Hc n) as [_ Hd]. rewrite (Hd _ _ Ha Hca), Hda in Hdeps. injection Hdeps as <-.
      split; [by rewrite <- (deps_names c ps)|].
      destruct (mocks_spec (cb_attrs (b_cb B)) (encode_condition c).2) as [M1 _].
      assert (Hmock : forall d, PName d ∈ ps -> exists v, mock_of b d = Some v /\ m !! d = Some v).
      { intros d Hd'. rewrite <- (deps_names c ps) in Hd' by done. destruct (M1 m Hm d Hd') as (t & v & Ht & Hv & Hmd).
        rewrite (types_get b B) in Ht by done. apply bind_Some in Ht as (ad & Had & Ht). exists v. split; [|done].
        unfold mock_of. rewrite Had. simpl. by rewrite Ht. }
      split; [intros d Hd'; destruct (Hmock d Hd') as (v & Hv & _); by eexists|].
      exists bo. rewrite <- Hl. f_equal. f_equal.
      rewrite encode_script in Hs. rewrite subst_render in Hs.
      2:{ intros n' Hn'. apply elem_to_piece in Hn'. rewrite (reads_fun _ _ (reads_tokens c) _ Hps) in Hn'.
          destruct (Hmock n' Hn') as (v & _ & Hv). by eexists. }
      injection Hs as <-. rewrite (reads_fun _ _ (reads_tokens c) _ Hps). apply render_ext.
      intros d Hd'. destruct (Hmock d Hd') as (v & Hv & Hmv). by rewrite Hv, Hmv.
    - intros H attr cc Hin. apply (order_elem o' Ho') in Hin. destruct (Hc attr) as [Hca Hda]. rewrite Hca in Hin.
      apply bind_Some in Hin as (a & Ha & Hcc).
      destruct (ok_conds b Hb _ _ Ha) as [[Hn _]|(c & Hc1 & Hc2)]; [congruence|].
      assert (cc = (encode_condition c).1) as -> by congruence.
      destruct (H attr a c _ Ha Hc1 Hc2 (reads_tokens c)) as (Hni & Hmk & bo & Hl).
      exists (encode_condition c).2. split; [by rewrite (Hda _ _ Ha Hc1)|].
      split; [by rewrite (deps_names c _ _ (reads_tokens c))|].
      destruct (mocks_spec (cb_attrs (b_cb B)) (encode_condition c).2) as [M1 M2].
      destruct M2 as [m Hm].
      { intros d Hd. rewrite (deps_names c _ _ (reads_tokens c)) in Hd. destruct (Hmk d Hd) as [v Hv].
        unfold mock_of in Hv. apply bind_Some in Hv as (ad & Had & Hv). apply bind_Some in Hv as (t & Ht & Hv).
        exists t, v. split; [|done]. rewrite (types_get b B) by done. by rewrite Had. }
      assert (Hmock : forall d, PName d ∈ map to_piece (tokens_names c) -> exists v, mock_of b d = Some v /\ m !! d = Some v).
      { intros d Hd'. rewrite <- (deps_names c _ _ (reads_tokens c)) in Hd'. destruct (M1 m Hm d Hd') as (t & v & Ht & Hv & Hmd).
        rewrite (types_get b B) in Ht by done. apply bind_Some in Ht as (ad & Had & Ht). exists v. split; [|done].
        unfold mock_of. rewrite Had. simpl. by rewrite Ht. }
      exists m, (render (fun d => unwrap_or "" (m !! d)) (map to_piece (tokens_names c))), bo. split; [done|]. split.
      + rewrite encode_script. apply subst_render. intros n' Hn'. apply elem_to_piece in Hn'.
        destruct (Hmock n' Hn') as (v & _ & Hv). by eexists.
      + rewrite <- Hl. f_equal. f_equal. apply render_ext. intros d Hd. destruct (Hmock d Hd) as (v & Hv & Hmv). by rewrite Hv, Hmv. }
  rewrite <- Hiff. destruct (cond_errors _ _ _ _) as [[|]|]; split; done.
Qed.
Definition said_related (e : verr) : Prop :=
  match e with VBundleSaid | VCaptureSaid | VOverlaySaid _ _ | VOverlayBase _ _ => True | _ => False end.
Lemma translation_errors_only langs ovs e : e ∈ translation_errors langs ovs -> ~ said_related e.
Proof.
  unfold translation_errors. destruct langs as [|l langs]; [intros H; by apply not_elem_of_nil in H|].
  generalize (l :: langs). intros ls H. apply elem_of_list_In, in_concat in H as (x & Hx & He).
  apply in_map_iff in Hx as (k & <- & _). unfold check_kind in He.
  destruct (List.filter (is_kind k) ovs) as [|y r]; [done|]. unfold validate_translations in He.
  apply in_app_iff in He as [He|He]; [apply in_map_iff in He as (? & <- & _); simpl; tauto|].
  apply in_app_iff in He as [He|He]; [apply in_map_iff in He as (? & <- & _); simpl; tauto|].
  apply in_concat in He as (z & Hz & He). apply in_map_iff in Hz as (? & <- & _). apply in_map_iff in He as (? & <- & _). simpl; tauto.
Qed.
Lemma C03_no_said_error o o' langs b B es e : generate_bundle digest o b = Some B ->
  validate digest lua o' langs B = VInvalid es -> e ∈ es -> ~ said_related e.
Proof.
  intros HB Hv He. unfold validate in Hv. rewrite (generated_said_errors o b B HB) in Hv. simpl in Hv.
  assert (Hfin : match translation_errors langs (b_ovs B) with [] => VValid | v :: l => VInvalid (v :: l) end = VInvalid es -> ~ said_related e).
  { intros H. destruct (translation_errors langs (b_ovs B)) eqn:E; [done|]. injection H as <-.
    rewrite <- E in He. by eapply translation_errors_only. }
  destruct (find_conditional (b_ovs B)) as [[c d]|]; [|auto].
  destruct (cond_errors lua (cb_attrs (b_cb B)) d (o' ["conditions"] _ c)) as [[|x l]|] eqn:E; [auto| |done].
  injection Hv as <-. destruct (cond_errors_only _ _ _ _ _ E He) as [[? ->]|(? & ? & ->)]; simpl; tauto.
Qed.
End V.
