From Verif Require Export Spec_Ast.

Lemma imap_mem_in {V} k (m : imap V) : imap_mem k m = true <-> k ∈ map fst m.
Proof.
  unfold imap_mem. rewrite existsb_exists, elem_of_list_fmap. split.
  - intros ([k' v] & Hin & E). apply String.eqb_eq in E as ->. exists (k', v). split; [done|]. by apply elem_of_list_In.
  - intros ([k' v] & -> & Hin). exists (k', v). split; [by apply elem_of_list_In|]. apply String.eqb_refl.
Qed.
Lemma imap_insert_keys {V} k (v : V) m x : x ∈ map fst (imap_insert k v m) <-> x = k \/ x ∈ map fst m.
Proof.
  induction m as [|[k' v'] m IH]; cbn; [set_solver|]. destruct (String.eqb k k') eqn:E; cbn.
  - apply String.eqb_eq in E as ->. set_solver.
  - rewrite !elem_of_cons, IH. tauto.
Qed.
Lemma imap_extend_keys {V} (l : list (string * V)) : forall m x, x ∈ map fst (imap_extend m l) <-> x ∈ map fst m \/ x ∈ map fst l.
Proof.
  induction l as [|[k v] l IH]; intros m x; cbn; [set_solver|]. unfold imap_extend in *. cbn. rewrite IH, imap_insert_keys. set_solver.
Qed.
Section Stack.
Context {V : Type} (fields : cap_content -> option (imap V)).
Definition names (k : cmd_type) (n : string) (c : command) : Prop :=
  exists cc l, c = Command k (OCaptureBase cc) /\ fields cc = Some l /\ n ∈ map fst l.
Lemma names_iff k n c : names k n c <-> match cmd_obj c with OCaptureBase cc => cmd_kind c = k /\ n ∈ map fst (unwrap_or [] (fields cc)) | _ => False end.
Proof.
  unfold names. destruct c as [k' [cc|bc|t ct]]; cbn; split.
  - intros (cc' & l & [= -> ->] & E & Hn). by rewrite E.
  - intros [-> Hn]. destruct (fields cc) as [l|] eqn:E; cbn in Hn; [by exists cc, l|]. by apply elem_of_nil in Hn.
  - by intros (cc' & l & [=] & E & Hn).
  - done.
  - by intros (cc' & l & [=] & E & Hn).
  - done.
Qed.
Lemma step_keys m c n : n ∈ map fst (stack_step fields m c) <-> (names CAdd n c \/ n ∈ map fst m /\ ~ names CRemove n c).
Proof.
  rewrite !names_iff. unfold stack_step. destruct c as [k [cc|bc|t ct]]; cbn; [|destruct k; tauto..].
  destruct k; try (assert (CAdd <> CRemove) by done; assert (CRemove <> CAdd) by done; intuition congruence).
  - rewrite imap_extend_keys. assert (CAdd <> CRemove) by done. intuition congruence.
  - assert (CRemove <> CAdd) by done. rewrite elem_of_list_fmap. split.
    + intros ([x v] & -> & Hin). apply elem_of_list_In, filter_In in Hin as [Hin Hf]. cbn in *. right. split.
      * apply elem_of_list_fmap. exists (x, v). split; [done|]. by apply elem_of_list_In.
      * intros [_ Hn]. apply imap_mem_in in Hn. rewrite Hn in Hf. done.
    + intros [[? _]|[Hin Hr]]; [done|]. apply elem_of_list_fmap in Hin as ([x v] & -> & Hin). exists (x, v). split; [done|].
      apply elem_of_list_In, filter_In. split; [by apply elem_of_list_In|]. cbn. destruct (imap_mem x _) eqn:E; [|done].
      apply imap_mem_in in E. exfalso. by apply Hr.
Qed.
Definition stacked (cs : list command) (n : string) : Prop :=
  exists pre c post, cs = pre ++ c :: post /\ names CAdd n c /\ forall d, d ∈ post -> ~ names CRemove n d.
Lemma stacked_snoc cs c n : stacked (cs ++ [c]) n <-> (names CAdd n c \/ stacked cs n /\ ~ names CRemove n c).
Proof.
  split.
  - intros (pre & d & post & E & Hd & Hp). destruct post as [|x post _] using rev_ind.
    + apply app_inj_tail in E as [-> ->]. by left.
    + rewrite app_comm_cons, app_assoc in E. apply app_inj_tail in E as [-> ->]. right. split.
      * exists pre, d, post. repeat split; try done. intros d' Hin. apply Hp. set_solver.
      * apply Hp. set_solver.
  - intros [Hc|[(pre & d & post & -> & Hd & Hp) Hr]].
    + exists cs, c, []. repeat split; try done. intros d Hd. by apply elem_of_nil in Hd.
    + exists pre, d, (post ++ [c]). rewrite <- app_assoc. repeat split; try done. intros d' [Hin|Hin%elem_of_list_singleton]%elem_of_app; [by apply Hp|]. by subst.
Qed.
Lemma stack_keys cs n : n ∈ map fst (fold_left (stack_step fields) cs []) <-> stacked cs n.
Proof.
  induction cs as [|c cs IH] using rev_ind.
  - cbn. split; [intros H; by apply elem_of_nil in H|]. intros ([|x0 xs0] & c & post & E & _); done.
  - rewrite fold_left_app. cbn. rewrite step_keys, stacked_snoc, IH. done.
Qed.
End Stack.
Lemma attrs_stack cs n : imap_mem n (extract_attributes cs) = true <-> on_stack names_attr cs n.
Proof. rewrite imap_mem_in. apply stack_keys. Qed.
Lemma props_stack cs n : imap_mem n (extract_properties cs) = true <-> on_stack names_prop cs n.
Proof. rewrite imap_mem_in. apply stack_keys. Qed.
Lemma forallb_keys {V} (f : string -> bool) (l : imap V) : forallb f (imap_keys l) = true <-> forall n, n ∈ map fst l -> f n = true.
Proof. rewrite forallb_forall. unfold imap_keys. setoid_rewrite elem_of_list_In. done. Qed.

Lemma validate_ok a c : ast_validate a c = Ok true <-> ast_version a = "1.0.0" /\ well_placed (ast_commands a) c.
Proof.
  unfold ast_validate. destruct (String.eqb (ast_version a) "1.0.0") eqn:V.
  2: { split; [by destruct (String.eqb _ "")|]. intros [E _]. by rewrite E in V. }
  apply String.eqb_eq in V. rewrite V. transitivity (well_placed (ast_commands a) c); [|tauto].
  unfold well_placed. setoid_rewrite <- attrs_stack. setoid_rewrite <- props_stack.
  pose proof (names_iff cc_attrs) as NA. pose proof (names_iff cc_props) as NP.
  change (names cc_attrs) with names_attr in NA. change (names cc_props) with names_prop in NP.
  setoid_rewrite NA. setoid_rewrite NP. unfold validate_1_0_0. destruct c as [k [cc|bc|t ct]]; cbn; [|destruct k; tauto..].
  destruct k.
  - unfold rule_add. split.
    + intros H. split; [|split]; [|by intros n [? _]..]. intros n [_ Hn] Hs.
      destruct (List.filter _ _) eqn:F; [|done]. assert (Hin : In n []); [|done]. rewrite <- F. apply filter_In. split; [by apply elem_of_list_In|done].
    + intros (H & _ & _). destruct (List.filter _ _) as [|x l] eqn:F; [done|]. assert (Hin : In x (x :: l)) by by left. rewrite <- F in Hin.
      apply filter_In in Hin as [Hin Hm]. apply elem_of_list_In in Hin. exfalso. by eapply H.
  - unfold rule_remove. set (e1 := match cc_attrs cc with Some l => _ | None => _ end).
    assert (E1 : e1 = [] <-> forall n, n ∈ map fst (unwrap_or [] (cc_attrs cc)) -> imap_mem n (extract_attributes (ast_commands a)) = true).
    { subst e1. destruct (cc_attrs cc) as [l|]; cbn; [|split; [|done]; intros _ n H; by apply elem_of_nil in H].
      rewrite <- forallb_keys. by destruct (forallb _ _). }
    assert (E2 : (match cc_props cc with Some l => forallb (fun k => imap_mem k (extract_properties (ast_commands a))) (imap_keys l) | None => true end) = true <->
                 forall n, n ∈ map fst (unwrap_or [] (cc_props cc)) -> imap_mem n (extract_properties (ast_commands a)) = true).
    { destruct (cc_props cc) as [l|]; cbn; [by apply forallb_keys|]. split; [|done]. intros _ n H; by apply elem_of_nil in H. }
    transitivity (e1 = [] /\ match cc_props cc with Some l => forallb (fun k => imap_mem k (extract_properties (ast_commands a))) (imap_keys l) | None => true end = true).
    + destruct (cc_props cc) as [l|]; [destruct (forallb _ _)|]; destruct e1; intuition congruence.
    + rewrite E1, E2. assert (CRemove <> CAdd) by done. split; [|intuition]. intros [A B]. split; [intros n [? _]; done|]. intuition.
  - split; [|done]. intros _. split; [|split]; intros n [? _]; done.
  - split; [|done]. intros _. split; [|split]; intros n [? _]; done.
Qed.
Lemma validate_total a c : ast_validate a c = Ok true \/ exists es, ast_validate a c = Err es.
Proof.
  unfold ast_validate, validate_1_0_0, rule_add, rule_remove. repeat case_match; eauto.
Qed.
Lemma push_all_ok l : forall a a', push_all a l = Ok a' <->
  (l = [] \/ ast_version a = "1.0.0") /\ (forall pre c m post, l = pre ++ (c, m) :: post -> well_placed (ast_commands a ++ map fst pre) c) /\
  a' = Ast (ast_version a) (ast_commands a ++ map fst l) (ast_cmeta a ++ zip (seq (length (ast_commands a)) (length l)) (map snd l)) (ast_meta a).
Proof.
  induction l as [|[c m] l IH]; intros a a'; cbn [push_all].
  - split.
    + intros [= <-]. split; [by left|]. split; [by intros [|? ?] ? ? ? [=]|]. cbn. rewrite !app_nil_r. by destruct a.
    + intros (_ & _ & ->). cbn. rewrite !app_nil_r. by destruct a.
  - assert (P : (let! _ := ast_validate a c in push_all (push_command a c m) l) = Ok a' <-> ast_validate a c = Ok true /\ push_all (push_command a c m) l = Ok a').
    { destruct (validate_total a c) as [E|[es E]]; rewrite E; cbn; [tauto|]. split; [done|]. by intros [? _]. }
    rewrite P, IH, validate_ok. cbn [ast_version ast_commands ast_cmeta ast_meta push_command]. rewrite <- !app_assoc. cbn [app map length seq zip fst snd].
    rewrite app_length. cbn [length]. rewrite Nat.add_1_r.
    split.
    + intros ((Hv & Hc) & Hl & Hp & ->). split; [by right|]. split; [|done]. intros pre c' m' post E. destruct pre as [|[c0 m0] pre]; cbn in E.
      * injection E as -> -> ->. cbn. by rewrite app_nil_r.
      * injection E as <- <- E. cbn. specialize (Hp _ _ _ _ E). by rewrite <- app_assoc in Hp.
    + intros ([?|Hv] & Hp & ->); [done|]. split; [split; [done|]|].
      * specialize (Hp [] c m l eq_refl). cbn in Hp. by rewrite app_nil_r in Hp.
      * split; [by right|]. split; [|done]. intros pre c' m' post ->. specialize (Hp ((c, m) :: pre) c' m' post eq_refl). cbn in Hp. by rewrite <- app_assoc.
Qed.
