(** Building does not distinguish a command from the same command once written and read. *)
From Coq Require Import Lia.
From Verif Require Export Spec_OcaFile Build.
From Verif Require Import OcaCommands Spec_Ast Spec_Build.

Lemma as_read_names_attr k n c : names_attr k n (as_read c) <-> names_attr k n c.
Proof.
  destruct c as [ck [cc|bc|[ok ver] ct]]; [|by destruct ck| ].
  - destruct cc as [ats ps fl]. destruct ck; [done| |done|done]. destruct ats as [l|].
    + cbn [as_read]. split; intros (cc & l' & E & El & Hin).
      * injection E as <- <-. cbn in El. injection El as <-. exists (CapContent (Some l) ps fl), l. split; [done|]. split; [done|]. by rewrite map_map in Hin.
      * injection E as <- <-. cbn in El. injection El as <-. eexists _, _. split; [reflexivity|]. split; [reflexivity|]. by rewrite map_map.
    + cbn [as_read]. destruct ps as [[|[pk pv] [|]]|]; try done. split; intros (cc & l' & E & El & Hin); injection E as <- <-; done.
  - assert (N : forall c', (exists t ct, c' = Command ck (OOverlay t ct)) -> ~ names_attr k n c') by (intros c' (t & ct' & ->) (cc & l & E & _); done).
    split; intros H; exfalso; revert H; apply N; [|eauto]. destruct ct as [ats ps]. destruct ck; cbn; eauto. destruct ok; eauto. destruct ps as [[|]|]; eauto.
Qed.
Lemma as_read_names_prop k n c : names_prop k n (as_read c) <-> names_prop k n c.
Proof.
  destruct c as [ck [cc|bc|[ok ver] ct]]; [|by destruct ck| ].
  - destruct cc as [ats ps fl]. destruct ck; [done| |done|done]. destruct ats as [l|].
    + cbn [as_read]. split; intros (cc & l' & E & El & Hin); injection E as <- <-; cbn in El; subst; eexists _, _; (split; [reflexivity|]); done.
    + cbn [as_read]. destruct ps as [[|[pk pv] [|]]|]; try done. split; intros (cc & l' & E & El & Hin); injection E as <- <-; cbn in El; injection El as <-;
        eexists _, _; (split; [reflexivity|]); (split; [reflexivity|]); done.
  - assert (N : forall c', (exists t ct, c' = Command ck (OOverlay t ct)) -> ~ names_prop k n c') by (intros c' (t & ct' & ->) (cc & l & E & _); done).
    split; intros H; exfalso; revert H; apply N; [|eauto]. destruct ct as [ats ps]. destruct ck; cbn; eauto. destruct ok; eauto. destruct ps as [[|]|]; eauto.
Qed.
Lemma as_read_stack (names : cmd_type -> string -> command -> Prop) cs n : (forall k n c, names k n (as_read c) <-> names k n c) ->
  on_stack names (map as_read cs) n <-> on_stack names cs n.
Proof.
  intros Hn. split.
  - intros (pre & c & post & E & Hc & Hp). apply map_eq_app in E as (pre' & rest & -> & <- & E). destruct rest as [|c' post']; [done|]. injection E as <- <-.
    exists pre', c', post'. split; [done|]. split; [by apply Hn|]. intros d Hd Hr. apply (Hp (as_read d)); [by apply elem_of_list_fmap_1|by apply Hn].
  - intros (pre & c & post & -> & Hc & Hp). exists (map as_read pre), (as_read c), (map as_read post). split; [by rewrite map_app|]. split; [by apply Hn|].
    intros d Hd Hr. apply elem_of_list_fmap in Hd as (d' & -> & Hd). apply (Hp d' Hd). by apply Hn.
Qed.
Lemma as_read_placed cs c : well_placed (map as_read cs) (as_read c) <-> well_placed cs c.
Proof.
  unfold well_placed. split; intros (H1 & H2 & H3); (split; [|split]); intros n Hn.
  - rewrite <- (as_read_stack names_attr) by exact as_read_names_attr. apply H1. by apply as_read_names_attr.
  - rewrite <- (as_read_stack names_attr) by exact as_read_names_attr. apply H2. by apply as_read_names_attr.
  - rewrite <- (as_read_stack names_prop) by exact as_read_names_prop. apply H3. by apply as_read_names_prop.
  - rewrite (as_read_stack names_attr) by exact as_read_names_attr. apply H1. by apply as_read_names_attr.
  - rewrite (as_read_stack names_attr) by exact as_read_names_attr. apply H2. by apply as_read_names_attr.
  - rewrite (as_read_stack names_prop) by exact as_read_names_prop. apply H3. by apply as_read_names_prop.
Qed.

(** META: the order of the keys does not matter. *)
Lemma add_meta_comm l k1 v1 k2 v2 b : k1 <> k2 -> add_meta l k1 v1 (add_meta l k2 v2 b) = add_meta l k2 v2 (add_meta l k1 v1 b).
Proof.
  intros H. unfold add_meta. cbn [bx_meta bx_attrs bx_maps bx_class unwrap_or]. rewrite !lookup_insert. cbn [unwrap_or]. rewrite !insert_insert. do 2 f_equal.
  by rewrite (insert_commute _ k1 k2).
Qed.
Lemma add_metas_perm lang l l' : l ≡ₚ l' -> NoDup (map fst l) -> Forall (fun kv : string * nvalue => exists s, kv.2 = VVal s) l -> forall b, add_metas lang l b = add_metas lang l' b.
Proof.
  induction 1 as [|[k v] l l' Hp IH|[k1 v1] [k2 v2] l|l1 l2 l3 H1 IH1 H2 IH2]; intros Hn Hv b.
  - done.
  - inversion Hn; subst. inversion Hv as [|? ? [s Es] Hv']; subst. cbn in Es. subst. cbn [add_metas]. destruct lang; [|done]. by apply IH.
  - inversion Hv as [|? ? [s1 E1] Hv']; subst. inversion Hv' as [|? ? [s2 E2] Hv'']; subst. cbn in E1, E2. subst. cbn [add_metas]. destruct lang; [|done].
    rewrite add_meta_comm; [done|]. inversion Hn as [|? ? Hx Hy]; subst. intros ->. apply Hx. by left.
  - rewrite IH1 by done. apply IH2; [by rewrite <- H1|by rewrite <- H1].
Qed.
Lemma remove_first {V} k (v : V) ps : ~ k ∈ map fst ps -> imap_remove k ((k, v) :: ps) = ps.
Proof.
  intros H. unfold imap_remove. cbn [List.filter fst]. rewrite String.eqb_refl. cbn [negb]. induction ps as [|x ps IH]; [done|]. cbn [map] in H. cbn [List.filter].
  destruct (String.eqb k x.1) eqn:E; [apply String.eqb_eq in E; subst; exfalso; apply H; by left|]. cbn [negb]. f_equal. apply IH. intros Hin. apply H. by right.
Qed.
Lemma value_upd_props from1 k p p' v : cmd_lang from1 p = cmd_lang from1 p' -> link_target p = link_target p' -> frame_id_of p = frame_id_of p' -> frame_meta_props p = frame_meta_props p' ->
  value_upd from1 k p v = value_upd from1 k p' v.
Proof. intros H1 H2 H3 H4. destruct k, v; cbn [value_upd]; rewrite ?H1, ?H2, ?H3, ?H4; reflexivity. Qed.
Lemma upd_attrs_props from1 k p p' l : cmd_lang from1 p = cmd_lang from1 p' -> link_target p = link_target p' -> frame_id_of p = frame_id_of p' -> frame_meta_props p = frame_meta_props p' ->
  forall errs b, upd_attrs from1 errs k p l b = upd_attrs from1 errs k p' l b.
Proof.
  intros H1 H2 H3 H4. induction l as [|[n v] l IH]; intros errs b; [done|]. cbn [upd_attrs]. destruct (bx_attrs b !! n); [|done].
  rewrite (value_upd_props from1 k p p' v) by done. destruct (value_upd from1 k p' v) as [[u|]| |]; [apply IH|apply IH|done|done].
Qed.
Lemma remove_names (l : imap nattr) (b : obox) : fold_left (fun acc (kv : string * nattr) => remove_attribute kv.1 acc) (map (fun kv => (kv.1, NNull)) l) b =
  fold_left (fun acc (kv : string * nattr) => remove_attribute kv.1 acc) l b.
Proof. revert b. induction l as [|x l IH]; intros b; [done|]. cbn [map fold_left fst]. apply IH. Qed.
Lemma apply_as_read wide said_ok from1 st c : printable wide said_ok c -> apply_command from1 st (as_read c) = apply_command from1 st c.
Proof.
  destruct 1 as [l H|v H|ver l ps ats Hl Hn (Hp & Hnd & Hps) Ha|k ver l ats Hk Hl Ht|k ver ats ps Hk Ht Hps|ver ats ps Ht Hps|ver l ats Hl Ht|ver s ats Hs Hok Ht|l Hn H|v]; try done.
  - cbn [as_read apply_command cmd_kind cmd_obj add_overlay ot_kind ct_props].
    assert (E : imap_remove "lang" (("lang", VVal l) :: last_first ps) = last_first ps) by (apply remove_first; by rewrite (last_first_perm ps)).
    rewrite E, remove_first by done. change (cmd_lang from1 (Some (("lang", VVal l) :: last_first ps))) with (from1 l). change (cmd_lang from1 (Some (("lang", VVal l) :: ps))) with (from1 l).
    apply add_metas_perm; [by apply last_first_perm|by rewrite (last_first_perm ps)|]. rewrite (last_first_perm ps). eapply Forall_impl; [exact Hps|]. intros kv [_ (s & E' & _)]. eauto.
  - destruct Hk as [-> | ->]; reflexivity.
  - assert (P : forall k', pre_errors k' (Some []) = pre_errors k' ps) by (intros k'; by destruct Hps as [-> | ->]).
    assert (E : apply_command from1 st (as_read (Command CAdd (OOverlay (OType k ver) (Content (Some ats) ps)))) = add_overlay from1 k (Content (Some ats) (Some (unwrap_or [] ps))) (unwrap_or box_new st))
      by (by destruct Hk as [-> |[-> |[-> |[-> |[-> | ->]]]]]).
    rewrite E. cbn [apply_command cmd_kind cmd_obj ot_kind]. assert (Hm : k <> KMeta) by (by destruct Hk as [-> |[-> |[-> |[-> |[-> | ->]]]]]).
    unfold add_overlay. destruct k; try done; cbn [ct_props ct_attrs unwrap_or]; (destruct Hps as [-> | ->]; [|reflexivity]); cbn [unwrap_or loops];
      by rewrite (upd_attrs_props from1 _ (Some []) None).
  - cbn [as_read apply_command cmd_kind cmd_obj ot_kind add_overlay ct_props ct_attrs unwrap_or loops]. destruct Hps as [-> | ->]; [|reflexivity]. cbn [unwrap_or].
    by rewrite (upd_attrs_props from1 _ (Some []) None).
  - cbn [as_read apply_command cmd_kind cmd_obj remove_capture cc_attrs cc_props unwrap_or]. unfold remove_capture. cbn [cc_attrs cc_props unwrap_or fold_left]. by rewrite remove_names.
Qed.

(** The same build, the recorded commands aside. *)
Definition step_data (s : bstep) : option string * bundle := (bs_parent s, bs_result s).
Definition same_build (x y : bresult) : Prop :=
  match x, y with
  | BuildOk B ss, BuildOk B' ss' => B = B' /\ map step_data ss = map step_data ss'
  | BuildErr es, BuildErr es' => map be_msg es = map be_msg es'
  | BuildPanic, BuildPanic => True
  | _, _ => False
  end.
Lemma loop_same (f : command -> command) digest from1 os cm cm' cs : Forall (fun c => forall st, apply_command from1 st (f c) = apply_command from1 st c) cs -> forall i st parent ss ss' es es',
  map step_data ss = map step_data ss' -> map be_msg es = map be_msg es' ->
  match build_loop digest from1 os cm i (map f cs) st parent ss es, build_loop digest from1 os cm' i cs st parent ss' es' with
  | Some (b, ss, es), Some (b', ss', es') => b = b' /\ map step_data ss = map step_data ss' /\ map be_msg es = map be_msg es'
  | None, None => True
  | _, _ => False
  end.
Proof.
  induction 1 as [|c cs Hc Hcs IH]; intros i st parent ss ss' es es' Hs He; [done|]. cbn [map build_loop]. rewrite (Hc st).
  destruct (apply_command from1 st c) as [bx|ms|]; [| |done].
  - destruct (generate_bundle digest (os i) bx); [|done]. apply IH; [|done]. rewrite !map_app, Hs. reflexivity.
  - apply IH; [done|]. rewrite !map_app, He. f_equal. by rewrite !map_map.
Qed.
Lemma build_same (f : command -> command) digest from1 os from a a' : Forall (fun c => forall st, apply_command from1 st (f c) = apply_command from1 st c) (ast_commands a) ->
  ast_commands a' = map f (ast_commands a) -> same_build (from_ast digest from1 os from a') (from_ast digest from1 os from a).
Proof.
  intros Hp E.
  assert (L : length (ast_commands a') = length (ast_commands a)) by (by rewrite E, map_length).
  assert (Base : forall st fr parent, same_build (from_ast_base digest from1 os st fr parent a') (from_ast_base digest from1 os st fr parent a)).
  { intros st fr parent. unfold from_ast_base. rewrite L, E.
    pose proof (loop_same f digest from1 os
      (fun i => unwrap_or default_meta (cmeta_get (if fr then S i else i) (ast_cmeta a'))) (fun i => unwrap_or default_meta (cmeta_get (if fr then S i else i) (ast_cmeta a)))
      (ast_commands a) Hp 0 st parent [] [] [] [] eq_refl eq_refl) as H.
    destruct (build_loop _ _ _ _ 0 (map f (ast_commands a)) _ _ _ _) as [[[b1 s1] e1]|]; destruct (build_loop _ _ _ _ 0 (ast_commands a) _ _ _ _) as [[[b2 s2] e2]|]; try done.
    destruct H as (<- & Hs & He). destruct e1 as [|x1 e1], e2 as [|x2 e2]; try done. destruct b1 as [bx|]; [|done]. destruct (generate_bundle digest _ bx); done. }
  unfold from_ast. destruct from as [B|]; [|apply Base]. rewrite L. destruct (load _ B); [|done]. apply Base.
Qed.
Lemma build_as_read wide said_ok digest from1 os from a a' : Forall (printable wide said_ok) (ast_commands a) -> ast_commands a' = map as_read (ast_commands a) ->
  same_build (from_ast digest from1 os from a') (from_ast digest from1 os from a).
Proof.
  intros Hp E. apply (build_same as_read); [|done]. eapply Forall_impl; [exact Hp|]. intros c Hc st. by eapply apply_as_read.
Qed.
