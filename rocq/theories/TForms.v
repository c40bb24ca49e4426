(** What the parsers of transformations and of the metadata can yield. *)
From Coq Require Import Lia.
From Verif Require Import PegShape OcaShape OcaForms Spec_OcaFile Spec_Read TGrammar_proofs Spec_TFile.
From Verif Require Export Spec_TRead.

Section TForms.
Variable d : bool.
Variable wide : ascii -> bool.
Notation G := (tgrammar d wide).
Notation W := (wft G).
Ltac tkids H := let Hs := fresh "Hs" in let Hk := fresh "Hk" in let Hm := fresh "Hm" in
  match type of H with wft _ (Pair ?r ?c ?ts) =>
    destruct (wft_fits G no_forb r c ts _ H (clean_none c) ltac:(destruct d; vm_compute; reflexivity)) as (Hs & Hk & Hm) end.
Ltac cases H := cbn [In p_rule] in H; repeat (destruct H as [H|H]; [try subst|]); [..|destruct H].

Lemma tkin (ts : list tpair) q l : Forall (fun p : tpair => In (p_rule p) l) ts -> q ∈ ts -> In (p_rule q) l.
Proof. intros H Hq. rewrite Forall_forall in H. by apply H. Qed.
Lemma tcls_inv at_ f s c ts r : ev G at_ (PCls f) s (Some (c, ts, r)) -> exists x, c = String x "" /\ f x = true /\ ts = [].
Proof. inversion 1; subst. by eexists. Qed.
Lemma tstar_cls at_ f s o : ev G at_ (PStar (PCls f)) s o -> forall c ts r, o = Some (c, ts, r) -> all_chars f c = true /\ ts = [].
Proof.
  intros H. remember (PStar (PCls f)) as e eqn:Ee. revert Ee.
  induction H as [| | | | | | | | | | | | | |at_ a s H1 _|at_ a s c ts r c' ts' r' H1 _ H2 IH2| | | | | |]; intros Ee c0 t0 r0 Eo; try done.
  - by injection Eo as <- <- <-.
  - injection Ee as ->. injection Eo as <- <- <-. destruct (IH2 eq_refl _ _ _ eq_refl) as [A ->]. apply tcls_inv in H1 as (x & -> & Hx & ->).
    split; [|done]. cbn. by rewrite Hx, A.
Qed.
Ltac body H := inversion H as [rr mm bb ss cc tt rest Hg He Hw Hi]; subst; cbn in Hg; injection Hg as <- <-; cbn [rinside] in He.
Lemma tattr_key_text c ts : W (Pair Tattr_key c ts) -> tname_ok c.
Proof.
  intros H. body H. inversion He as [| | | | | | | | |a1 e1 e2 s1 c1 t1 r1 c2 t2 r2 E1 E2| | | | | | | | | | | |]; subst.
  apply tcls_inv in E1 as (x & -> & Hx & ->). destruct (tstar_cls _ _ _ _ E2 _ _ _ eq_refl) as [A ->]. split; [done|]. cbn. by rewrite Hx, A.
Qed.
Lemma tmeta_key_text c ts : W (Pair Tmeta_attr_key c ts) -> c ∈ meta_keys.
Proof.
  intros H. body H. cbn [PAlts] in He.
  assert (Alt : forall a b x, ev G false (PAlt a b) ss (Some x) -> ev G false a ss (Some x) \/ ev G false b ss (Some x)) by (inversion 1; subst; auto).
  assert (Lit : forall p, ev G false (PLit p) ss (Some (c, ts, rest)) -> c = p) by (inversion 1; subst; by eapply strip_eq).
  repeat (apply Alt in He as [He|He]; [apply Lit in He as ->; apply (bool_decide_unpack _); vm_compute; exact I|]).
  apply Lit in He as ->; apply (bool_decide_unpack _); vm_compute; exact I.
Qed.

(** Metadata lines. *)
Lemma tmeta_items_form l : Forall (fun p => W p /\ In (p_rule p) [Tmeta_attr_key; Tmeta_attr_value]) l -> forall k v kv, tmeta_items l k v = Ok kv ->
  (k = "" \/ k ∈ meta_keys) -> kv.1 = "" \/ kv.1 ∈ meta_keys.
Proof.
  induction 1 as [|[r t i] l [Hw Hr] _ IH]; intros k v kv E Hk; cbn [tmeta_items] in E; [by injection E as <-|]. cases Hr; cbn [p_rule] in *; subst.
  - eapply IH; [exact E|]. right. by apply tmeta_key_text in Hw.
  - by eapply IH.
Qed.
Lemma tmeta_line_form p kv : W p -> p_rule p = Tmeta_comment -> tmeta_line p = Ok kv -> kv.1 ∈ meta_keys /\ kv.2 <> "".
Proof.
  destruct p as [r c ts]. cbn [p_rule]. intros H -> E. pose proof (wft_inner _ _ H) as Hi. cbn [p_inner] in Hi. tkids H. unfold tmeta_line in E. cbn [p_inner] in E.
  destruct (tmeta_items ts "" "") as [x| |] eqn:Ex; cbn [obind] in E; [|done|done]. apply tmeta_items_form in Ex; [| |by left].
  - destruct (String.eqb_spec x.1 ""); [done|]. destruct (String.eqb_spec x.2 ""); [done|]. injection E as <-. destruct Ex; [done|]. by split.
  - apply Forall_forall. intros q Hq. rewrite Forall_forall in Hi, Hk. split; [by apply Hi|by apply Hk].
Qed.
Lemma tmeta_items_panic l k v : tmeta_items l k v <> Panic.
Proof. revert k v. induction l as [|[r t i] l IH]; intros k v; cbn [tmeta_items]; [done|]. by destruct r. Qed.
Lemma tmeta_line_panic p : tmeta_line p <> Panic.
Proof.
  unfold tmeta_line. destruct (tmeta_items _ _ _) as [x| |] eqn:E; cbn [obind]; [|done|by apply tmeta_items_panic in E].
  destruct (String.eqb _ _); [done|]. by destruct (String.eqb _ _).
Qed.
Lemma dispatch_panic l m : dispatch_meta l m <> Panic.
Proof.
  revert m. induction l as [|p l IH]; intros m; cbn [dispatch_meta]; [done|]. destruct (p_rule p); try apply IH.
  destruct (tmeta_line p) as [x| |] eqn:E; cbn [obind]; [apply IH|done|by apply tmeta_line_panic in E].
Qed.
Lemma dispatch_form l : Forall W l -> forall m m', dispatch_meta l m = Ok m' -> tmetadata_form m -> tmetadata_form m'.
Proof.
  induction 1 as [|p l Hw _ IH]; intros m m' E Hm; cbn [dispatch_meta] in E; [by injection E as <-|].
  destruct (p_rule p) eqn:Er; try (by eapply IH). destruct (tmeta_line p) as [x| |] eqn:Ex; cbn [obind] in E; [|done|done]. eapply IH; [exact E|].
  pose proof (tmeta_line_form _ _ Hw Er Ex) as [A B]. intros k v. destruct (decide (k = x.1)) as [->|N]; [rewrite lookup_insert; by intros [= <-]|rewrite lookup_insert_ne by done; apply Hm].
Qed.

(** Renamings. *)
Lemma rename_items_form l : Forall W l -> forall n v x, rename_items l n v = Ok x -> (forall a, n = Some a -> tname_ok a) -> (forall a, v = Some a -> tname_ok a) ->
  (forall a, x.1 = Some a -> tname_ok a) /\ (forall a, x.2 = Some a -> tname_ok a).
Proof.
  induction 1 as [|[r t i] l Hw _ IH]; intros n v x E Hn Hv; cbn [rename_items] in E; [by injection E as <-|]. destruct r; try done. apply tattr_key_text in Hw.
  destruct n as [a|]; (eapply IH; [exact E| |]); try done; by intros b [= <-].
Qed.
Lemma rename_items_panic (l : list tpair) : forall n v, rename_items l n v <> Panic.
Proof. induction l as [|[r t i] l IH]; intros n v; cbn [rename_items]; [done|]. destruct r; try done. by destruct n. Qed.
Lemma extract_rename_panic p : extract_rename p <> Panic.
Proof. unfold extract_rename. destruct (rename_items _ _ _) as [[[a|] [b|]]| |] eqn:E; cbn [obind]; try done. by apply rename_items_panic in E. Qed.
Lemma insert_renames_panic l : forall acc, insert_renames l acc <> Panic.
Proof. induction l as [|p l IH]; intros acc; cbn [insert_renames]; [done|]. destruct (extract_rename p) eqn:E; cbn [obind]; [apply IH|done|by apply extract_rename_panic in E]. Qed.
Lemma rename_pairs_panic ok l : forall acc, rename_pairs ok l acc <> Panic.
Proof.
  induction l as [|p l IH]; intros acc; cbn [rename_pairs]; [done|]. destruct (ok _); [|done].
  destruct (insert_renames _ _) eqn:E; cbn [obind]; [apply IH|done|by apply insert_renames_panic in E].
Qed.
Lemma extract_rename_form p kv : W p -> extract_rename p = Ok kv -> tname_ok kv.1 /\ tname_ok kv.2.
Proof.
  intros Hw E. unfold extract_rename in E. destruct (rename_items (p_inner p) None None) as [x| |] eqn:Ex; cbn [obind] in E; [|done|done].
  apply rename_items_form in Ex as [A B]; [|by apply wft_inner|done|done]. destruct x as [[a|] [b|]]; try done. injection E as <-. split; [by apply A|by apply B].
Qed.
Lemma insert_renames_form l : Forall W l -> forall acc m, map_form tname_ok tname_ok acc -> insert_renames l acc = Ok m -> map_form tname_ok tname_ok m.
Proof.
  induction 1 as [|p l Hw _ IH]; intros acc m Ha E; cbn [insert_renames] in E; [by injection E as <-|].
  destruct (extract_rename p) as [kv| |] eqn:Ek; cbn [obind] in E; [|done|done]. apply extract_rename_form in Ek as [A B]; [|done].
  eapply IH; [|exact E]. by apply insert_form.
Qed.
Lemma rename_pairs_form ok l : Forall W l -> forall acc m, map_form tname_ok tname_ok acc -> rename_pairs ok l acc = Ok m -> map_form tname_ok tname_ok m.
Proof.
  induction 1 as [|p l Hw _ IH]; intros acc m Ha E; cbn [rename_pairs] in E; [by injection E as <-|]. destruct (ok _); [|done].
  destruct (insert_renames _ _) as [a1| |] eqn:Ek; cbn [obind] in E; [|done|done]. eapply IH; [|exact E]. eapply insert_renames_form; [by apply wft_inner|exact Ha|done].
Qed.
Lemma rename_objects_form ok pok mk l : Forall W l -> forall o o', (forall x, o = Some x -> exists m, x = mk (Some m) /\ map_form tname_ok tname_ok m) ->
  rename_objects ok pok mk l o = Ok o' -> exists m, o' = mk (Some m) /\ map_form tname_ok tname_ok m.
Proof.
  induction 1 as [|p l Hw _ IH]; intros o o' Ho E; cbn [rename_objects] in E.
  - destruct o as [x|]; [|done]. injection E as <-. by apply Ho.
  - destruct (ok _); [|done]. destruct (rename_pairs _ _ _) as [m| |] eqn:Em; cbn [obind] in E; [|done|done]. eapply IH; [|exact E].
    intros x [= <-]. exists m. split; [done|]. eapply rename_pairs_form; [by apply wft_inner|apply empty_form|done].
Qed.
Lemma rename_objects_panic ok pok mk l : forall o, rename_objects ok pok mk l o = Panic -> o = None /\ l = [].
Proof.
  induction l as [|p l IH]; intros o E; cbn [rename_objects] in E; [by destruct o|]. destruct (ok _); [|done].
  destruct (rename_pairs _ _ _) as [m| |] eqn:Em; cbn [obind] in E; [|done|by apply rename_pairs_panic in Em]. by apply IH in E as [? _].
Qed.
Lemma tinstruction_form p c : W p -> tinstruction p = Ok c -> treadable c.
Proof.
  intros Hw E. unfold tinstruction in E. destruct (p_rule p); try done.
  all: destruct (rename_objects _ _ _ _ _) as [o| |] eqn:Eo; cbn [obind] in E; [|done|done]; injection E as <-;
    apply rename_objects_form in Eo as (m & -> & Hm); [|by apply wft_inner|done]; by constructor.
Qed.
Lemma tinstruction_panic p : W p -> tinstruction p <> Panic.
Proof.
  destruct p as [r c ts]. intros Hw E. unfold tinstruction in E. cbn [p_rule p_inner] in E. destruct r; try done.
  all: destruct (rename_objects _ _ _ _ _) as [o| |] eqn:Eo; cbn [obind] in E; try done; apply rename_objects_panic in Eo as [_ ->]; tkids Hw; by apply Hs.
Qed.
Lemma tlines_form l : Forall W l -> forall n a a', tread_lines n l a = Ok a' -> Forall treadable (ta_commands a) -> tmetadata_form (ta_meta a) ->
  Forall treadable (ta_commands a') /\ tmetadata_form (ta_meta a') /\ ta_version a' = ta_version a.
Proof.
  induction 1 as [|p l Hw _ IH]; intros n a a' E Hc Hm; cbn [tread_lines] in E; [by injection E as <-|].
  assert (Cmd : forall (X : (let! c := tinstruction p in let! _ := tvalidate a c in tread_lines (S n) l (tpush a c (CmdMeta (S n) (p_text p)))) = Ok a'),
    Forall treadable (ta_commands a') /\ tmetadata_form (ta_meta a') /\ ta_version a' = ta_version a).
  { clear E. intros E. destruct (tinstruction p) as [c| |] eqn:Ei; cbn [obind] in E; [|done|done]. destruct (tvalidate a c); cbn [obind] in E; [|done|done].
    apply IH in E; [exact E| |exact Hm]. cbn [tpush ta_commands]. apply Forall_app. split; [done|]. apply Forall_cons. split; [by eapply tinstruction_form|done]. }
  destruct (p_rule p) eqn:Er; try (by apply Cmd); try (by eapply IH).
  destruct (tmeta_line p) as [x| |] eqn:Ex; cbn [obind] in E; [|done|done]. apply IH in E; [exact E|exact Hc|]. cbn [ta_meta].
  pose proof (tmeta_line_form _ _ Hw Er Ex) as [A B]. intros k v. destruct (decide (k = x.1)) as [->|N]; [rewrite lookup_insert; by intros [= <-]|rewrite lookup_insert_ne by done; apply Hm].
Qed.
Lemma tlines_panic l : Forall W l -> forall n a, tread_lines n l a <> Panic.
Proof.
  induction 1 as [|p l Hw _ IH]; intros n a E; cbn [tread_lines] in E; [done|].
  assert (Cmd : (let! c := tinstruction p in let! _ := tvalidate a c in tread_lines (S n) l (tpush a c (CmdMeta (S n) (p_text p)))) <> Panic).
  { clear E. intros E. destruct (tinstruction p) as [c| |] eqn:Ei; cbn [obind] in E; [|done|by apply tinstruction_panic in Ei].
    unfold tvalidate in E. destruct (String.eqb _ _); cbn [obind] in E; [by apply IH in E|]. by destruct (String.eqb _ _). }
  destruct (p_rule p) eqn:Er; try (by apply Cmd); try (by eapply IH).
  destruct (tmeta_line p) as [x| |] eqn:Ex; cbn [obind] in E; [by apply IH in E|done|by apply tmeta_line_panic in Ex].
Qed.
Lemma tfile_tree s c ts rest : tparse d wide Tfile s = PDone c ts rest -> exists f ts', ts = f :: ts' /\ W f.
Proof.
  intros E. assert (V : ev G false (PRul Tfile) s (Some (c, ts, rest))).
  { destruct (tparse_unfold d wide Tfile s) as (n & _ & En). rewrite En in E. apply (run_ev _ n). by rewrite E. }
  destruct (ev_wft _ _ _ _ _ V _ _ _ eq_refl) as [Hw _]. destruct ts as [|f ts].
  - exfalso. destruct (emit_sound _ no_forb _ _ _ _ V 6 _ _ _ _ eq_refl ltac:(destruct d; vm_compute; reflexivity) (clean_none _)) as [X _]. by apply X.
  - exists f, ts. split; [done|]. by inversion Hw.
Qed.
End TForms.
Lemma tfile_form wide s a : parse_transformation wide s = Ok a -> Forall treadable (ta_commands a) /\ tmetadata_form (ta_meta a) /\ ta_version a = "1.0.0".
Proof.
  unfold parse_transformation. destruct (tparse false wide Tfile s) as [| |c ts rest] eqn:E; try done. apply tfile_tree in E as (f & ts' & -> & Hf).
  intros H. apply (tlines_form false wide) in H; [exact H|by apply wft_inner|by constructor|intros k v; cbn; rewrite lookup_empty; done].
Qed.
Lemma tfile_panic wide s : parse_transformation wide s <> Panic.
Proof.
  unfold parse_transformation. destruct (tparse false wide Tfile s) as [| |c ts rest] eqn:E; try done. apply tfile_tree in E as (f & ts' & -> & Hf).
  apply (tlines_panic false wide). by apply wft_inner.
Qed.
Lemma precompiler_panic wide s : file_precompiler wide s <> Panic.
Proof.
  unfold file_precompiler. destruct (tparse true wide Tfile s) as [| |c ts rest] eqn:E; try done. apply tfile_tree in E as (f & ts' & -> & Hf).
  destruct (dispatch_meta _ _) eqn:Ed; cbn [obind]; try done. by apply dispatch_panic in Ed.
Qed.
