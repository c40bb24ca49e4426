(** Building transformations. *)
From Coq Require Import Lia.
From Verif Require Export TFile Spec_TFile.
From Verif Require Import Condition_proofs Peg_proofs Spec_Codec Codec_proofs Spec_BundleCodec BundleCodec_proofs.

(** ** Tables *)
Lemma firsts_in l x : x ∈ firsts l <-> x ∈ l.
Proof.
  revert x. induction l as [|y l IH]; intros x; [done|]. cbn [firsts]. rewrite !elem_of_cons, elem_of_list_filter, IH.
  destruct (decide (x = y)); tauto.
Qed.
Lemma firsts_nodup l : NoDup (firsts l).
Proof. induction l as [|y l IH]; [constructor|]. cbn [firsts]. constructor; [rewrite elem_of_list_filter; tauto|]. by apply NoDup_filter. Qed.
Lemma firsts_app l x : firsts (l ++ [x]) = if bool_decide (x ∈ l) then firsts l else firsts l ++ [x].
Proof.
  induction l as [|y l IH]; [done|]. cbn [app firsts]. rewrite IH. destruct (decide (x = y)) as [->|Hn].
  - rewrite (bool_decide_true (y ∈ y :: l)) by (apply elem_of_cons; by left). destruct (bool_decide (y ∈ l)); [done|]. f_equal. rewrite filter_app. cbn. rewrite decide_False by tauto. by rewrite app_nil_r.
  - destruct (decide (x ∈ l)) as [Hi|Hi].
    + rewrite !bool_decide_true by (try apply elem_of_cons; tauto). done.
    + rewrite !bool_decide_false; [|rewrite elem_of_cons; tauto|done]. cbn [app]. f_equal. rewrite filter_app. f_equal. cbn. by rewrite decide_True.
Qed.
Lemma final_app k ps x : final_value k (ps ++ [x]) = if String.eqb k x.1 then Some x.2 else final_value k ps.
Proof.
  unfold final_value. rewrite omap_app. cbn [omap list_omap]. destruct (String.eqb k x.1); [by rewrite last_snoc|by rewrite app_nil_r].
Qed.
Lemma final_some k ps : k ∈ map fst ps -> exists v, final_value k ps = Some v.
Proof.
  induction ps as [|x ps IH] using rev_ind; [intros H; by apply elem_of_nil in H|]. rewrite map_app, elem_of_app. rewrite final_app. intros [H|H].
  - destruct (String.eqb k x.1); eauto.
  - apply elem_of_list_singleton in H as ->. rewrite String.eqb_refl. eauto.
Qed.
Lemma insert_map (f g : string -> string) k v l : g k = v -> (forall x, x <> k -> g x = f x) -> NoDup l ->
  imap_insert k v (map (fun x => (x, f x)) l) = map (fun x => (x, g x)) (if bool_decide (k ∈ l) then l else l ++ [k]).
Proof.
  intros Hk Hf. induction l as [|y l IH]; intros Hn; [rewrite bool_decide_false by apply not_elem_of_nil; cbn; by rewrite Hk|]. apply NoDup_cons in Hn as [Hy Hn]. cbn [map imap_insert fst snd].
  destruct (String.eqb k y) eqn:E.
  - apply String.eqb_eq in E as <-. rewrite bool_decide_true by (apply elem_of_cons; by left). cbn [map]. rewrite Hk. f_equal.
    apply map_ext_in. intros x Hx. f_equal. symmetry. apply Hf. intros ->. by apply elem_of_list_In in Hx.
  - apply String.eqb_neq in E. rewrite IH by done. destruct (decide (k ∈ l)) as [Hi|Hi].
    + rewrite !bool_decide_true by (try apply elem_of_cons; tauto). cbn [map]. by rewrite (Hf y) by congruence.
    + rewrite !bool_decide_false; [|rewrite elem_of_cons; intros [?|?]; tauto|done]. cbn [app map]. by rewrite (Hf y) by congruence.
Qed.
Lemma table_fold ps : fold_left (fun m (kv : string * string) => imap_insert kv.1 kv.2 m) ps [] = table ps.
Proof.
  induction ps as [|x ps IH] using rev_ind; [done|]. rewrite fold_left_app, IH. cbn [fold_left]. unfold table. rewrite map_app. cbn [map].
  rewrite firsts_app.
  rewrite (insert_map (fun k => unwrap_or "" (final_value k ps)) (fun k => unwrap_or "" (final_value k (ps ++ [x]))) x.1 x.2 (firsts (map fst ps))).
  - by rewrite (bool_decide_ext _ _ (firsts_in (map fst ps) x.1)).
  - rewrite final_app, String.eqb_refl. done.
  - intros y Hy. rewrite final_app. apply String.eqb_neq in Hy. by rewrite Hy.
  - apply firsts_nodup.
Qed.
Lemma imap_get_map (f : string -> string) k l : imap_get k (map (fun x => (x, f x)) l) = if bool_decide (k ∈ l) then Some (f k) else None.
Proof.
  induction l as [|y l IH]; [done|]. cbn [map imap_get fst]. destruct (String.eqb k y) eqn:E.
  - apply String.eqb_eq in E as <-. rewrite bool_decide_true by (apply elem_of_cons; by left). done.
  - apply String.eqb_neq in E. rewrite IH. destruct (decide (k ∈ l)); [rewrite !bool_decide_true|rewrite !bool_decide_false]; try done; rewrite elem_of_cons; tauto.
Qed.
Lemma table_get ps k : imap_get k (table ps) = final_value k ps.
Proof.
  unfold table. rewrite (imap_get_map (fun k => unwrap_or "" (final_value k ps))). destruct (decide (k ∈ map fst ps)) as [H|H].
  - rewrite bool_decide_true by (by apply firsts_in). destruct (final_some k ps H) as [v ->]. done.
  - rewrite bool_decide_false by (by rewrite firsts_in). unfold final_value. rewrite (proj2 (last_None _)); [done|].
    clear -H. induction ps as [|x ps IH]; [done|]. cbn in H. apply not_elem_of_cons in H as [H1 H2]. cbn [omap list_omap]. apply String.eqb_neq in H1. rewrite H1. by apply IH.
Qed.
Lemma table_keys ps : map fst (table ps) = firsts (map fst ps).
Proof. unfold table. rewrite map_map. cbn. by rewrite map_id. Qed.
(** A table with distinct names is itself. *)
Lemma firsts_id l : NoDup l -> firsts l = l.
Proof.
  induction 1 as [|x l Hx Hl IH]; [done|]. cbn [firsts]. rewrite IH. f_equal. clear -Hx. induction l as [|y l IH]; [done|].
  apply not_elem_of_cons in Hx as [H1 H2]. rewrite filter_cons_True by congruence. by rewrite IH.
Qed.

(** ** [str::replace] *)
Lemma strip_free pat s : free_of pat s -> strip Ascii.eqb pat s = None.
Proof.
  intros H. destruct (strip Ascii.eqb pat s) as [[c r]|] eqn:E; [|done]. exfalso.
  assert (X : s = (pat +:+ r)%string). { clear H. revert s c E. induction pat as [|a p IH]; intros [|b s] c E; cbn in E; try done; try (by injection E as <- <-).
    destruct (Ascii.eqb a b) eqn:Eab; [|done]. apply Ascii.eqb_eq in Eab as <-. destruct (strip Ascii.eqb p s) as [[c' r']|] eqn:E'; [|done]. injection E as <- <-. cbn. f_equal. by eapply IH. }
  by apply (H "" r).
Qed.
Lemma remove_free_n n pat s : String.length s < n -> free_of pat s -> remove_all_from n pat s = s.
Proof.
  revert s. induction n as [|n IH]; intros s Hn H; [lia|]. cbn [remove_all_from]. rewrite strip_free by done. destruct s as [|c s]; [done|]. f_equal. apply IH; [cbn in Hn; lia|].
  intros a b E. apply (H (String c a) b). cbn. by rewrite E.
Qed.
Lemma strip_pre p r : strip Ascii.eqb p (p +:+ r) = Some (p, r).
Proof. induction p as [|a p IH]; [by destruct r|]. cbn. by rewrite Ascii.eqb_refl, IH. Qed.
Lemma remove_mono pat : pat <> "" -> forall n m s, String.length s < n -> String.length s < m -> remove_all_from n pat s = remove_all_from m pat s.
Proof.
  intros Hp. induction n as [|n IH]; intros m s H1 H2; [lia|]. destruct m as [|m]; [lia|]. cbn [remove_all_from]. destruct (strip Ascii.eqb pat s) as [[c r]|] eqn:E.
  - apply strip_split in E as [-> El]. rewrite length_append in *. destruct pat; [done|]. cbn in El. apply IH; lia.
  - destruct s as [|c s]; [done|]. f_equal. cbn in *. apply IH; lia.
Qed.
(** The leftmost occurrence goes, and the rest is treated in the same way. *)
Lemma remove_first pat a b : pat <> "" -> (forall x y, a = (x +:+ y)%string -> y <> "" -> strip Ascii.eqb pat (y +:+ pat +:+ b) = None) ->
  remove_all pat (a +:+ pat +:+ b) = (a +:+ remove_all pat b)%string.
Proof.
  intros Hp. unfold remove_all. induction a as [|c a IH]; intros H.
  - cbn [append]. change (remove_all_from (S (String.length (pat +:+ b))) pat (pat +:+ b)) with (match strip Ascii.eqb pat (pat +:+ b) with
      Some (_, r) => remove_all_from (String.length (pat +:+ b)) pat r
      | None => match (pat +:+ b)%string with "" => "" | String c s => String c (remove_all_from (String.length (pat +:+ b)) pat s) end end).
    rewrite strip_pre. apply remove_mono; [done| |lia]. rewrite length_append. destruct pat; [done|]. cbn. lia.
  - cbn [append String.length]. set (t := (a +:+ pat +:+ b)%string) in *. change (remove_all_from (S (S (String.length t))) pat (String c t)) with
      (match strip Ascii.eqb pat (String c t) with Some (_, r) => remove_all_from (S (String.length t)) pat r | None => String c (remove_all_from (S (String.length t)) pat t) end).
    rewrite (H "" (String c a) eq_refl ltac:(done) : strip Ascii.eqb pat (String c t) = None). f_equal. apply IH.
    intros x y -> Hy. by apply (H (String c x) y).
Qed.

(** ** [from_ast] *)
Lemma tapply_attrs b c : tapply (Some b) c = Transformation (tr_said b) (tr_source b) (tr_target b) (fold_left (fun m (kv : string * string) => imap_insert kv.1 kv.2 m) (stated c) (tr_attrs b)).
Proof. destruct b, c as [[] [[l|]|[l|]]]; done. Qed.
Lemma tapply_loop cs : forall b, fold_left (fun b c => Some (tapply b c)) cs (Some b) =
  Some (Transformation (tr_said b) (tr_source b) (tr_target b) (fold_left (fun m (kv : string * string) => imap_insert kv.1 kv.2 m) (concat (map stated cs)) (tr_attrs b))).
Proof.
  induction cs as [|c cs IH]; intros b; [by destruct b|]. cbn [fold_left map concat]. rewrite IH, tapply_attrs. cbn [tr_said tr_source tr_target tr_attrs]. by rewrite fold_left_app.
Qed.
Lemma tapply_none cs : cs <> [] -> fold_left (fun b c => Some (tapply b c)) cs None = fold_left (fun b c => Some (tapply b c)) cs (Some transformation_new).
Proof. destruct cs as [|c cs]; [done|]. intros _. done. Qed.

(** ** Every text has its removal, and only one *)
Lemma strip_is pat s c r : strip Ascii.eqb pat s = Some (c, r) -> s = (pat +:+ r)%string.
Proof.
  revert s c. induction pat as [|a p IH]; intros [|b s] c E; cbn in E; try done; try (by injection E as <- <-).
  destruct (Ascii.eqb a b) eqn:Eab; [|done]. apply Ascii.eqb_eq in Eab as <-. destruct (strip Ascii.eqb p s) as [[c' r']|] eqn:E'; [|done]. injection E as <- <-. cbn. f_equal. by eapply IH.
Qed.
Lemma removed_n pat n s : pat <> "" -> String.length s < n -> removed pat s (remove_all_from n pat s).
Proof.
  intros Hp. revert s. induction n as [|n IH]; intros s Hn; [lia|]. cbn [remove_all_from]. destruct (strip Ascii.eqb pat s) as [[c r]|] eqn:E.
  - apply strip_is in E. subst s. apply (removed_first pat "" r); [intros; cbn; lia|]. apply IH. rewrite length_append in Hn. destruct pat; [done|]. cbn in Hn. lia.
  - destruct s as [|c s]; [apply removed_none; intros a b X; destruct a; [destruct pat; done|done]|].
    assert (Hno : forall y, String c s <> (pat +:+ y)%string) by (intros y X; rewrite X, strip_pre in E; discriminate E).
    specialize (IH s ltac:(cbn in Hn; lia)). remember (remove_all_from n pat s) as s'. clear Heqs'. destruct IH as [s Hf|a b b' Hl Hr].
    + apply removed_none. intros [|x a] b X; [by apply (Hno b)|]. cbn in X. injection X as <- X. by apply (Hf a b).
    + apply (removed_first pat (String c a) b b'); [|done]. intros [|x a'] y X; [by destruct (Hno y)|]. cbn in X. injection X as <- X. cbn. specialize (Hl _ _ X). lia.
Qed.
Lemma append_inj_len a b x y : String.length a = String.length x -> (a +:+ b = x +:+ y)%string -> a = x /\ b = y.
Proof.
  revert x. induction a as [|c a IH]; intros [|d x] Hl E; cbn in *; try done. injection Hl as Hl. injection E as <- E. destruct (IH x Hl E) as [-> ->]. done.
Qed.
Lemma removed_fun pat s u v : removed pat s u -> removed pat s v -> u = v.
Proof.
  intros H. revert v. induction H as [s Hf|a b b' Hl _ IH]; intros v Hv.
  - inversion Hv as [? _ |a b b' ? ? E]; subst; [done|]. by destruct (Hf a b).
  - remember (a +:+ pat +:+ b)%string as s eqn:Es. destruct Hv as [s Hf|a2 b2 b2' Hl2 Hr2]; [by destruct (Hf a b)|].
    assert (String.length a = String.length a2) by (apply Nat.le_antisymm; [by eapply Hl|by eapply Hl2; rewrite <- Es]).
    symmetry in Es. destruct (append_inj_len _ _ _ _ H Es) as [-> E]. apply append_inj_len in E as [_ ->]; [|done]. f_equal. by apply IH.
Qed.
(** ** JSON *)
Lemma strs_map_inj l l' : strs_map_json l = strs_map_json l' -> l = l'.
Proof.
  intros E. apply (f_equal (fun j => match j with JObj l => l | _ => [] end)) in E. cbn in E. revert l' E. induction l as [|[k v] l IH]; intros [|[k' v'] l'] E; try done.
  cbn in E. injection E as -> -> E. f_equal. by apply IH.
Qed.
Lemma jopt_inj' a b : jopt a = jopt b -> a = b.
Proof. destruct a, b; cbn; try done. by intros [= ->]. Qed.
Lemma transformation_json_inj d d' t t' : transformation_json_d d t = transformation_json_d d' t' -> d = d' /\ tr_source t = tr_source t' /\ tr_target t = tr_target t' /\ tr_attrs t = tr_attrs t'.
Proof.
  intros E. apply (f_equal (fun j => match j with JObj l => l | _ => [] end)) in E. unfold transformation_json_d in E.
  apply cons_inj in E as [E0 E]. apply cons_inj in E as [E1 E]. apply cons_inj in E as [E2 E]. apply cons_inj in E as [E3 _].
  apply pair_inj in E0 as [_ E0]. apply pair_inj in E1 as [_ E1]. apply pair_inj in E2 as [_ E2]. apply pair_inj in E3 as [_ E3].
  split_and!; [done|by apply jopt_inj'|by apply jopt_inj'|by apply strs_map_inj].
Qed.
Lemma transformation_eq t t' : transformation_json t = transformation_json t' -> t = t'.
Proof.
  intros E. apply transformation_json_inj in E as (E0 & E1 & E2 & E3). apply jopt_inj' in E0. destruct t, t'. cbn in *. by subst.
Qed.
Lemma strs_map_round l : NoDup (map fst l) -> imap_parse str_parse (strs_map_json l) = Ok l.
Proof.
  intros H. change (strs_map_json l) with (imap_json JStr l). rewrite (parse_pairs_round str_parse JStr (fun s => s)); [|done|done].
  f_equal. transitivity (map (fun x : string * string => x) l); [|apply map_id]. apply map_ext. by intros [].
Qed.
Lemma jopt_str s : opt_parse str_parse (Some (jopt s)) = Ok s.
Proof. by destruct s. Qed.
Lemma transformation_round said_ok t : (forall s, tr_said t = Some s -> said_ok s = true) -> NoDup (map fst (tr_attrs t)) ->
  transformation_parse said_ok (transformation_json t) = Ok t.
Proof.
  intros Hs Hn. unfold transformation_json, transformation_json_d, transformation_parse, optional, required, field. cbn -[opt_parse imap_parse strs_map_json].
  rewrite jopt_round by done. cbn [obind]. rewrite !jopt_str. cbn [obind]. rewrite strs_map_round by done. cbn [obind]. by destruct t.
Qed.
Lemma tcontent_round l : NoDup (map fst l) -> tcontent_parse (JObj [("attributes", strs_map_json l)]) = Ok (Some l).
Proof. intros H. unfold tcontent_parse, optional, field. cbn -[opt_parse imap_parse strs_map_json]. unfold opt_parse. by rewrite strs_map_round. Qed.
