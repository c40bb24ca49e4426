From Verif Require Import Condition Condition_proofs Spec_Condition.
From Coq Require Import Lia.

Definition to_piece (t : token) : piece := match t with TLit c => PChar c | TVar n => PName n end.

Lemma append_inj_l a b c : (a +:+ b)%string = (a +:+ c)%string -> b = c.
Proof. induction a as [|x a IH]; simpl; [done|]. intros [= H]. auto. Qed.

Lemma reads_clean ts : clean ts -> reads (untoken ts) (map to_piece ts).
Proof.
  induction ts as [|[c|n] ts IH]; simpl; [constructor| |].
  - intros [H Hc]. apply reads_char; [|auto].
    intros n rest [E Hn]. simpl in E. injection E as -> E.
    specialize (H eq_refl _ E). rewrite split_rbrace_app in H; done.
  - intros [Hn Hc]. eapply reads_name; [|by apply IH]. split; [|done].
    unfold wrap_var. by rewrite !append_assoc.
Qed.
Lemma reads_tokens c : reads c (map to_piece (tokens_names c)).
Proof.
  rewrite <- (tokens_names_untoken c) at 1. apply reads_clean.
  by apply tokens_names_clean.
Qed.
Lemma starts_fun s n r n' r' : starts_placeholder s n r -> starts_placeholder s n' r' -> n = n' /\ r = r'.
Proof.
  intros [-> Hn] [E Hn']. simpl in E. injection E as E.
  pose proof (split_rbrace_app n r Hn) as H1. pose proof (split_rbrace_app n' r' Hn') as H2.
  assert (E' : (n +:+ String rbrace r)%string = (n' +:+ String rbrace r')%string) by exact E.
  rewrite E' in H1. rewrite H1 in H2. by injection H2.
Qed.
Lemma reads_fun s ps : reads s ps -> forall qs, reads s qs -> ps = qs.
Proof.
  induction 1 as [|s n rest ps Hs Hr IH|c s ps Hs Hr IH]; intros qs Hq.
  - inversion Hq as [|s' n rest ps' Hs'|]; subst; [done|]. destruct Hs' as [E _]; done.
  - inversion Hq as [|s' n' rest' ps' Hs' Hr'|c s' ps' Hs' Hr']; subst.
    + by destruct Hs as [E _].
    + destruct (starts_fun _ _ _ _ _ Hs Hs') as [-> ->]. f_equal. by apply IH.
    + by apply Hs' in Hs.
  - inversion Hq as [|s' n' rest' ps' Hs' Hr'|c' s' ps' Hs' Hr']; subst.
    + by apply Hs in Hs'.
    + f_equal. by apply IH.
Qed.
Lemma elem_to_piece n ts : TVar n ∈ ts <-> PName n ∈ map to_piece ts.
Proof.
  induction ts as [|[c|m] ts IH]; simpl; [by rewrite !elem_of_nil| |]; rewrite !elem_of_cons; naive_solver.
Qed.
Lemma deps_names c ps n : reads c ps -> n ∈ (encode_condition c).2 <-> PName n ∈ ps.
Proof.
  intros H. rewrite (reads_fun _ _ H _ (reads_tokens c)). rewrite encode_deps_elem. apply elem_to_piece.
Qed.

(** The stored text. *)
Lemma enc_tokens_render ts : forall deps, NoDup deps ->
  (encode_tokens ts deps).1 =
  render (fun n => wrap_var (match position n (encode_tokens ts deps).2 with Some i => dec_of_nat i | None => "" end))
         (map to_piece ts).
Proof.
  assert (Hpos : forall l k x i, position x l = Some i -> position x (l ++ k) = Some i).
  { induction l as [|y l IH]; intros k x i; simpl; [done|].
    destruct (String.eqb x y); [done|]. destruct (position x l) eqn:E; [|done]. by rewrite (IH k _ _ E). }
  assert (Hnew : forall l x, position x l = None -> position x (l ++ [x]) = Some (length l)).
  { induction l as [|y l IH]; intros x; simpl; [by rewrite String.eqb_refl|].
    destruct (String.eqb x y); [done|]. destruct (position x l) eqn:E; [done|]. by rewrite IH. }
  assert (Hpre : forall ts deps, exists k, (encode_tokens ts deps).2 = deps ++ k).
  { clear ts. induction ts as [|[c|n] ts IH]; intros deps; simpl.
    - exists []. by rewrite app_nil_r.
    - destruct (IH deps) as [k Hk]. destruct (encode_tokens ts deps). simpl in *. by exists k.
    - destruct (position n deps).
      + destruct (IH deps) as [k Hk]. destruct (encode_tokens ts deps). simpl in *. by exists k.
      + destruct (IH (deps ++ [n])) as [k Hk]. destruct (encode_tokens ts (deps ++ [n])). simpl in *.
        exists (n :: k). by rewrite Hk, <- app_assoc. }
  induction ts as [|[c|n] ts IH]; intros deps Hd; simpl; [done| |].
  - specialize (IH deps Hd). destruct (encode_tokens ts deps) as [s d]. simpl in *. by rewrite IH.
  - destruct (position n deps) as [i|] eqn:E.
    + specialize (IH deps Hd). destruct (Hpre ts deps) as [k Hk].
      destruct (encode_tokens ts deps) as [s d]. simpl in *. subst d. rewrite (Hpos _ k _ _ E). by rewrite IH.
    + assert (Hd' : NoDup (deps ++ [n])).
      { apply NoDup_app. split; [done|]. split; [|apply NoDup_singleton].
        intros x Hx. rewrite elem_of_list_singleton. intros ->. by apply position_none in E. }
      specialize (IH _ Hd'). destruct (Hpre ts (deps ++ [n])) as [k Hk].
      destruct (encode_tokens ts (deps ++ [n])) as [s d]. simpl in *. subst d.
      rewrite (Hpos _ k _ _ (Hnew _ _ E)). by rewrite IH.
Qed.

Lemma render_ext f g ps : (forall n, PName n ∈ ps -> f n = g n) -> render f ps = render g ps.
Proof.
  induction ps as [|[c|n] ps IH]; intros H; simpl; [done| |].
  - f_equal. apply IH. intros m Hm. apply H. by apply elem_of_list_further.
  - rewrite (H n) by apply elem_of_list_here. f_equal. apply IH. intros m Hm. apply H. by apply elem_of_list_further.
Qed.
Lemma position_elem x l : x ∈ l -> exists i, position x l = Some i.
Proof. intros H. destruct (position x l) eqn:E; [eauto|]. by apply position_none in E. Qed.

Lemma C08_proof c : exists ps idx,
  reads c ps /\ (forall qs, reads c qs -> qs = ps) /\
  NoDup (encode_condition c).2 /\
  (forall n, n ∈ (encode_condition c).2 <-> PName n ∈ ps) /\
  (forall n, PName n ∈ ps -> (encode_condition c).2 !! idx n = Some n) /\
  (encode_condition c).1 = render (fun n => "${" +:+ dec_of_nat (idx n) +:+ "}")%string ps /\
  decode_condition (encode_condition c).1 (encode_condition c).2 = Some c.
Proof.
  exists (map to_piece (tokens_names c)), (fun n => unwrap_or 0 (position n (encode_condition c).2)).
  split; [apply reads_tokens|]. split; [intros qs Hq; by rewrite (reads_fun _ _ Hq _ (reads_tokens c))|].
  split; [apply encode_deps_nodup|]. split; [intros n; apply deps_names, reads_tokens|].
  split; [|split; [|apply decode_encode_condition]].
  - intros n Hn. apply (deps_names c _ n (reads_tokens c)) in Hn. destruct (position_elem _ _ Hn) as [i Hi].
    rewrite Hi. simpl. by apply position_lookup.
  - unfold encode_condition at 1. rewrite enc_tokens_render by apply NoDup_nil_2.
    apply render_ext. intros n Hn. apply (deps_names c _ n (reads_tokens c)) in Hn.
    destruct (position_elem _ _ Hn) as [i Hi]. unfold encode_condition in *. by rewrite Hi.
Qed.

Lemma subst_render (vals : gmap string string) ts :
  (forall n, TVar n ∈ ts -> is_Some (vals !! n)) ->
  subst_names (fun n => vals !! n) ts = Some (render (fun n => unwrap_or "" (vals !! n)) (map to_piece ts)).
Proof.
  induction ts as [|[c|n] ts IH]; intros H; simpl; [done| |].
  - rewrite IH; [done|]. intros m Hm. apply H. by apply elem_of_list_further.
  - destruct (H n) as [v Hv]; [apply elem_of_list_here|]. rewrite Hv. simpl.
    rewrite IH; [done|]. intros m Hm. apply H. by apply elem_of_list_further.
Qed.

Section Lua.
Context (lua : string -> bool + string).
Lemma C09_ok attr c ps vals :
  reads c ps -> PName attr ∉ ps -> (forall n, PName n ∈ ps -> is_Some (vals !! n)) ->
  check_condition lua attr (Some (encode_condition c).1) (Some (encode_condition c).2) vals =
  match lua ("return " +:+ render (fun n => unwrap_or "" (vals !! n)) ps)%string with
  | inl b => Ok b
  | inr e => Err [("Attribute '" +:+ attr +:+ "' has invalid condition: " +:+ e)%string]
  end.
Proof.
  intros Hr Hs Hv. unfold check_condition.
  assert (existsb (String.eqb attr) (encode_condition c).2 = false) as ->.
  { apply Bool.not_true_is_false. intros H. apply existsb_exists in H as (x & Hx & He).
    apply String.eqb_eq in He as <-. apply elem_of_list_In in Hx. rewrite (deps_names c ps) in Hx by done. done. }
  assert (List.filter (fun d => negb (is_some_b (vals !! d))) (encode_condition c).2 = []) as ->.
  { destruct (List.filter _ _) as [|x l] eqn:E; [done|]. exfalso.
    assert (Hx : In x (x :: l)) by (by left). rewrite <- E in Hx. apply filter_In in Hx as [Hx Hn].
    apply elem_of_list_In in Hx. rewrite (deps_names c ps) in Hx by done.
    destruct (Hv _ Hx) as [v Hv']. rewrite Hv' in Hn. done. }
  simpl. rewrite encode_script. rewrite (reads_fun _ _ Hr _ (reads_tokens c)).
  rewrite subst_render; [done|]. intros n Hn. apply Hv. rewrite (reads_fun _ _ Hr _ (reads_tokens c)).
  by apply elem_to_piece.
Qed.
Lemma C09_err attr c ps vals :
  reads c ps -> (PName attr ∈ ps \/ exists n, PName n ∈ ps /\ vals !! n = None) ->
  exists es, check_condition lua attr (Some (encode_condition c).1) (Some (encode_condition c).2) vals = Err es /\
    (forall e, e ∈ es <->
       (PName attr ∈ ps /\ e = ("Attribute '" +:+ attr +:+ "' cannot be a dependency of itself")%string) \/
       (exists n, PName n ∈ ps /\ vals !! n = None /\ e = ("Missing dependency '" +:+ n +:+ "' value")%string)).
Proof.
  intros Hr H. unfold check_condition.
  set (e1 := if existsb (String.eqb attr) (encode_condition c).2 then _ else []).
  set (e2 := map _ (List.filter _ (encode_condition c).2)).
  assert (H1 : forall e, e ∈ e1 <-> (PName attr ∈ ps /\ e = ("Attribute '" +:+ attr +:+ "' cannot be a dependency of itself")%string)).
  { intros e. unfold e1. rewrite <- (deps_names c ps attr Hr).
    destruct (existsb (String.eqb attr) (encode_condition c).2) eqn:E.
    - rewrite elem_of_list_singleton. apply existsb_exists in E as (x & Hx & He).
      apply String.eqb_eq in He as <-. apply elem_of_list_In in Hx. naive_solver.
    - rewrite elem_of_nil. split; [done|]. intros [Hin _].
      assert (existsb (String.eqb attr) (encode_condition c).2 = true); [|congruence].
      apply existsb_exists. exists attr. split; [by apply elem_of_list_In|]. apply String.eqb_refl. }
  assert (H2 : forall e, e ∈ e2 <-> (exists n, PName n ∈ ps /\ vals !! n = None /\ e = ("Missing dependency '" +:+ n +:+ "' value")%string)).
  { intros e. unfold e2. rewrite elem_of_list_In, in_map_iff. split.
    - intros (n & <- & Hn). apply filter_In in Hn as [Hn Hv]. apply elem_of_list_In in Hn.
      rewrite (deps_names c ps) in Hn by done. exists n. destruct (vals !! n); [done|]. done.
    - intros (n & Hn & Hv & ->). exists n. split; [done|]. apply filter_In. split.
      + apply elem_of_list_In. by rewrite (deps_names c ps).
      + by rewrite Hv. }
  assert (Hne : e1 ++ e2 <> []).
  { destruct H as [Ha|(n & Hn & Hv)]; intros E; apply app_eq_nil in E as [E1 E2].
    - eapply (elem_of_nil (A:=string)). rewrite <- E1. apply H1. eauto.
    - eapply (elem_of_nil (A:=string)). rewrite <- E2. apply H2. eauto. }
  exists (e1 ++ e2). split.
  - destruct (e1 ++ e2); done.
  - intros e. by rewrite elem_of_app, H1, H2.
Qed.
End Lua.
