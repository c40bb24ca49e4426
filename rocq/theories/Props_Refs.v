(** C25: local reference resolution. *)
From Verif Require Import Base Ast Spec_Refs Runs Facade Spec_Facade Facade_proofs Props_Storage Build Spec_Build Props_Build Props_Bundle Props_Dag Props_BundleCodec Props_Codec Props_History Text.

Lemma get_split {V} k (l : imap V) v : imap_get k l = Some v -> exists pre post, l = pre ++ (k, v) :: post /\ k ∉ pre.*1.
Proof.
  induction l as [|[k' v'] l IH]; [done|]. cbn. destruct (String.eqb_spec k k') as [->|N]; intros H.
  - injection H as ->. exists [], l. split; [done|]. cbn. by apply not_elem_of_nil.
  - destruct (IH H) as (pre & post & -> & Hn). exists ((k', v') :: pre), post. split; [done|]. cbn. apply not_elem_of_cons. done.
Qed.
Lemma split_get {V} k (pre post : imap V) v : k ∉ pre.*1 -> imap_get k (pre ++ (k, v) :: post) = Some v.
Proof.
  induction pre as [|[k' v'] pre IH]; intros H; cbn.
  - by rewrite String.eqb_refl.
  - cbn in H. apply not_elem_of_cons in H as [H1 H2]. destruct (String.eqb_spec k k'); [done|]. by apply IH.
Qed.
Lemma split_insert {V} k (pre post : imap V) v w : k ∉ pre.*1 -> imap_insert k w (pre ++ (k, v) :: post) = pre ++ (k, w) :: post.
Proof.
  induction pre as [|[k' v'] pre IH]; intros H; cbn.
  - by rewrite String.eqb_refl.
  - cbn in H. apply not_elem_of_cons in H as [H1 H2]. destruct (String.eqb_spec k k'); [done|]. by rewrite IH.
Qed.

Section Resolve.
Variable said_ok : string -> bool.
Variable find : string -> option string.
Hypothesis Hs : forall n s, find n = Some s -> said_ok s = true.
Notation known := (fun n s => find n = Some s).
Definition unknown_msg (n : string) : list string := [("Reference " +:+ n +:+ " not found")%string].

Lemma name_cases n : (exists s, find n = Some s /\ resolve_name said_ok find n = Ok (RSaid s)) \/
  (find n = None /\ resolve_name said_ok find n = Err (unknown_msg n)).
Proof.
  unfold resolve_name. destruct (find n) as [s|] eqn:E; [left|by right]. exists s. by rewrite (Hs n s E).
Qed.
Lemma type_cases t : (exists t', resolve_attr said_ok find t = Ok t' /\ type_resolved known t t') \/
  (exists n, named_type t n /\ find n = None /\ resolve_attr said_ok find t = Err (unknown_msg n)).
Proof.
  assert (O : (forall n, ~ named_type t n) -> resolve_attr said_ok find t = Ok t -> exists t', resolve_attr said_ok find t = Ok t' /\ type_resolved known t t')
    by (intros; exists t; split; [done|by constructor]).
  destruct t as [[s|n]|v|u|]; try (left; apply O; [by intros ? [?|?]|done]).
  - cbn. destruct (name_cases n) as [(s & E & ->)|[E ->]]; cbn; [left|right; exists n; split; [by left|done]]. eexists. split; [done|by constructor].
  - destruct u as [[s|n]|v|u|]; try (left; apply O; [by intros ? [?|?]|done]). cbn.
    destruct (name_cases n) as [(s & E & ->)|[E ->]]; cbn; [left|right; exists n; split; [by right|done]]. eexists. split; [done|by constructor].
Qed.
Lemma type_resolved_fun t u u' : type_resolved known t u -> type_resolved known t u' -> u = u'.
Proof.
  intros [n s H|n s H|t' H] H'; inversion H' as [n2 s2 H2|n2 s2 H2|t2 H2]; subst; try congruence;
    exfalso; try (eapply H2; by (left + right)); try (eapply H; by (left + right)).
Qed.
Lemma attrs_cases l : (exists l', resolve_attrs said_ok find l = Ok l' /\ Forall2 (attr_resolved known) l l') \/
  (exists n a t, (a, t) ∈ l /\ named_type t n /\ find n = None /\ resolve_attrs said_ok find l = Err (unknown_msg n)).
Proof.
  induction l as [|[a t] l IH]; [left; by exists []|]. cbn. destruct (type_cases t) as [(t' & -> & Ht)|(n & Hn & Hf & ->)].
  - cbn. destruct IH as [(l' & -> & Hl)|(n & a' & u & Hin & Hn & Hf & ->)]; cbn.
    + left. exists ((a, t') :: l'). split; [done|]. by constructor.
    + right. exists n, a', u. split; [by right|done].
  - right. exists n, a, t. split; [left|done].
Qed.
Lemma attrs_fun l m m' : Forall2 (attr_resolved known) l m -> Forall2 (attr_resolved known) l m' -> m = m'.
Proof.
  intros H. revert m'. induction H as [|[a t] [b u] l m [Ha Ht] _ IH]; intros m' H'; inversion H' as [|? [c v] ? ? [Hc Hv] H2]; subst; [done|].
  cbn in *. subst. f_equal; [|by apply IH]. f_equal. by eapply type_resolved_fun.
Qed.
Lemma attrs_same l : (forall a t n, (a, t) ∈ l -> ~ named_type t n) -> Forall2 (attr_resolved known) l l.
Proof.
  intros H. induction l as [|[a t] l IH]; constructor.
  - split; [done|]. apply tr_other. intros n. apply (H a). left.
  - apply IH. intros a' t' n Hin. apply (H a'). by right.
Qed.
Lemma cmd_cases c : (exists c', resolve_cmd said_ok find c = Ok c' /\ cmd_resolved known c c') \/
  (exists n, mentions c n /\ find n = None /\ resolve_cmd said_ok find c = Err (unknown_msg n)).
Proof.
  assert (O : (forall n, ~ mentions c n) -> resolve_cmd said_ok find c = Ok c -> exists c', resolve_cmd said_ok find c = Ok c' /\ cmd_resolved known c c')
    by (intros; exists c; split; [done|by apply cr_same]).
  assert (NC : (forall l, ~ adds_attributes c l) -> (forall p, ~ adds_link c p) -> forall n, ~ mentions c n).
  { intros H1 H2 n [(l & ? & ? & H & _)|(p & ? & ? & H & _)]; [by eapply H1|by eapply H2]. }
  destruct c as [k ob]. destruct k; try (left; apply O; [apply NC; [intros l (? & ? & [=])|intros p (? & ? & [=])]|done]).
  destruct ob as [[[l|] p fl]|b|[kd v] [a [p|]]].
  - cbn. destruct (attrs_cases l) as [(l' & -> & Hl)|(n & a & t & Hin & Hn & Hf & ->)]; cbn.
    + left. eexists. split; [done|]. by constructor.
    + right. exists n. split; [|done]. left. exists l, a, t. split; [by exists p, fl|done].
  - left. apply O; [apply NC; [intros l' (? & ? & [=])|intros q (? & ? & [=])]|done].
  - left. apply O; [apply NC; [intros l' (? & ? & [=])|intros q (? & ? & [=])]|done].
  - destruct (decide (kd = KLink)) as [->|N].
    2:{ left. apply O; [apply NC; [intros l' (? & ? & [=])|intros q (? & ? & [=])]; done|]. by destruct kd. }
    assert (R : (forall n, imap_get "target" p <> Some (VRef (RName n))) -> forall n, ~ mentions (Command CAdd (OOverlay (OType KLink v) (Content a (Some p)))) n).
    { intros H n [(l & ? & ? & (? & ? & [=]) & _)|(q & pre & post & (? & ? & [= _ _ <-]) & -> & Ht)]. by apply (H n), split_get. }
    cbn. destruct (imap_get "target" p) as [w|] eqn:E.
    2:{ left. eexists. split; [done|]. apply cr_same, R. by intros. }
    destruct w as [[s|n]|w|w|w]; try (left; eexists; split; [done|]; apply cr_same, R; by intros).
    apply get_split in E as (pre & post & -> & Hp).
    destruct (name_cases n) as [(s & E & ->)|[E ->]]; cbn.
    + left. rewrite split_insert by done. eexists. split; [done|]. by constructor.
    + right. exists n. split; [|done]. right. exists (pre ++ ("target", VRef (RName n)) :: post), pre, post. split; [by exists v, a|done].
  - left. apply O; [apply NC; [intros l' (? & ? & [=])|intros q (? & ? & [=])]|by destruct kd].
Qed.
Lemma cmd_resolved_fun c d d' : cmd_resolved known c d -> cmd_resolved known c d' -> d = d'.
Proof.
  assert (L : forall l p fl d, cmd_resolved known (Command CAdd (OCaptureBase (CapContent (Some l) p fl))) d ->
    exists l', Forall2 (attr_resolved known) l l' /\ d = Command CAdd (OCaptureBase (CapContent (Some l') p fl))).
  { intros l p fl e H. inversion H as [l0 l' ? ? Hl| |c0 Hc]; subst; [by exists l'|]. exists l. split; [|done]. apply attrs_same. intros a t n Hin Hn.
    apply (Hc n). left. exists l, a, t. split; [by exists p, fl|done]. }
  assert (K : forall v a pre n post e, "target" ∉ pre.*1 -> cmd_resolved known (Command CAdd (OOverlay (OType KLink v) (Content a (Some (pre ++ ("target", VRef (RName n)) :: post))))) e ->
    exists s, find n = Some s /\ e = Command CAdd (OOverlay (OType KLink v) (Content a (Some (pre ++ ("target", VRef (RSaid s)) :: post))))).
  { intros v a pre n post e Hp H. inversion H as [|v0 a0 pre' n' s post' Hk Hp' [Ev Ea El]|c0 Hc]; subst.
    - assert (E : imap_get "target" (pre ++ ("target", VRef (RName n)) :: post) = imap_get "target" (pre' ++ ("target", VRef (RName n')) :: post')) by by rewrite El.
      rewrite !split_get in E by done. injection E as ->. exists s. split; [done|]. do 4 f_equal.
      rewrite <- (split_insert "target" pre post (VRef (RName n')) (VRef (RSaid s))) by done. rewrite <- El. by rewrite split_insert.
    - exfalso. apply (Hc n). right. exists (pre ++ ("target", VRef (RName n)) :: post), pre, post. split; [by exists v, a|done]. }
  intros H H'. destruct H as [l l' p fl Hl|v a pre n s post Hk Hp|c Hc].
  - apply L in H' as (m & Hm & ->). do 4 f_equal. by eapply attrs_fun.
  - apply K in H' as (s' & Hs' & ->); [|done]. congruence.
  - inversion H' as [l l' p fl Hl|v a pre n s post Hk Hp|]; subst; [| |done].
    + do 4 f_equal. eapply attrs_fun; [|exact Hl]. apply attrs_same. intros a t n Hin Hn. apply (Hc n). left. exists l, a, t. split; [by exists p, fl|done].
    + exfalso. apply (Hc n). right. exists (pre ++ ("target", VRef (RName n)) :: post), pre, post. split; [by exists v, a|done].
Qed.
Lemma resolved_known c d n : cmd_resolved known c d -> mentions c n -> is_Some (find n).
Proof.
  intros H M. destruct H as [l l' p fl Hl|v a pre m s post Hk Hp|c Hc].
  - destruct M as [(l0 & a & t & (? & ? & [= <- _ _]) & Hin & Hn)|(? & ? & ? & (? & ? & [=]) & _)].
    apply elem_of_list_lookup in Hin as [i Hi]. destruct (Forall2_lookup_l _ _ _ _ _ Hl Hi) as ([b u] & _ & _ & R). cbn in R.
    destruct Hn as [-> | ->]; inversion R as [m s Hk|m s Hk|t' Ht]; subst; try (by exists s); destruct (Ht n); by (left + right).
  - destruct M as [(l0 & ? & ? & (? & ? & [=]) & _)|(p & pre' & post' & (? & ? & [= _ _ <-]) & E & Hp')].
    assert (G : imap_get "target" (pre ++ ("target", VRef (RName m)) :: post) = imap_get "target" (pre' ++ ("target", VRef (RName n)) :: post')) by by rewrite E.
    rewrite !split_get in G by done. injection G as ->. by exists s.
  - by destruct (Hc n).
Qed.
Lemma list_cases cs : (exists cs', resolve said_ok find cs = Ok cs' /\ Forall2 (cmd_resolved known) cs cs') \/
  (exists pre c post n, cs = pre ++ c :: post /\ (forall c' m, c' ∈ pre -> mentions c' m -> is_Some (find m)) /\
     mentions c n /\ find n = None /\ resolve said_ok find cs = Err (unknown_msg n)).
Proof.
  induction cs as [|c cs IH]; [left; by exists []|]. cbn. destruct (cmd_cases c) as [(c' & -> & Hc)|(n & Hm & Hf & ->)]; cbn.
  - destruct IH as [(cs' & -> & Hl)|(pre & d & post & n & -> & Hp & Hm & Hf & ->)]; cbn.
    + left. exists (c' :: cs'). split; [done|]. by constructor.
    + right. exists (c :: pre), d, post, n. split; [done|]. split; [|done]. intros e m He M. apply elem_of_cons in He as [->|He]; [by eapply resolved_known|by eapply Hp].
  - right. exists [], c, cs, n. split; [done|]. split; [|done]. intros e m He. by apply elem_of_nil in He.
Qed.
Lemma list_fun cs d d' : Forall2 (cmd_resolved known) cs d -> Forall2 (cmd_resolved known) cs d' -> d = d'.
Proof.
  intros H. revert d'. induction H as [|c e cs d Hc _ IH]; intros d' H'; inversion H' as [|? e' ? d2 Hc' Hd]; subst; [done|]. f_equal; [by eapply cmd_resolved_fun|by apply IH].
Qed.
End Resolve.

(** Resolution succeeds exactly with the commands where each name is replaced by its SAID and nothing else is changed. *)
Theorem C25_resolves : forall said_ok find cs cs', (forall n s, find n = Some s -> said_ok s = true) ->
  resolve said_ok find cs = Ok cs' <-> Forall2 (cmd_resolved (fun n s => find n = Some s)) cs cs'.
Proof.
  intros so find cs cs' Hs. split; intros H.
  - destruct (list_cases so find Hs cs) as [(d & E & R)|(? & ? & ? & ? & _ & _ & _ & _ & E)]; rewrite H in E; [by injection E as ->|done].
  - destruct (list_cases so find Hs cs) as [(d & E & R)|(pre & c & post & n & -> & Hp & Hm & Hf & E)].
    + rewrite E. f_equal. by eapply list_fun.
    + exfalso. apply Forall2_app_inv_l in H as (l1 & l2 & _ & H & _). apply Forall2_cons_inv_l in H as (c' & l3 & Hc & _ & _).
      destruct (resolved_known find _ _ _ Hc Hm) as [? ?]. congruence.
Qed.
Print Assumptions C25_resolves.
(** It fails exactly when some name is not registered, and the error names the first such name; it never aborts. *)
Theorem C25_unknown_name : forall said_ok find cs, (forall n s, find n = Some s -> said_ok s = true) ->
  (exists cs', resolve said_ok find cs = Ok cs' /\ forall c n, c ∈ cs -> mentions c n -> is_Some (find n)) \/
  (exists pre c post n, cs = pre ++ c :: post /\ (forall c' m, c' ∈ pre -> mentions c' m -> is_Some (find m)) /\ mentions c n /\ find n = None /\
     resolve said_ok find cs = Err [("Reference " +:+ n +:+ " not found")%string]).
Proof.
  intros so find cs Hs. destruct (list_cases so find Hs cs) as [(d & E & R)|X]; [left|right; exact X]. exists d. split; [done|].
  intros c n Hin M. apply elem_of_list_split in Hin as (p & q & ->).
  apply Forall2_app_inv_l in R as (l1 & l2 & _ & R & _). apply Forall2_cons_inv_l in R as (c' & l3 & R & _ & _). by eapply resolved_known.
Qed.
Print Assumptions C25_unknown_name.

(** ** Registration *)
Section Registration.
Variable digest : json -> string.
Variables from1 to1 : string -> option string.
Variable listing : string -> list oobject -> list oobject.
Variables said_ok digits lang_ok : string -> bool.
Variable standard_read : string -> option string.
Variable to_text : json -> string.
Variable of_text : string -> option json.
Variable hash : string -> string.
Notation validate := (validate_ast digest from1 said_ok digits lang_ok standard_read of_text).
Notation build_one := (build_ast digest from1 to1 listing said_ok digits lang_ok standard_read to_text of_text hash).

Lemma from_ast_said os from a B steps : from_ast digest from1 os from a = BuildOk B steps -> exists j, b_said B = Some (digest j).
Proof.
  intros H. assert (K : forall b fr p, from_ast_base digest from1 os b fr p a = BuildOk B steps -> exists j, b_said B = Some (digest j)).
  { intros b fr p H'. unfold from_ast_base in H'. destruct (build_loop _ _ _ _ _ _ _ _ _ _) as [[[b' st] [|e es]]|]; try done. destruct b' as [bx|]; [|done].
    destruct (generate_bundle _ _ bx) as [B'|] eqn:G; [|done]. injection H' as -> _. destruct (C03_generated_saids_verify _ _ _ _ G) as [-> _]. by eexists. }
  unfold from_ast in H. destruct from as [B0|]; [|by eapply K]. destruct (load _ B0); [by eapply K|done].
Qed.
Lemma validate_effect os a f f' B steps : validate os a f = Ok (f', (B, steps)) ->
  fa_cache f' = fa_cache f /\ (exists j, b_said B = Some (digest j)) /\
  (forall n k, n <> NsReferences -> entry (fa_db f') n k = entry (fa_db f) n k) /\
  forall k, entry (fa_db f') NsReferences k = if decide (ast_meta a !! "name" = Some k) then b_said B else entry (fa_db f) NsReferences k.
Proof.
  unfold validate_ast. intros H. inv_ok H. cbv zeta in H. inv_ok H.
  assert (Em : ast_meta v.2 = ast_meta a).
  { unfold check_base in E. destruct (ast_commands a) as [|[[] [|b|]] cs]; try (by injection E as <-). destruct b as [[s|n]]; [|done].
    destruct (get_bundle _ _ _ _ _ _ _); try done; by injection E as <-. }
  rewrite Em in H. destruct (from_ast _ _ _ _ _) as [B0 st|es|] eqn:FA; try done. apply from_ast_said in FA as FS.
  destruct (ast_meta a !! "name") as [n|] eqn:En.
  - inv_ok H. apply unwrap_ok in E1. inv_ok H. rewrite mem_ins2 in E2. injection E2 as <-. injection H as <- <- <-. cbn [fa_cache fa_db with_db].
    split; [done|]. split; [done|]. split; [intros m k Hm; by apply entry_other|]. intros k. rewrite entry_ins. case_bool_decide as C.
    + destruct C as [_ ->]. by rewrite decide_True.
    + rewrite decide_False; [done|]. intros [= ->]. by apply C.
  - injection H as <- <- <-. split; [done|]. split; [done|]. split; done.
Qed.
Lemma build_one_effect os a f f' B : build_one os a f = Ok (f', B) ->
  (exists j, b_said B = Some (digest j)) /\
  forall k, entry (fa_db f') NsReferences k = if decide (ast_meta a !! "name" = Some k) then b_said B else entry (fa_db f) NsReferences k.
Proof.
  unfold build_ast. intros H. inv_ok H. destruct v as [f1 [B1 steps]]. cbn [fst snd] in H. apply build_effect in H as (-> & _ & R & _).
  apply validate_effect in E as (_ & S & _ & E). split; [done|]. intros k. by rewrite R, E.
Qed.
End Registration.

(** The names known to a facade are those of the validated and built ASTs, with the SAID of the last bundle of that name. *)
Theorem C25_names_registered : forall digest from1 to1 listing said_ok digits lang_ok standard_read to_text of_text hash h f,
  runs (validate_ast digest from1 said_ok digits lang_ok standard_read of_text)
       (build_ast digest from1 to1 listing said_ok digits lang_ok standard_read to_text of_text hash) facade_new h f ->
  forall n s, find_ref (fa_db f) n = Some s <-> registered h n s.
Proof.
  intros dig f1 t1 ls so dg lo sr tt ot hs h f R n s. unfold find_ref. rewrite get_entry. revert n s.
  assert (Step : forall h (f f' : facade) a B, (exists j, b_said B = Some (dig j)) ->
    (forall k, entry (fa_db f') NsReferences k = if decide (ast_meta a !! "name" = Some k) then b_said B else entry (fa_db f) NsReferences k) ->
    (forall n s, entry (fa_db f) NsReferences n = Some s <-> registered h n s) -> forall n s, entry (fa_db f') NsReferences n = Some s <-> registered (h ++ [(a, B)]) n s).
  { clear. intros h f f' a B [j Hj] H IH n s. rewrite H. destruct (decide (ast_meta a !! "name" = Some n)) as [E|E].
    - split.
      + intros Hs. exists h, a, B, []. split; [done|]. split; [done|]. split; [done|]. intros a' B' Hin. by apply elem_of_nil in Hin.
      + intros (pre & a' & B' & post & Eh & En & Es & Hp). destruct post as [|x post] using rev_ind.
        * apply app_inj_tail in Eh as [_ [= <- <-]]. done.
        * clear IHpost. rewrite app_comm_cons, app_assoc in Eh. apply app_inj_tail in Eh as [_ <-]. destruct (Hp a B); [|done]. apply elem_of_app. right. left.
    - rewrite IH. split.
      + intros (pre & a' & B' & post & -> & En & Es & Hp). exists pre, a', B', (post ++ [(a, B)]). split; [by rewrite <- app_assoc|]. split; [done|]. split; [done|].
        intros a2 B2 Hin. apply elem_of_app in Hin as [Hin|Hin]; [by eapply Hp|]. apply elem_of_list_singleton in Hin as [= -> ->]. done.
      + intros (pre & a' & B' & post & Eh & En & Es & Hp). destruct post as [|x post] using rev_ind.
        * apply app_inj_tail in Eh as [_ [= <- <-]]. done.
        * clear IHpost. rewrite app_comm_cons, app_assoc in Eh. apply app_inj_tail in Eh as [-> _]. exists pre, a', B', post. split; [done|]. split; [done|]. split; [done|].
          intros a2 B2 Hin. apply (Hp a2 B2). apply elem_of_app. by left. }
  induction R as [|h fa os a B steps fb _ IH V|h fa os a B fb _ IH V].
  - intros n s. split; [intros H; vm_compute in H; by destruct n|]. intros (pre & ? & ? & ? & E & _). by destruct pre.
  - apply validate_effect in V as (_ & S & _ & V). by eapply Step.
  - apply build_one_effect in V as (S & V). by eapply Step.
Qed.
Print Assumptions C25_names_registered.
(** So in a facade with such a history, when digests are well-formed SAIDs, resolving commands does as above. *)
Theorem C25_facade_resolves : forall digest from1 to1 listing said_ok digits lang_ok standard_read to_text of_text hash h f cs cs',
  (forall j, said_ok (digest j) = true) ->
  runs (validate_ast digest from1 said_ok digits lang_ok standard_read of_text)
       (build_ast digest from1 to1 listing said_ok digits lang_ok standard_read to_text of_text hash) facade_new h f ->
  resolve said_ok (find_ref (fa_db f)) cs = Ok cs' <-> Forall2 (cmd_resolved (registered h)) cs cs'.
Proof.
  intros dig f1 t1 ls so dg lo sr tt ot hs h f cs cs' Hd R. pose proof (C25_names_registered _ _ _ _ _ _ _ _ _ _ _ _ _ R) as N.
  rewrite C25_resolves.
  - assert (X : forall c d, cmd_resolved (fun n s => find_ref (fa_db f) n = Some s) c d <-> cmd_resolved (registered h) c d).
    { assert (T : forall t u, type_resolved (fun n s => find_ref (fa_db f) n = Some s) t u <-> type_resolved (registered h) t u).
      { intros t u. split; intros [n s H|n s H|t' H]; constructor; try done; by apply N. }
      intros c d. split; intros [l l' p fl Hl|v a pre n s post Hk Hp|c' Hc]; constructor; try done; try (by apply N);
        (eapply Forall2_impl; [exact Hl|]; intros x y [E H]; split; [done|by apply T]). }
    split; intros H; (eapply Forall2_impl; [exact H|]; intros; by apply X).
  - intros n s H. apply N in H. destruct H as (pre & a & B & post & E & _ & Es & _). assert (K : exists j, b_said B = Some (dig j)).
    { clear Es N. revert pre post E. induction R as [|h fa os a' B' steps fb _ IH V|h fa os a' B' fb _ IH V]; intros pre post E.
      - by destruct pre.
      - destruct post as [|x post _] using rev_ind; [|rewrite app_comm_cons, app_assoc in E; apply app_inj_tail in E as [E _]; by eapply IH].
        apply app_inj_tail in E as [_ [= <- <-]]. by apply validate_effect in V as (_ & S & _).
      - destruct post as [|x post _] using rev_ind; [|rewrite app_comm_cons, app_assoc in E; apply app_inj_tail in E as [E _]; by eapply IH].
        apply app_inj_tail in E as [_ [= <- <-]]. by apply build_one_effect in V as (S & _). }
    destruct K as [j Ej]. rewrite Es in Ej. injection Ej as ->. apply Hd.
Qed.
Print Assumptions C25_facade_resolves.

(** A name nested two arrays deep is neither resolved nor reported. *)
Definition nested_cmd : command := add_attrs [("a", NArr (NArr (NRef (RName "n"))))].
Theorem C25_nested_array_refuted : forall said_ok find, find "n" = None \/ find "n" = Some "ESAID" -> resolve said_ok find [nested_cmd] = Ok [nested_cmd].
Proof. done. Qed.
Print Assumptions C25_nested_array_refuted.

(** A concrete history: a named bundle, then one that refers to it by name. *)
Definition ex_named (n : string) (cs : list command) : ast := Ast (ast_version (mk_ast cs)) cs (ast_cmeta (mk_ast cs)) {["name" := n]}.
Definition ex_build_one := build_ast ex_digest ex_from1 ex_to1 ex_listing ex_said_ok ascii_digits ex_lang_ok (fun _ => None) ex_to_text ex_of_text ex_hash.
Definition ex_validate := validate_ast ex_digest ex_from1 ex_said_ok ascii_digits ex_lang_ok (fun _ => None) ex_of_text.
Definition ex_refn : list command := [add_attrs [("x", NRef (RName "first")); ("y", NArr (NRef (RName "first"))); ("z", NVal TText)];
  Command CAdd (OOverlay (OType KLink "2.0.0") (Content None (Some [("target", VRef (RName "first"))])))].
Definition ex_first_named := ex_named "first" [add_attrs [("a", NVal TText)]].
Example C25_example : exists f B k, ex_build_one (fun _ => ord1) ex_first_named facade_new = Ok (f, B) /\ b_said B = Some k /\
  resolve ex_said_ok (find_ref (fa_db f)) ex_refn =
    Ok [add_attrs [("x", NRef (RSaid k)); ("y", NArr (NRef (RSaid k))); ("z", NVal TText)];
        Command CAdd (OOverlay (OType KLink "2.0.0") (Content None (Some [("target", VRef (RSaid k))])))].
Proof.
  assert (H : match ex_build_one (fun _ => ord1) ex_first_named facade_new with Ok (f, B) =>
    match b_said B with Some k => match find_ref (fa_db f) "first" with Some k' => String.eqb k' k && ex_said_ok k | None => false end | None => false end | _ => false end = true)
    by (vm_compute; reflexivity).
  destruct (ex_build_one (fun _ => ord1) ex_first_named facade_new) as [[f B]| |]; try done. destruct (b_said B) as [k|] eqn:Ek; [|done].
  destruct (find_ref (fa_db f) "first") as [k'|] eqn:E; [|done]. apply andb_prop in H as [H1 H2]. apply String.eqb_eq in H1 as ->.
  exists f, B, k. split; [done|]. split; [done|]. assert (Hn : resolve_name ex_said_ok (find_ref (fa_db f)) "first" = Ok (RSaid k)) by (unfold resolve_name; by rewrite E, H2).
  unfold ex_refn. cbn -[resolve_name String.eqb]. rewrite !Hn. cbn -[resolve_name String.eqb]. rewrite String.eqb_refl. cbn -[resolve_name String.eqb]. rewrite Hn. done.
Qed.
Example C25_hypotheses_met : exists h f, h <> [] /\ runs ex_validate ex_build_one facade_new h f /\ forall j, ex_said_ok (ex_digest j) = true.
Proof.
  destruct C25_example as (f & B & k & H & _). exists ([] ++ [(ex_first_named, B)]), f. split; [done|]. split; [eapply runs_build; [apply runs_none|exact H]|].
  intros j. unfold ex_said_ok, ex_digest. by destruct (N.succ_pos _).
Qed.
