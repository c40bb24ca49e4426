(** The trees of the OCAfile grammar. *)
From Coq Require Import Lia.
From Verif Require Export PegShape OcaFile OcaGrammar_proofs.

Section Trees.
Variable wide : ascii -> bool.
Notation g0 := (sgrammar wide).

(** [url] is tried only where [string] has failed, and it is a [string]. *)
Definition g1 (r : srule) : mode * pe srule :=
  match r with Rjson_value => (Compound, PAlt (PRul Rstring) (PRul Rjson_object)) | _ => sgrammar wide r end.
Lemma g1_other r : r <> Rjson_value -> g1 r = g0 r.
Proof. by destruct r. Qed.
Lemma url_dead at_ s o : ev g1 at_ (PAlts [PRul Rstring; PRul Rurl; PRul Rjson_object]) s o -> at_ = false -> ev g1 at_ (PAlt (PRul Rstring) (PRul Rjson_object)) s o.
Proof.
  intros H ->. cbn [PAlts] in H. inversion H as [| | | | | | | | | | | |at1 a1 b1 s1 x1 H1|at1 a1 b1 s1 o1 H1 H2| | | | | | | |]; subst; [by apply ev_alt1|].
  inversion H2 as [| | | | | | | | | | | |at2 a2 b2 s2 x2 H3|at2 a2 b2 s2 o2 H3 H4| | | | | | | |]; subst; [|by apply ev_alt2].
  exfalso. inversion H3 as [| | | | | | | | | | | | | | | | | | | |at3 r3 m3 b3 s3 c3 ts3 rest3 Hg3 H5|]; subst. cbn in Hg3. injection Hg3 as <- <-. cbn [rinside] in H5.
  pose proof (ev_det _ _ _ _ _ _ H1 H5) as X. discriminate X.
Qed.
Lemma ev_g1 at_ e s o : ev g0 at_ e s o -> ev g1 at_ e s o.
Proof.
  induction 1 as [at_ f c r H|at_ f c r H|at_ f|at_ p s c r H|at_ p s H|at_ p s c r H|at_ p s H|at_|at_ c s|at_ a b s c ts r c' ts' r' H1 IH1 H2 IH2|at_ a b s H1 IH1
    |at_ a b s c ts r H1 IH1 H2 IH2|at_ a b s x H1 IH1|at_ a b s o H1 IH1 H2 IH2|at_ a s H1 IH1|at_ a s c ts r c' ts' r' H1 IH1 H2 IH2|at_ a s x H1 IH1|at_ a s H1 IH1|at_ a s H1 IH1
    |at_ a s x H1 IH1|at_ r m b s c ts rest Hg H1 IH1|at_ r m b s Hg H1 IH1].
  all: try (econstructor; eassumption).
  - assert (D : r = Rjson_value \/ r <> Rjson_value) by (destruct r; auto; right; discriminate). destruct D as [->|D].
    + cbn in Hg. injection Hg as <- <-. apply (ev_rul g1 at_ Rjson_value Compound _ s c ts rest eq_refl). by apply url_dead.
    + eapply ev_rul; [by rewrite g1_other|done].
  - assert (D : r = Rjson_value \/ r <> Rjson_value) by (destruct r; auto; right; discriminate). destruct D as [->|D].
    + cbn in Hg. injection Hg as <- <-. apply (ev_rul_no g1 at_ Rjson_value Compound _ s eq_refl). by apply url_dead.
    + eapply ev_rul_no; [by rewrite g1_other|done].
Qed.
End Trees.
Definition no_forb (c : ascii) : bool := false.
Definition bsl (c : ascii) : bool := Ascii.eqb BSL c.
Lemma clean_none s : clean no_forb s.
Proof. induction s; [done|]. by unfold clean in *. Qed.
Lemma clean_within f t s : within t s -> clean f s -> clean f t.
Proof. intros (a & b & ->) H. apply clean_app in H as [_ H]. by apply clean_app in H as [H _]. Qed.

(** A loop over a list, stopping at the first error or panic. *)
Fixpoint ofold {A B} (f : A -> B -> outcome B) (l : list A) (b : B) : outcome B :=
  match l with [] => Ok b | x :: l => let! b' := f x b in ofold f l b' end.
Lemma ofold_panic {A B} (f : A -> B -> outcome B) l : forall b, ofold f l b = Panic -> exists x b', x ∈ l /\ f x b' = Panic.
Proof.
  induction l as [|x l IH]; intros b H; [done|]. cbn [ofold] in H. destruct (f x b) as [b'|es|] eqn:E; cbn [obind] in H; [|done|].
  - destruct (IH _ H) as (y & b'' & Hy & Ey). exists y, b''. split; [by apply elem_of_list_further|done].
  - exists x, b. split; [apply elem_of_list_here|done].
Qed.
Lemma obind_panic {A B} (x : outcome A) (f : A -> outcome B) : obind x f = Panic -> x = Panic \/ exists a, x = Ok a /\ f a = Panic.
Proof. destruct x as [a|es|]; cbn; intros H; [right; by exists a|done|by left]. Qed.

Lemma pair_ind2 (P : spair -> Prop) : (forall r t l, Forall P l -> P (Pair r t l)) -> forall p, P p.
Proof.
  intros H. fix IH 1. intros [r t l]. apply H. induction l as [|q l IHl]; [constructor|]. constructor; [apply IH|exact IHl].
Qed.

Definition json_elem (el : spair) (kv : string * nvalue) : outcome (string * nvalue) :=
  match el with
  | Pair Rjson_key _ ks => match last ks with Some k => let! t := quoted k in Ok (lower_str t, kv.2) | None => Panic end
  | Pair Rjson_value _ (v :: _) =>
    match v with
    | Pair Rstring _ _ => let! t := quoted v in Ok (kv.1, VVal t)
    | Pair Rjson_object _ _ => let! o := extract_json_object v in Ok (kv.1, o)
    | _ => Panic
    end
  | Pair Rjson_value _ [] => Ok kv
  | _ => Panic
  end.
Definition json_pair_item (p : spair) (acc : imap nvalue) : outcome (imap nvalue) :=
  match p with
  | Pair Rjson_pair _ els => let! kv := ofold json_elem els ("", VVal "") in Ok (imap_insert kv.1 kv.2 acc)
  | _ => Panic
  end.
Lemma extract_json_fold r t items : extract_json_object (Pair r t items) = (let! l := ofold json_pair_item items [] in Ok (VObj l)).
Proof.
  cbn [extract_json_object]. f_equal. generalize (@nil (string * nvalue)). induction items as [|[ri ti els] items IH]; intros acc; [done|].
  cbn [ofold json_pair_item]. destruct ri; try done.
  match goal with |- obind ?a _ = obind (obind ?b _) _ => assert (E : a = b) end.
  { generalize ""%string, (VVal ""). induction els as [|[re te inner] els IHe]; intros key value; [done|].
    cbn [ofold json_elem fst snd]. destruct re; try done.
    - destruct (last inner); [|done]. destruct (quoted _); cbn [obind]; [apply IHe|done|done].
    - destruct inner as [|[rv tv iv] inner]; [cbn [obind]; apply IHe|]. destruct rv; try done.
      + destruct (quoted _); cbn [obind]; [apply IHe|done|done].
      + change (extract_json_object (Pair Rjson_object tv iv)) with (extract_json_object (Pair Rjson_object tv iv)).
        destruct (extract_json_object (Pair Rjson_object tv iv)); cbn [obind]; [apply IHe|done|done]. }
  rewrite E. destruct (ofold json_elem els _); cbn [obind]; [apply IH|done|done].
Qed.

(** One item of a key and its value, with the map of pairs read by [insert_kvs]. *)
Definition kv_item (item : spair) (kv : string * nvalue) : outcome (string * nvalue) :=
  let key := kv.1 in let value := kv.2 in
  match item with
  | Pair (Rattr_key | Rframing_metadata_key) t _ => Ok (t, value)
  | Pair (Rkey_value | Runit_value | Rframing_metadata_value) _ inner =>
    match inner with [] => Ok (key, value) | n :: _ => let! v := text_value item n in Ok (key, v) end
  | Pair Rentry_code_key_value _ inner =>
    match inner with
    | [] => Ok (key, value)
    | Pair Rkey_value _ [] :: _ => Ok (key, value)
    | Pair Rkey_value _ (n :: _) :: _ => let! v := text_value item n in Ok (key, v)
    | Pair Rentry_code_list _ els :: _ => let! l := code_list els in Ok (key, VArr l)
    | Pair Rentry_code_object _ els :: _ => let! m := insert_kvs els [] in Ok (key, VObj m)
    | _ => Panic
    end
  | Pair (Rentry_code_group_key | Rentry_key) _ inner =>
    match inner with
    | n :: _ => match p_rule n with Rstring => let! t := quoted n in Ok (t, value) | _ => Ok (key, value) end
    | [] => Ok (key, value)
    end
  | Pair Rentry_code_list _ els => let! l := code_list els in Ok (key, VArr l)
  | Pair Rentry_value _ inner =>
    match inner with
    | n :: _ => match p_rule n with Rstring => let! t := quoted n in Ok (key, VVal t) | _ => Ok (key, value) end
    | [] => Ok (key, value)
    end
  | Pair Rentry_key_value _ inner =>
    match inner with
    | [] => Ok (key, value)
    | Pair Rkey_value _ [] :: _ => Ok (key, value)
    | Pair Rkey_value _ (n :: _) :: _ => let! v := text_value item n in Ok (key, v)
    | Pair Rentry_object _ els :: _ => let! m := insert_kvs els [] in Ok (key, VObj m)
    | _ => Panic
    end
  | Pair Rjson_object _ _ => let! v := extract_json_object item in Ok (key, v)
  | _ => Panic
  end.
Lemma insert_fix els : (fix elems (els : list spair) (acc : imap nvalue) : outcome (imap nvalue) :=
   match els with [] => Ok acc | el :: els => let! kv := extract_kv el in elems els (imap_insert kv.1 kv.2 acc) end) els [] = insert_kvs els [].
Proof. generalize (@nil (string * nvalue)). induction els as [|e els IH]; intros acc; [done|]. cbn [insert_kvs]. destruct (extract_kv e); cbn [obind]; [apply IH|done|done]. Qed.
Lemma extract_kv_fold r t items : extract_kv (Pair r t items) = ofold kv_item items ("", VVal "").
Proof.
  cbn [extract_kv]. generalize ""%string, (VVal ""). induction items as [|[ri ti inner] items IH]; intros key value; [done|].
  cbn [ofold]. destruct ri; try done; cbn [kv_item fst snd].
  all: try (cbn [obind]; apply IH).
  all: try (destruct inner as [|n inner]; [cbn [obind]; apply IH|]).
  all: try (destruct (text_value _ n); cbn [obind]; [apply IH|done|done]).
  all: try (destruct (p_rule n); cbn [obind]; try apply IH; destruct (quoted n); cbn [obind]; [apply IH|done|done]).
  all: try (destruct (extract_json_object _); cbn [obind]; [apply IH|done|done]).
  all: try (destruct (code_list _); cbn [obind]; [apply IH|done|done]).
  all: destruct n as [rn tn nn]; destruct rn; try done.
  all: try (destruct nn as [|n nn]; [cbn [obind]; apply IH|]; destruct (text_value _ n); cbn [obind]; [apply IH|done|done]).
  all: try (destruct (code_list _); cbn [obind]; [apply IH|done|done]).
  all: rewrite insert_fix; destruct (insert_kvs nn []); cbn [obind]; [apply IH|done|done].
Qed.
