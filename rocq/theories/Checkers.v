(** Boolean sufficient conditions for the hypotheses of the storage theorems, used on concrete cases. *)
From Verif Require Import Base Spec_Facade Upd_proofs.

Definition type_simple (t : nattr) : bool := match t with NVal _ | NArr (NVal _) | NNull => true | _ => false end.
Section Check.
Variables said_ok digits lang_ok : string -> bool.
Definition osaid_b (s : option string) : bool := match s with Some x => said_ok x | None => true end.
Definition overlay_simple (ov : overlay) : bool :=
  osaid_b (ov_said ov) && osaid_b (ov_cb ov) && String.eqb (ov_ver ov) "1.1" &&
  match body_lang (ov_body ov) with Some l => lang_ok l | None => true end &&
  match ov_body ov with
  | BMeta _ m => bool_decide (m !! "d" = None) && bool_decide (m !! "capture_base" = None) && bool_decide (m !! "type" = None) && bool_decide (m !! "language" = None)
  | BEntryCode _ | BStandard _ => false
  | _ => true
  end.
Definition bundle_simple (B : bundle) : bool :=
  osaid_b (b_said B) && osaid_b (cb_said (b_cb B)) && bool_decide (NoDup (map fst (cb_attrs (b_cb B)))) &&
  forallb (fun kv => type_simple kv.2) (cb_attrs (b_cb B)) && forallb overlay_simple (b_ovs B).
Lemma overlay_simple_ok ov : digits "1" = true -> overlay_simple ov = true -> overlay_readable said_ok digits lang_ok ov /\ forall l, ~ has_groups (ov_body ov) l.
Proof.
  intros Hd H. unfold overlay_simple in H. apply andb_true_iff in H as [H H5]. apply andb_true_iff in H as [H H4]. apply andb_true_iff in H as [H H3].
  apply andb_true_iff in H as [H1 H2]. assert (G : forall l, ~ has_groups (ov_body ov) l) by (intros l (m & n & E & _); by rewrite E in H5).
  split; [|done]. split.
  - intros s [E|E]; [rewrite E in H1|rewrite E in H2]; done.
  - exists "1", "1". apply String.eqb_eq in H3. by rewrite H3.
  - intros l E. by rewrite E in H4.
  - intros l m k E Hk. rewrite E in H5. apply andb_true_iff in H5 as [H5 K4]. apply andb_true_iff in H5 as [H5 K3]. apply andb_true_iff in H5 as [K1 K2].
    apply bool_decide_eq_true in K1, K2, K3, K4. apply elem_of_list_In in Hk. destruct Hk as [<-|[<-|[<-|[<-|[]]]]]; done.
  - intros l Hl. by apply G in Hl.
  - intros E. destruct (ov_body ov); done.
Qed.
Lemma bundle_simple_ok B : digits "1" = true -> bundle_simple B = true -> bundle_readable said_ok digits lang_ok B /\ groups_sorted B.
Proof.
  intros Hd H. unfold bundle_simple in H. apply andb_true_iff in H as [H H5]. apply andb_true_iff in H as [H H4]. apply andb_true_iff in H as [H H3].
  apply andb_true_iff in H as [H1 H2]. rewrite forallb_forall in H4, H5. split; [split|].
  - intros s [E|E]; [rewrite E in H1|rewrite E in H2]; done.
  - by apply bool_decide_eq_true in H3.
  - intros n t Hin. apply elem_of_list_In, H4 in Hin. cbn in Hin. destruct t as [| |[]|]; done.
  - intros ov Hin. apply elem_of_list_In, H5 in Hin. by apply overlay_simple_ok.
  - intros ov l Hin Hg. apply elem_of_list_In, H5 in Hin. apply overlay_simple_ok in Hin as [_ Hin]; [|done]. by apply Hin in Hg.
Qed.
(** Commands with plain texts only. *)
Definition text_simple (s : string) : bool :=
  match s with String "r" (String "e" (String "f" _)) => false | _ => true end.
Fixpoint value_simple (v : nvalue) : bool :=
  match v with
  | VVal s => text_simple s
  | VObj l => bool_decide (NoDup (map fst l)) && forallb (fun kv => value_simple kv.2) l
  | VArr l => forallb value_simple l
  | VRef _ => false
  end.
Definition values_simple (m : option (imap nvalue)) : bool :=
  match m with Some l => bool_decide (NoDup (map fst l)) && forallb (fun kv => value_simple kv.2) l | None => true end.
Definition command_simple (c : command) : bool :=
  match cmd_obj c with
  | OCaptureBase cc => match cc_attrs cc with Some l => bool_decide (NoDup (map fst l)) && forallb (fun kv => type_simple kv.2) l | None => true end && values_simple (cc_props cc)
  | OBundle _ => false
  | OOverlay t ct => values_simple (ct_attrs ct) && values_simple (ct_props ct) && String.eqb (ot_ver t) "1.1" && negb (bool_decide (ot_kind t = KAttributeMapping))
  end.
Lemma values_simple_at m n v : values_simple m = true -> has m n v -> value_simple v = true.
Proof.
  intros H (l & -> & Hg). cbn in H. apply andb_true_iff in H as [_ H]. rewrite forallb_forall in H. apply imap_get_elem in Hg.
  apply (H (n, v)). by apply elem_of_list_In.
Qed.
Lemma value_simple_keys : forall v, value_simple v = true -> nvalue_ok v.
Proof.
  fix IH 1. intros [r|s|l|l] H; [exact I|exact I| |].
  - cbn [value_simple] in H. apply andb_true_iff in H as [Hn H]. apply bool_decide_eq_true in Hn. cbn [nvalue_ok]. split; [exact Hn|]. clear Hn. revert l H. fix IHl 1. intros [|[k v] l] H; [exact I|].
    cbn [forallb snd] in H. apply andb_true_iff in H as [Hv H]. split; [exact (IH v Hv)|exact (IHl l H)].
  - cbn [value_simple] in H. cbn [nvalue_ok]. revert l H. fix IHl 1. intros [|v l] H; [exact I|]. cbn [forallb] in H. apply andb_true_iff in H as [Hv H]. split; [exact (IH v Hv)|exact (IHl l H)].
Qed.
Lemma values_simple_ok m : values_simple m = true -> values_ok m.
Proof.
  intros H l ->. split; [cbn in H; apply andb_true_iff in H as [H _]; by apply bool_decide_eq_true in H|].
  intros n v Hg. assert (Hv : value_simple v = true) by (apply (values_simple_at (Some l) n); [done|by exists l]). by apply value_simple_keys.
Qed.
Lemma text_simple_ok s : text_simple s = true -> ~ looks_like_ref said_ok s.
Proof. intros H (r & [->|[-> _]]); done. Qed.
Lemma value_simple_ok v : value_simple v = true -> (forall r, ~ ref_in v r) /\ (forall s, text_in v s -> ~ looks_like_ref said_ok s).
Proof.
  intros H. split.
  - intros r Hr. revert H. induction Hr as [r|k v l r Hin Hr IH|v l r Hin Hr IH]; cbn [value_simple]; intros H; [done| |].
    + apply andb_true_iff in H as [_ H]. rewrite forallb_forall in H. apply IH. apply elem_of_list_In, H in Hin. exact Hin.
    + rewrite forallb_forall in H. apply IH, H, elem_of_list_In, Hin.
  - intros s Hs. revert H. induction Hs as [s|k v l s Hin Hs IH|v l s Hin Hs IH]; cbn [value_simple]; intros H; [by apply text_simple_ok| |].
    + apply andb_true_iff in H as [_ H]. rewrite forallb_forall in H. apply IH. apply elem_of_list_In, H in Hin. exact Hin.
    + rewrite forallb_forall in H. apply IH, H, elem_of_list_In, Hin.
Qed.
Lemma command_simple_ok c : command_simple c = true -> command_ok c /\ refs_valid said_ok c /\ json_faithful said_ok c.
Proof.
  intros H. assert (V : forall v, value_in c v -> value_simple v = true).
  { intros v Hv. unfold value_in, command_simple in *. destruct (cmd_obj c) as [cc| |t ct].
    - apply andb_true_iff in H as [_ H]. destruct Hv as [n Hv]. by apply (values_simple_at _ n) in Hv.
    - done.
    - apply andb_true_iff in H as [H _]. apply andb_true_iff in H as [H _]. apply andb_true_iff in H as [H1 H2].
      destruct Hv as [n [Hv|Hv]]; by apply (values_simple_at _ n) in Hv. }
  split; [|split].
  - unfold command_ok, command_simple in *. destruct (cmd_obj c) as [cc| |t ct]; [|done|].
    + apply andb_true_iff in H as [H1 H]. split; [|by apply values_simple_ok]. intros l E. rewrite E in H1. apply andb_true_iff in H1 as [H1 _]. by apply bool_decide_eq_true in H1.
    + apply andb_true_iff in H as [H _]. apply andb_true_iff in H as [H _]. apply andb_true_iff in H as [H1 H2]. split; by apply values_simple_ok.
  - split; [intros v r Hv Hr; apply V, value_simple_ok in Hv as [Hv _]; by apply Hv in Hr|].
    unfold command_simple in H. destruct (cmd_obj c) as [cc| |t ct]; [|done..]. intros l n t E Hg. rewrite E in H.
    apply andb_true_iff in H as [H _]. apply andb_true_iff in H as [_ H]. rewrite forallb_forall in H. apply imap_get_elem, elem_of_list_In, H in Hg.
    cbn in Hg. destruct t as [| |[]|]; done.
  - split; [intros v s Hv; apply V, value_simple_ok in Hv as [_ Hv]; apply Hv|]. intros t ct E. unfold command_simple in H. rewrite E in H.
    apply andb_true_iff in H as [H H2]. apply andb_true_iff in H as [_ H1]. apply String.eqb_eq in H1. apply negb_true_iff, bool_decide_eq_false in H2. done.
Qed.
Definition shallow_b (j : json) : bool := (nesting j <=? 127)%nat.
Lemma shallow_ok j : shallow_b j = true -> shallow j.
Proof. apply Nat.leb_le. Qed.
Definition step_simple (s : bstep) : bool := bundle_simple (bs_result s) && command_simple (bs_cmd s) && (shallow_b (bundle_json (bs_result s)) && shallow_b (command_json (bs_cmd s))).
Lemma step_simple_ok s : digits "1" = true -> step_simple s = true -> step_storable said_ok digits lang_ok s.
Proof.
  intros Hd H. apply andb_true_iff in H as [H H3]. apply andb_true_iff in H as [H1 H2]. apply andb_true_iff in H3 as [H3 H4]. apply bundle_simple_ok in H1 as [? ?]; [|done].
  split; [done|done|by apply command_simple_ok|split; by apply shallow_ok].
Qed.
End Check.
