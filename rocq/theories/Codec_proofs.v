(** Proofs about the codecs (C17-C20). *)
From Verif Require Import Spec_Codec Condition_proofs Condition_spec_proofs Bundle_proofs Upd_proofs.
From Coq Require Import Lia.

(** ** Strings *)
Lemma strip_prefix_app p s : strip_prefix p (p +:+ s)%string = Some s.
Proof. induction p as [|c p IH]; [done|]. simpl. by rewrite Ascii.eqb_refl. Qed.
Lemma strip_prefix_some p : forall s r, strip_prefix p s = Some r -> s = (p +:+ r)%string.
Proof.
  induction p as [|c p IH]; intros [|d s] r; simpl; try done; try (by intros [= ->]).
  destruct (Ascii.eqb_spec c d) as [->|]; [|done]. intros H. by rewrite (IH _ _ H).
Qed.
Definition no_char (c : ascii) (s : string) : bool := all_chars (fun d => negb (Ascii.eqb c d)) s.
Lemma split_once_app c a b : no_char c a = true -> split_once c (a +:+ String c b)%string = Some (a, b).
Proof.
  induction a as [|d a IH]; simpl; [by rewrite Ascii.eqb_refl|]. unfold no_char. simpl. intros [H1 H2]%andb_prop.
  destruct (Ascii.eqb c d); [done|]. by rewrite IH.
Qed.
Lemma split_once_some c s : forall a b, split_once c s = Some (a, b) -> s = (a +:+ String c b)%string /\ no_char c a = true.
Proof.
  induction s as [|d s IH]; intros a b; simpl; [done|]. destruct (Ascii.eqb_spec c d) as [->|Hne]; [by intros [= <- <-]|].
  destruct (split_once c s) as [[a' b']|]; [|done]. intros [= <- <-]. destruct (IH _ _ eq_refl) as [-> H]. split; [done|].
  unfold no_char in *. simpl. rewrite H. by destruct (Ascii.eqb_spec c d).
Qed.
Lemma split_once_none c s : split_once c s = None -> no_char c s = true.
Proof.
  unfold no_char. induction s as [|d s IH]; simpl; [done|]. destruct (Ascii.eqb_spec c d) as [->|Hne]; [done|].
  destruct (split_once c s) as [[a' b']|]; [done|]. intros _. by rewrite IH.
Qed.
Lemma split_once_no c s : no_char c s = true -> split_once c s = None.
Proof.
  unfold no_char. induction s as [|d s IH]; simpl; [done|]. intros [H1 H2]%andb_prop. destruct (Ascii.eqb c d); [done|]. by rewrite IH.
Qed.

(** ** Overlay types *)
Lemma path_kind k : kind_of_path (okind_path k) = Some k. Proof. by destruct k. Qed.
Lemma kind_path s k : kind_of_path s = Some k -> s = okind_path k.
Proof.
  unfold kind_of_path. repeat (match goal with |- context[String.eqb ?a ?b] => destruct (String.eqb_spec a b) as [->|] end; [by intros [= <-]|]). done.
Qed.
Lemma path_no_slash k : no_char "/" (okind_path k) = true. Proof. by destruct k. Qed.
Lemma otype_text_inj t t' : otype_text t = otype_text t' -> t = t'.
Proof.
  destruct t as [k v], t' as [k' v']. unfold otype_text. simpl ot_kind. simpl ot_ver. intros H. apply append_inj_l in H.
  assert (E : split_once "/" (okind_path k +:+ String "/" v)%string = split_once "/" (okind_path k' +:+ String "/" v')%string) by (f_equal; exact H).
  rewrite !split_once_app in E by apply path_no_slash. injection E as E ->. f_equal. assert (E' := path_kind k). rewrite E, path_kind in E'. congruence.
Qed.
Section OverlayType.
Variable digits : string -> bool.
Lemma otype_parse_spec s t : otype_parse digits s = Some t <->
  s = otype_text t /\ exists a b, ot_ver t = (a +:+ "." +:+ b)%string /\ no_char "." a = true /\ digits a = true /\ digits b = true.
Proof.
  unfold otype_parse, otype_text. split.
  - destruct (strip_prefix _ s) as [r|] eqn:E1; [|done]. apply strip_prefix_some in E1 as ->.
    destruct (split_once "/" r) as [[n v]|] eqn:E2; [|done]. apply split_once_some in E2 as [-> _].
    destruct (split_once "." v) as [[a b]|] eqn:E3; [|done]. destruct (digits a) eqn:Da, (digits b) eqn:Db; try done. simpl.
    destruct (kind_of_path n) as [k|] eqn:Ek; [|done]. intros [= <-]. apply kind_path in Ek as ->. split; [done|].
    apply split_once_some in E3 as [-> Hn]. by exists a, b.
  - intros [-> (a & b & Hv & Hn & Ha & Hb)]. rewrite strip_prefix_app. change ("/" +:+ ot_ver t)%string with (String "/" (ot_ver t)).
    rewrite split_once_app by apply path_no_slash. rewrite Hv. change ("." +:+ b)%string with (String "." b). rewrite (split_once_app "." a b) by done. rewrite Ha, Hb. cbn [andb].
    rewrite path_kind. cbn. destruct t as [k v]. cbn in Hv. by rewrite Hv.
Qed.
End OverlayType.
Lemma name_kind k : k <> KAttributeMapping -> kind_of_name (okind_name k) = Some k. Proof. by destruct k. Qed.
Lemma kind_name s k : kind_of_name s = Some k -> s = okind_name k \/ (s = "Mapping" /\ k = KAttributeMapping).
Proof.
  unfold kind_of_name. repeat (match goal with |- context[String.eqb ?a ?b] => destruct (String.eqb_spec a b) as [->|] end; [intros [= <-]; auto|]). done.
Qed.

(** ** Bytes *)
Lemma byte_kind o : exists o', obj_of_byte (obj_byte o) = Ok o' /\ same_kind o o'.
Proof.
  destruct o as [c|c|[k v] c]; [eexists; split; [reflexivity|constructor]..|]. destruct k; eexists; (split; [reflexivity|constructor]).
Qed.
Lemma kind_byte n o : obj_of_byte n = Ok o -> obj_byte o = n.
Proof. do 23 (destruct n as [|n]; [by intros [= <-]|]). done. Qed.
Lemma byte_range n : (exists o, obj_of_byte n = Ok o) <-> (n <= 22)%nat.
Proof.
  do 23 (destruct n as [|n]; [split; [lia|by eexists]|]). split; [by intros [? ?]|lia].
Qed.
Lemma byte_same o o' : obj_byte o = obj_byte o' <-> same_kind o o'.
Proof.
  split.
  - destruct o as [c|c|[k v] c], o' as [c'|c'|[k' v'] c']; simpl; try done; try (intros _; constructor); try (intros H; exfalso; revert H; match goal with k : okind |- _ => by destruct k end).
    intros H. assert (k = k') as -> by (destruct k, k'; done). constructor.
  - by intros [].
Qed.

(** ** References *)
Section Refs.
Variable said_ok : string -> bool.
Lemma ref_text_parse r : ref_ok said_ok r -> ref_parse said_ok (ref_text r) = Some r.
Proof. destruct r as [s|s]; simpl; [|done]. unfold ref_parse. simpl. intros ->. done. Qed.
Lemma ref_parse_text s r : ref_parse said_ok s = Some r -> s = ref_text r /\ ref_ok said_ok r.
Proof.
  unfold ref_parse. destruct (split_once ":" s) as [[tag rest]|] eqn:E; [|done]. apply split_once_some in E as [-> _].
  destruct (String.eqb_spec tag "refs") as [->|]; [destruct (said_ok rest) eqn:Es; [|done]; by intros [= <-]|].
  destruct (String.eqb_spec tag "refn") as [->|]; [by intros [= <-]|done].
Qed.
Lemma ref_parse_none s : ref_parse said_ok s = None <-> ~ looks_like_ref said_ok s.
Proof.
  split.
  - intros E (r & [ -> | [ -> Hr]]); [assert (X := ref_text_parse (RName r) I)|assert (X := ref_text_parse (RSaid r) Hr)]; cbn [ref_text] in X; congruence.
  - intros H. destruct (ref_parse said_ok s) as [r|] eqn:E; [|done]. apply ref_parse_text in E as [-> Hr]. exfalso. apply H.
    destruct r as [t|t]; exists t; [by right|by left].
Qed.
Lemma ref_text_inj r r' : ref_text r = ref_text r' -> r = r'.
Proof. destruct r, r'; simpl; try done; by intros [= ->]. Qed.
Lemma type_text t : attr_type_parse (attr_type_name t) = Some t. Proof. by destruct t. Qed.
Lemma text_type s t : attr_type_parse s = Some t -> s = attr_type_name t.
Proof.
  unfold attr_type_parse. repeat (match goal with |- context[String.eqb ?a ?b] => destruct (String.eqb_spec a b) as [->|] end; [by intros [= <-]|]). done.
Qed.
Lemma nattr_round a : nattr_ok said_ok a -> nattr_parse said_ok (nattr_json a) = Ok a.
Proof.
  induction a as [r|t|a IH|]; intros H.
  - cbn [nattr_json nattr_parse]. assert (E : starts_ref (ref_text r) = true) by by destruct r. rewrite E. by rewrite ref_text_parse.
  - by destruct t.
  - cbn. rewrite IH by done. done.
  - done.
Qed.
Lemma nattr_back : forall j a, nattr_parse said_ok j = Ok a -> nattr_json a = first_only j /\ nattr_ok said_ok a.
Proof.
  fix IH 1. intros j a. destruct j as [|b|n|s|[|x l]|l]; cbn [nattr_parse first_only]; try done.
  - by intros [= <-].
  - destruct (starts_ref s).
    + destruct (ref_parse said_ok s) as [r|] eqn:E; [|done]. intros [= <-]. apply ref_parse_text in E as [-> Hr]. done.
    + destruct (attr_type_parse s) as [t|] eqn:E; [|done]. intros [= <-]. apply text_type in E as ->. done.
  - destruct (nattr_parse said_ok x) as [b| |] eqn:E; try done. intros [= <-]. apply IH in E as [E1 E2]. cbn. by rewrite E1.
Qed.
Lemma nattr_panic : forall j, nattr_parse said_ok j = Panic <-> reaches_empty_array j.
Proof.
  fix IH 1. intros j. destruct j as [|b|n|s|[|x l]|l]; cbn [nattr_parse reaches_empty_array]; try done.
  - destruct (starts_ref s); [by destruct (ref_parse said_ok s)|by destruct (attr_type_parse s)].
  - rewrite <- (IH x). by destruct (nattr_parse said_ok x).
Qed.

(** ** Nested values *)
Lemma nvalue_ind' (P : nvalue -> Prop) : (forall r, P (VRef r)) -> (forall s, P (VVal s)) ->
  (forall l, (forall k v, (k, v) ∈ l -> P v) -> P (VObj l)) -> (forall l, (forall v, v ∈ l -> P v) -> P (VArr l)) -> forall v, P v.
Proof.
  intros H1 H2 H3 H4. fix IH 1. intros [r|s|l|l]; [done|done| |].
  - apply H3. induction l as [|[k v] l IHl]; intros k' v' H; [exfalso; exact (proj1 (elem_of_nil _) H)|]. apply elem_of_cons in H as [H|H]; [|exact (IHl k' v' H)].
    injection H as _ ->. apply IH.
  - apply H4. induction l as [|v l IHl]; intros v' H; [exfalso; exact (proj1 (elem_of_nil _) H)|]. apply elem_of_cons in H as [ -> |H]; [apply IH|exact (IHl v' H)].
Qed.
Fixpoint norm (v : nvalue) : nvalue :=
  match v with
  | VRef r => VRef r
  | VVal s => match ref_parse said_ok s with Some r => VRef r | None => VVal s end
  | VObj l => VObj (map (fun kv => (kv.1, norm kv.2)) l)
  | VArr l => VArr (map norm l)
  end.
Definition refs_ok (v : nvalue) : Prop := forall r, ref_in v r -> ref_ok said_ok r.
Lemma imap_extend_nodup {V} (l : imap V) : forall acc, NoDup (map fst acc ++ map fst l) -> imap_extend acc l = acc ++ l.
Proof.
  induction l as [|[k v] l IH]; intros acc H; [cbn; by rewrite app_nil_r|]. unfold imap_extend. cbn [fold_left fst snd]. cbn [map fst] in H.
  rewrite imap_insert_fresh.
  - change (imap_extend (acc ++ [(k, v)]) l = acc ++ (k, v) :: l). rewrite IH; [by rewrite <- app_assoc|]. rewrite map_app. cbn. by rewrite <- app_assoc.
  - intros Hin. apply NoDup_app in H as (_ & H & _). apply (H k Hin). left.
Qed.
Lemma nvalue_ok_sub l k v : nvalue_ok (VObj l) -> (k, v) ∈ l -> nvalue_ok v.
Proof.
  intros [_ H]. induction l as [|[k' v'] l IH]; intros Hin; [by apply elem_of_nil in Hin|]. destruct H as [H1 H2].
  apply elem_of_cons in Hin as [Hin|Hin]; [|by apply IH]. injection Hin as _ ->. done.
Qed.
Lemma nvalue_ok_elem l v : nvalue_ok (VArr l) -> v ∈ l -> nvalue_ok v.
Proof.
  intros H. cbn in H. induction l as [|v' l IH]; intros Hin; [by apply elem_of_nil in Hin|]. destruct H as [H1 H2].
  apply elem_of_cons in Hin as [ -> |Hin]; [done|by apply IH].
Qed.
Lemma nvalue_round v : nvalue_ok v -> refs_ok v -> nvalue_parse said_ok (nvalue_json v) = Ok (norm v).
Proof.
  induction v as [r|s|l IH|l IH] using nvalue_ind'; intros Hv Hr.
  - cbn [nvalue_json nvalue_parse norm]. rewrite ref_text_parse; [done|]. apply Hr. constructor.
  - cbn. by destruct (ref_parse said_ok s).
  - cbn [nvalue_json nvalue_parse norm].
    assert (E : (fix go (l : list (string * json)) : outcome (list (string * nvalue)) := match l with
                 | [] => Ok []
                 | (k, x) :: r => let! v := nvalue_parse said_ok x in let! r' := go r in Ok ((k, v) :: r')
                 end) (map (fun kv => (kv.1, nvalue_json kv.2)) l) = Ok (map (fun kv => (kv.1, norm kv.2)) l)).
    { assert (Q : forall k v, (k, v) ∈ l -> nvalue_parse said_ok (nvalue_json v) = Ok (norm v)).
      { intros k v Hin. eapply IH; [done|by eapply nvalue_ok_sub|]. intros r Hi. apply Hr. by econstructor. }
      clear -Q. induction l as [|[k v] l IHl]; [done|]. cbn. rewrite (Q k v) by left. cbn. rewrite IHl; [done|]. intros k' v' Hin. apply (Q k' v'). by right. }
    rewrite E. cbn [obind]. rewrite imap_extend_nodup; [done|]. cbn [map app]. rewrite map_map. cbn. apply Hv.
  - cbn [nvalue_json nvalue_parse norm].
    assert (E : (fix go (l : list json) : outcome (list nvalue) := match l with
                 | [] => Ok []
                 | x :: r => let! v := nvalue_parse said_ok x in let! r' := go r in Ok (v :: r')
                 end) (map nvalue_json l) = Ok (map norm l)).
    { assert (Q : forall v, v ∈ l -> nvalue_parse said_ok (nvalue_json v) = Ok (norm v)).
      { intros v Hin. apply IH; [done|by eapply nvalue_ok_elem|]. intros r Hi. apply Hr. by econstructor. }
      clear -Q. induction l as [|v l IHl]; [done|]. cbn. rewrite (Q v) by left. cbn. rewrite IHl; [done|]. intros v' Hin. apply (Q v'). by right. }
    rewrite E. done.
Qed.
Lemma norm_id v : norm v = v <-> forall s, text_in v s -> ~ looks_like_ref said_ok s.
Proof.
  induction v as [r|s|l IH|l IH] using nvalue_ind'.
  - split; [|done]. intros _ s H. by inversion H.
  - cbn. split.
    + destruct (ref_parse said_ok s) eqn:E; [done|]. intros _ s' H. inversion H; subst. by apply ref_parse_none.
    + intros H. rewrite (proj2 (ref_parse_none s)); [done|]. apply H. constructor.
  - cbn [norm]. split.
    + intros H s Ht. inversion Ht as [|k v l' s' Hin Hv|]; subst. apply (proj1 (IH k v Hin)); [|done]. injection H as H.
      assert (Q : map (fun kv : string * nvalue => (kv.1, norm kv.2)) l = map id l) by by rewrite map_id.
      apply elem_of_list_lookup in Hin as [i Hi]. assert (Q' : map (fun kv : string * nvalue => (kv.1, norm kv.2)) l !! i = l !! i) by by rewrite H.
      rewrite list_lookup_fmap, Hi in Q'. cbn in Q'. by injection Q'.
    + intros H. f_equal. rewrite <- (map_id l) at 2. apply map_ext_in. intros [k v] Hin. apply elem_of_list_In in Hin. cbn. unfold id. f_equal.
      apply (IH k v Hin). intros s Hs. apply H. by econstructor.
  - cbn [norm]. split.
    + intros H s Ht. inversion Ht as [| |v l' s' Hin Hv]; subst. apply (proj1 (IH v Hin)); [|done]. injection H as H.
      apply elem_of_list_lookup in Hin as [i Hi]. assert (Q' : map norm l !! i = l !! i) by by rewrite H.
      rewrite list_lookup_fmap, Hi in Q'. cbn in Q'. by injection Q'.
    + intros H. f_equal. rewrite <- (map_id l) at 2. apply map_ext_in. intros v Hin. apply elem_of_list_In in Hin. unfold id.
      apply (IH v Hin). intros s Hs. apply H. by econstructor.
Qed.

(** ** Structs *)
Lemma parse_pairs_round {V W} (f : json -> outcome W) (g : V -> json) (h : V -> W) (l : imap V) :
  (forall k v, (k, v) ∈ l -> f (g v) = Ok (h v)) -> NoDup (map fst l) ->
  imap_parse f (imap_json g l) = Ok (map (fun kv => (kv.1, h kv.2)) l).
Proof.
  intros H Hn. unfold imap_parse, imap_json.
  assert (E : parse_pairs f (map (fun kv => (kv.1, g kv.2)) l) = Ok (map (fun kv => (kv.1, h kv.2)) l)).
  { clear Hn. induction l as [|[k v] l IH]; [done|]. cbn. rewrite (H k v) by left. cbn. rewrite IH; [done|]. intros k' v' Hin. apply (H k'). by right. }
  rewrite E. cbn [obind]. rewrite imap_extend_nodup; [done|]. cbn [map app]. by rewrite map_map.
Qed.
Lemma strs_round l : strs_json_parse (jstrs l) = Ok l.
Proof. unfold strs_json_parse, jstrs. induction l as [|s l IH]; [done|]. cbn. cbn in IH. by rewrite IH. Qed.
Definition norm_map (l : imap nvalue) : imap nvalue := map (fun kv => (kv.1, norm kv.2)) l.
Definition norm_opt (o : option (imap nvalue)) : option (imap nvalue) := norm_map <$> o.
Definition vals_ok (o : option (imap nvalue)) : Prop := forall n v, has o n v -> refs_ok v.
Lemma vals_round o : values_ok o -> vals_ok o -> forall l, o = Some l -> imap_parse (nvalue_parse said_ok) (imap_json nvalue_json l) = Ok (norm_map l).
Proof.
  intros Hv Hr l E. destruct (Hv l E) as [Hn Hl]. apply parse_pairs_round; [|done]. intros k v Hin. apply imap_get_nodup in Hin; [|done].
  apply nvalue_round; [by eapply Hl|]. apply (Hr k). by exists l.
Qed.

Lemma opt_round {V W} (f : json -> outcome W) (g : V -> json) (h : V -> W) (o : option V) :
  (forall v, g v <> JNull) -> (forall v, o = Some v -> f (g v) = Ok (h v)) -> opt_parse f (g <$> o) = Ok (h <$> o).
Proof.
  intros Hn H. destruct o as [v|]; [|done]. cbn. rewrite (H v eq_refl). destruct (g v) eqn:E; try done. by destruct (Hn v).
Qed.
Lemma content_round ct : values_ok (ct_attrs ct) -> vals_ok (ct_attrs ct) -> values_ok (ct_props ct) -> vals_ok (ct_props ct) ->
  content_parse said_ok (content_json ct) = Ok (Content (norm_opt (ct_attrs ct)) (norm_opt (ct_props ct))).
Proof.
  intros A1 A2 P1 P2. unfold content_parse, content_json.
  assert (F1 : field "attributes" (opt_field "attributes" (imap_json nvalue_json) (ct_attrs ct) ++ opt_field "properties" (imap_json nvalue_json) (ct_props ct)) = Ok (imap_json nvalue_json <$> ct_attrs ct))
    by by destruct (ct_attrs ct), (ct_props ct).
  assert (F2 : field "properties" (opt_field "attributes" (imap_json nvalue_json) (ct_attrs ct) ++ opt_field "properties" (imap_json nvalue_json) (ct_props ct)) = Ok (imap_json nvalue_json <$> ct_props ct))
    by by destruct (ct_attrs ct), (ct_props ct).
  rewrite F1. cbn [obind]. rewrite (opt_round _ _ norm_map) by (try done; by apply vals_round). cbn [obind].
  rewrite F2. cbn [obind]. rewrite (opt_round _ _ norm_map) by (try done; by apply vals_round). done.
Qed.
Lemma capture_round cc : (forall l, cc_attrs cc = Some l -> NoDup (map fst l) /\ forall n t, imap_get n l = Some t -> nattr_ok said_ok t) ->
  values_ok (cc_props cc) -> vals_ok (cc_props cc) ->
  capture_parse said_ok (capture_json cc) = Ok (CapContent (cc_attrs cc) (norm_opt (cc_props cc)) (cc_flagged cc)).
Proof.
  intros A P1 P2. unfold capture_parse, capture_json. set (l := opt_field "attributes" _ _ ++ _).
  assert (F1 : field "attributes" l = Ok (imap_json nattr_json <$> cc_attrs cc)) by by subst l; destruct (cc_attrs cc), (cc_props cc), (cc_flagged cc).
  assert (F2 : field "properties" l = Ok (imap_json nvalue_json <$> cc_props cc)) by by subst l; destruct (cc_attrs cc), (cc_props cc), (cc_flagged cc).
  assert (F3 : field "flagged_attributes" l = Ok (jstrs <$> cc_flagged cc)) by by subst l; destruct (cc_attrs cc), (cc_props cc), (cc_flagged cc).
  rewrite F1. cbn [obind]. rewrite (opt_round _ _ id); [|done|].
  2: { intros m E. destruct (A m E) as [Hn Hm]. rewrite (parse_pairs_round _ _ id); [| |done].
       - f_equal. unfold id. transitivity (map (fun x : string * nattr => x) m); [|apply map_id]. apply map_ext. by intros [k v].
       - intros k v Hin. apply nattr_round. apply (Hm k). by apply imap_get_nodup. }
  rewrite option_fmap_id. cbn [obind]. rewrite F2. cbn [obind]. rewrite (opt_round _ _ norm_map) by (try done; by apply vals_round). cbn [obind].
  rewrite F3. cbn [obind]. rewrite (opt_round _ _ id); [|done|by intros; apply strs_round]. rewrite option_fmap_id. done.
Qed.
Definition read_back (c : command) : outcome command :=
  match cmd_obj c with
  | OCaptureBase cc => Ok (Command (cmd_kind c) (OCaptureBase (CapContent (cc_attrs cc) (norm_opt (cc_props cc)) (cc_flagged cc))))
  | OBundle _ => Ok c
  | OOverlay t ct => match otype_of_name (okind_name (ot_kind t)) with
                     | Some t' => Ok (Command (cmd_kind c) (OOverlay t' (Content (norm_opt (ct_attrs ct)) (norm_opt (ct_props ct)))))
                     | None => Err [("unknown field " +:+ okind_name (ot_kind t))%string]
                     end
  end.
Lemma kind_round k : cmd_type_parse (JStr (cmd_type_name k)) = Ok k. Proof. by destruct k. Qed.
Lemma command_round c : command_ok c -> refs_valid said_ok c -> command_parse said_ok (command_json c) = read_back c.
Proof.
  intros Hc [Hv Ho]. unfold command_parse, command_json, read_back. destruct c as [k o]. cbn [cmd_kind cmd_obj] in *.
  cbn [command_visit]. rewrite (proj2 (String.eqb_eq "type" "type") eq_refl), kind_round. cbn [obind command_visit].
  change (String.eqb "object_kind" "type") with false. change (String.eqb "object_kind" "object_kind") with true. cbn [fst snd].
  destruct o as [cc|bc|t ct]; cbn [obj_name obj_content_json].
  - rewrite (proj2 (String.eqb_eq _ _) eq_refl). destruct Hc as [A P]. cbn [cc_attrs cc_props cmd_obj] in A, P. rewrite capture_round; [done| |done|].
    + intros l E. split; [by apply A|]. intros n t' Hn. by apply (Ho l n t').
    + intros n v Hh r Hr. apply (Hv v r); [|done]. by exists n.
  - change (String.eqb "OCABundle" "CaptureBase") with false. change (String.eqb "OCABundle" "OCABundle") with true.
    unfold bundle_content_parse, bundle_content_json. cbn. rewrite ref_text_parse by done. cbn. by destruct bc.
  - assert (E1 : String.eqb (okind_name (ot_kind t)) "CaptureBase" = false) by by destruct (ot_kind t).
    assert (E2 : String.eqb (okind_name (ot_kind t)) "OCABundle" = false) by by destruct (ot_kind t).
    rewrite E1, E2. destruct (otype_of_name _); [|done]. destruct Hc as [A P]. cbn in A, P. rewrite content_round; [done|done| |done|].
    + intros n v Hh r Hr. apply (Hv v r); [|done]. exists n. by left.
    + intros n v Hh r Hr. apply (Hv v r); [|done]. exists n. by right.
Qed.
Lemma norm_opt_id o : values_ok o -> norm_opt o = o <-> forall n v s, has o n v -> text_in v s -> ~ looks_like_ref said_ok s.
Proof.
  intros Hok. unfold norm_opt, norm_map. destruct o as [l|]; cbn.
  - destruct (Hok l eq_refl) as [Hn _]. split.
    + intros H0 n v s (l' & E & Hg) Ht. injection E as <-. apply (proj1 (norm_id v)); [|done]. apply imap_get_elem in Hg. assert (H : map (fun kv : string * nvalue => (kv.1, norm kv.2)) l = l) by congruence. clear H0.
      apply elem_of_list_In, (in_map (fun kv : string * nvalue => (kv.1, norm kv.2))) in Hg as Hg'. cbn in Hg'. rewrite H in Hg'. apply elem_of_list_In in Hg'.
      apply elem_of_list_In in Hg. apply (imap_get_nodup _ _ _ Hn) in Hg. apply (imap_get_nodup _ _ _ Hn) in Hg'. congruence.
    + intros H. f_equal. rewrite <- (map_id l) at 2. apply map_ext_in. intros [k v] Hin. apply elem_of_list_In in Hin. cbn. unfold id. f_equal.
      apply norm_id. intros s. apply (H k). exists l. split; [done|]. by apply imap_get_nodup.
  - split; [|done]. intros _ n v s (l' & ? & _). done.
Qed.
Lemma command_faithful c : command_ok c -> refs_valid said_ok c -> command_parse said_ok (command_json c) = Ok c <-> json_faithful said_ok c.
Proof.
  intros Hc Hr. rewrite command_round by done. unfold read_back, json_faithful, value_in. destruct c as [k [cc|bc|t ct]]; cbn [cmd_kind cmd_obj].
  - destruct Hc as [_ P]. cbn in P. split.
    + intros H. assert (E : norm_opt (cc_props cc) = cc_props cc).
      { assert (H' : CapContent (cc_attrs cc) (norm_opt (cc_props cc)) (cc_flagged cc) = cc) by congruence. rewrite <- H' at 2. done. }
      split; [|done]. intros v s (n & Hn) Hs. by apply (proj1 (norm_opt_id _ P) E n v).
    + intros [H _]. rewrite (proj2 (norm_opt_id _ P)); [by destruct cc|]. intros n v s Hn Hs. apply (H v s); [by exists n|done].
  - split; [|done]. intros _. split; [by intros ? ? ?|done].
  - destruct Hc as [A P]. cbn in A, P. split.
    + destruct (otype_of_name _) as [t'|] eqn:E; [|done]. intros H. assert (H' : t' = t /\ Content (norm_opt (ct_attrs ct)) (norm_opt (ct_props ct)) = ct) by (split; congruence).
      destruct H' as [-> H']. destruct ct as [a p]. cbn [ct_attrs ct_props] in *. injection H' as Ha Hp. split.
      * intros v s (n & [Hn|Hn]) Hs; [by apply (proj1 (norm_opt_id _ A) Ha n v)|by apply (proj1 (norm_opt_id _ P) Hp n v)].
      * intros t0 ct0 [= <- <-]. destruct t as [k' v]. cbn [ot_kind ot_ver] in *. unfold otype_of_name in E.
        destruct (kind_of_name (okind_name k')) as [k2|] eqn:Ek; [|done]. cbn in E. injection E as -> <-. split; [done|]. by intros ->.
    + intros [H1 H2]. destruct (H2 t ct eq_refl) as [Hv Hk]. unfold otype_of_name. rewrite name_kind by done. cbn.
      rewrite (proj2 (norm_opt_id _ A)), (proj2 (norm_opt_id _ P)).
      * destruct t, ct. cbn in *. by rewrite Hv.
      * intros n v s Hn Hs. apply (H1 v s); [exists n; by right|done].
      * intros n v s Hn Hs. apply (H1 v s); [exists n; by left|done].
Qed.
End Refs.
