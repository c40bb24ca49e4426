(** The generator's texts are written as by hand. *)
From Coq Require Import Lia.
From Verif Require Export HandLayout.
From Verif Require Import Condition_proofs Bundle_proofs.

Section HandPrinted.
Variable wide : ascii -> bool.
Variable said_ok : string -> bool.
Local Notation hand := (hand wide said_ok).

Lemma gap_space : gap " ". Proof. by apply gap_blank; [|apply gap_none]. Qed.
Lemma sep_space : sep " ". Proof. split; [apply gap_space|done]. Qed.
Lemma pairs_of {A V} (apart around : string -> Prop) (value : V -> string -> Prop) (key : A -> string) (val : A -> V) (txt : A -> string) (sp : A -> string) l :
  around "" -> Forall (fun x => apart (sp x) /\ name_ok (key x) /\ value (val x) (txt x)) l ->
  w_pairs apart around value (map (fun x => (key x, val x)) l) (cat_map (fun x => (sp x +:+ key x +:+ "=" +:+ txt x)%string) l).
Proof.
  intros Ha H. induction H as [|x l (H1 & H2 & H3) Hl IH]; [apply pt_none|]. rewrite cat_cons. cbn [map].
  eapply eq_rect; [exact (pt_pair apart around value (sp x) (key x) "" "" (val x) (txt x) _ _ H1 H2 Ha Ha H3 IH)|]. cbn [append]. by rewrite !append_assoc.
Qed.
Lemma cat_map_ext {A} (f g : A -> string) l : Forall (fun x => f x = g x) l -> cat_map f l = cat_map g l.
Proof. induction 1 as [|x l H Hl IH]; [done|]. by rewrite !cat_cons, H, IH. Qed.
Lemma commas_of {A B} (elt : B -> string -> Prop) (val : A -> B) (txt : A -> string) x l : Forall (fun x => elt (val x) (txt x)) (x :: l) ->
  w_commas elt (map val (x :: l)) (String.concat ", " (map txt (x :: l))).
Proof.
  revert x. induction l as [|y l IH]; intros x H; inversion H as [|? ? H1 H2]; subst; [by apply ct_last|].
  change (String.concat ", " (map txt (x :: y :: l))) with (txt x +:+ "," +:+ " " +:+ String.concat ", " (map txt (y :: l)))%string.
  apply ct_more; [done|done|]. by apply IH.
Qed.
Lemma plain_pairs m : Forall (fun kv => name_ok kv.1 /\ quotable kv.2 = true) m -> w_pairs sep gap (w_value wide) (plain_map m) (cat_map kv_quoted (plain_map m)).
Proof.
  intros H. replace (cat_map kv_quoted (plain_map m)) with (cat_map (fun kv : string * string => (" " +:+ kv.1 +:+ "=" +:+ Q +:+ kv.2 +:+ Q)%string) m).
  - apply (pairs_of sep gap (w_value wide) fst (fun kv => VVal kv.2) (fun kv => Q +:+ kv.2 +:+ Q)%string (fun _ => " ")); [apply gap_none|].
    eapply Forall_impl; [exact H|]. intros [k v] [Hk Hv]. split; [apply sep_space|]. split; [done|]. apply vt_word, wt_quoted. by apply qt_double.
  - unfold plain_map. clear. induction m as [|[k v] m IH]; [done|]. cbn [map]. by rewrite !cat_cons, IH.
Qed.
Lemma plain_pairs_more m : Forall (fun kv => name_ok kv.1 /\ quotable kv.2 = true) m -> w_pairs sep gap (w_value wide) (plain_map m) (" " +:+ cat_map kv_quoted (plain_map m)) \/ m = [].
Proof.
  intros H. destruct m as [|[k v] m]; [by right|left]. inversion H as [|? ? [Hk Hv] Hm]; subst. unfold plain_map. cbn [map]. rewrite cat_cons.
  assert (Hs2 : sep "  ") by (split; [by apply gap_blank; [|apply gap_space]|done]).
  eapply eq_rect; [exact (pt_pair sep gap (w_value wide) "  " k "" "" (VVal v) (Q +:+ v +:+ Q) _ _ Hs2 Hk gap_none gap_none (vt_word _ _ _ (wt_quoted _ _ _ (qt_double _ Hv))) (plain_pairs m Hm))|].
  unfold plain_map. cbn [fst snd kv_quoted append]. rewrite ?append_assoc. cbn [append]. rewrite ?append_assoc. reflexivity.
Qed.
Lemma unit_pairs m : Forall (fun kv => name_ok kv.1 /\ quotable kv.2 = true) m -> w_pairs space_first gap w_unit (plain_map m) (cat_map kv_quoted (plain_map m)).
Proof.
  intros H. replace (cat_map kv_quoted (plain_map m)) with (cat_map (fun kv : string * string => (" " +:+ kv.1 +:+ "=" +:+ Q +:+ kv.2 +:+ Q)%string) m).
  - apply (pairs_of space_first gap w_unit fst (fun kv => VVal kv.2) (fun kv => Q +:+ kv.2 +:+ Q)%string (fun _ => " ")); [apply gap_none|].
    eapply Forall_impl; [exact H|]. intros [k v] [Hk Hv]. split; [exists ""; split; [done|apply gap_none]|]. split; [done|]. apply ut_quoted. by apply qt_double.
  - unfold plain_map. clear. induction m as [|[k v] m IH]; [done|]. cbn [map]. by rewrite !cat_cons, IH.
Qed.
Lemma strings_list ss : Forall (fun v => quotable v = true) ss -> w_list (map VVal ss) (list_text ss).
Proof.
  intros H. destruct ss as [|s ss]; [apply lt_none|]. unfold list_text. apply lt_some.
  apply (commas_of (fun v t => exists s, v = VVal s /\ w_quoted s t) VVal sq). eapply Forall_impl; [exact H|]. intros v Hv. exists v. split; [done|]. by apply qt_double.
Qed.
Lemma braces_of {A} (elt : nvalue -> string -> Prop) (key : A -> string) (val : A -> nvalue) (txt : A -> string) l :
  Forall (fun x => quotable (key x) = true /\ elt (val x) (txt x)) l -> w_braces elt (map (fun x => (key x, val x)) l) (braces (map (fun x => colon (key x) (txt x)) l)).
Proof.
  intros H. destruct l as [|x l]; [apply bt_none|]. unfold braces.
  change ("{" +:+ String.concat ", " (map (fun x => colon (key x) (txt x)) (x :: l)) +:+ "}")%string
    with ("{" +:+ "" +:+ String.concat ", " (map (fun x => colon (key x) (txt x)) (x :: l)) +:+ "" +:+ "}")%string.
  apply bt_some; [done|done|].
  apply (commas_of _ (fun x => (key x, val x)) (fun x => colon (key x) (txt x))). eapply Forall_impl; [exact H|]. intros y [Hk Hv].
  exists (sq (key y)), " ", (txt y). split; [by apply qt_double|]. done.
Qed.
Lemma code_written c : code_ok c -> cv_fine c -> w_code wide (cv_val c) (cv_text c).
Proof.
  intros H Hf. destruct c as [s|l|l]; cbn [cv_val cv_text code_ok] in *.
  - apply co_word, wt_quoted. by apply qt_double.
  - apply co_list. by apply strings_list.
  - apply co_groups; [cbn in Hf; by rewrite map_map|]. unfold groups_text.
    apply (braces_of (fun v t => exists l, v = VArr l /\ w_list l t) fst (fun g => VArr (map VVal g.2)) (fun g => list_text g.2)).
    eapply Forall_impl; [exact H|]. intros [g ss] [Hg Hs]. split; [done|]. eexists. split; [reflexivity|]. by apply strings_list.
Qed.
Lemma entry_written c : entry_ok c -> ev_fine c -> w_entry wide (ev_val c) (ev_text c).
Proof.
  intros H Hf. destruct c as [s|l]; cbn [ev_val ev_text entry_ok] in *.
  - apply en_word, wt_quoted. by apply qt_double.
  - apply en_entries; [cbn in Hf; by rewrite map_map|]. unfold entries_text.
    apply (braces_of (fun v t => exists s, v = VVal s /\ w_quoted s t) fst (fun g => VVal g.2) (fun g => sq g.2)).
    eapply Forall_impl; [exact H|]. intros [g s] [Hg Hs]. split; [done|]. eexists. split; [reflexivity|]. by apply qt_double.
Qed.
Lemma type_written t : type_ok wide said_ok t -> w_type wide said_ok t (ty_text t).
Proof.
  induction 1 as [t|s Hs Hok|t Ht IH]; [apply ty_base|by apply (ty_said wide said_ok "refs:")|].
  apply (ty_array wide said_ok t "" (ty_text t) ""); [apply gap_none|apply gap_none|done].
Qed.
Theorem hand_printed c t : printable wide said_ok c -> set_apart c -> command_text c = Some t -> hand (as_read c) t.
Proof.
  intros H Ha E. destruct H as [l H|v H|ver l ps ats Hl Hnl H Hats|k ver l ats Hk Hl H|k ver ats ps Hk H Hps|ver ats ps H Hps|ver l ats Hl H|ver s ats Hs Hok H|l Hn H|v].
  - destruct H as (Hl & Hn & H).
    cbn [command_text cmd_kind cmd_obj cc_attrs cc_props] in E. rewrite (types_line wide said_ok) in E by (eapply Forall_impl; [exact H|]; by intros ? []).
    cbn [option_map opt_text] in E. rewrite append_nil_r in E. injection E as <-. cbn [as_read].
    apply (ha_attrs wide said_ok "ADD" " " "ATTRIBUTE" l); [done|apply sep_space|done|done|].
    unfold attrs_line, attr_text. replace l with (map (fun kt : string * nattr => (kt.1, kt.2)) l) at 1 by (rewrite <- (map_id l) at 2; apply map_ext; by intros []).
    apply (pairs_of sep gap (w_type wide said_ok) fst snd (fun kt => ty_text kt.2) (fun _ => " ")); [apply gap_none|].
    eapply Forall_impl; [exact H|]. intros [k t] [Hk Ht]. split; [apply sep_space|]. split; [done|]. by apply type_written.
  - assert (Et : t = ("ADD CLASSIFICATION " +:+ v)%string) by (cbn in E; injection E as <-; by rewrite ?append_nil_r). subst t. cbn [as_read].
    destruct H as [H|(w & -> & H)].
    + apply (ha_class wide said_ok "ADD" " " "CLASSIFICATION" " " v v); [done|apply sep_space|done|apply sep_space|by apply wt_bare].
    + apply (ha_class wide said_ok "ADD" " " "CLASSIFICATION" " " w (Q +:+ w +:+ Q)); [done|apply sep_space|done|apply sep_space|apply wt_quoted; by apply qt_double].
  - destruct H as (Hp & Hn & H).
    assert (Hrot : Forall (fun kv => name_ok kv.1 /\ plain_ok kv.2) (last_first ps)) by (by rewrite (last_first_perm ps)).
    assert (Hrn : NoDup (map fst (last_first ps))) by (by rewrite (last_first_perm ps)).
    assert (Hrl : ~ "lang" ∈ map fst (last_first ps)) by (by rewrite (last_first_perm ps)).
    assert (Hrp : last_first ps <> []). { intros E'. apply Hp. apply Permutation_nil_r. rewrite <- (last_first_perm ps), E'. done. }
    assert (Et : t = ("ADD META " +:+ l +:+ " PROPS " +:+ cat_map kv_quoted (last_first ps))%string).
    { cbn [command_text cmd_kind cmd_obj overlay_text ot_kind ct_props opt_text] in E. rewrite rotate_is in E by done. unfold lang_text in E. cbn [imap_get String.eqb Ascii.eqb Bool.eqb] in E.
      unfold props_text in E. destruct (last_first ps) as [|x y]; [done|]. injection E as <-. rewrite !append_assoc. reflexivity. }
    subst t. cbn [as_read]. destruct (plain_table_of _ Hrot) as (m & Em & Hm). rewrite Em in *.
    replace (unwrap_or [] ats) with (@nil (string * nvalue)) by (by destruct Hats as [-> | ->]).
    assert (W' : w_pairs sep gap (w_value wide) (plain_map m) (" " +:+ cat_map kv_quoted (plain_map m))) by (destruct (plain_pairs_more m Hm) as [W'| ->]; [exact W'|by destruct Hrp]).
    eapply eq_rect; [apply (ha_meta wide said_ok "ADD" " " "META" " " l " " "PROPS" (plain_map m) (" " +:+ cat_map kv_quoted (plain_map m)) "");
      [done|apply sep_space|done|apply sep_space|done|apply sep_space|done|split; [done|by constructor]|done|exact W'|done]|].
    rewrite append_nil_r. reflexivity.
  - destruct H as (Hp & Hn & H). destruct (plain_table_of _ H) as (m & -> & Hm).
    assert (Et : t = ("ADD " +:+ upper_snake k +:+ " " +:+ l +:+ " ATTRS" +:+ cat_map kv_quoted (plain_map m))%string).
    { destruct Hk as [-> | ->]; cbn [command_text cmd_kind cmd_obj overlay_text ot_kind ct_props ct_attrs opt_text] in E; unfold lang_text, attrs_text, swap_remove, imap_mem in E;
        cbn [imap_get String.eqb Ascii.eqb Bool.eqb existsb fst orb rev app upper_snake props_text] in E; injection E as <-; cbn [upper_snake]; rewrite ?append_assoc; reflexivity. }
    subst t. replace (as_read (Command CAdd (OOverlay (OType k ver) (Content (Some (plain_map m)) (Some [("lang", VVal l)])))))
      with (Command CAdd (OOverlay (OType k "1.1") (Content (Some (plain_map m)) (Some [("lang", VVal l)])))) by (by destruct Hk as [-> | ->]).
    eapply eq_rect; [apply (ha_lang wide said_ok k (lower_str (upper_snake k)) "ADD" " " (upper_snake k) " " l " " "ATTRS" (plain_map m) (cat_map kv_quoted (plain_map m)) "");
      [apply elem_of_list_In; destruct Hk as [-> | ->]; cbn; auto 10|done|apply sep_space|done|apply sep_space|done|apply sep_space|done|done| |done]|].
    + destruct Hk as [-> | ->]; by apply plain_pairs.
    + rewrite append_nil_r. reflexivity.
  - destruct H as (Hp & Hn & H). destruct (plain_table_of _ H) as (m & -> & Hm).
    assert (Hw : exists w, (k, w) ∈ plain_words /\ exists W, lower_str W = w /\ t = ("ADD " +:+ W +:+ " ATTRS" +:+ cat_map kv_quoted (plain_map m))%string).
    { destruct Hk as [-> |[-> |[-> |[-> |[-> | ->]]]]];
        [exists "character_encoding"|exists "format"|exists "conformance"|exists "cardinality"|exists "condition"|exists "unit"]; (split; [apply elem_of_list_In; cbn; auto 10|]);
        [exists "CHARACTER_ENCODING"|exists "FORMAT"|exists "CONFORMANCE"|exists "CARDINALITY"|exists "CONDITION"|exists "UNIT"]; (split; [reflexivity|]);
        cbn [command_text cmd_kind cmd_obj overlay_text ot_kind ct_props ct_attrs upper_snake attrs_text] in E; destruct Hps as [-> | ->]; injection E as <-; reflexivity. }
    destruct Hw as (w & Hkw & W & HW & ->).
    replace (as_read (Command CAdd (OOverlay (OType k ver) (Content (Some (plain_map m)) ps))))
      with (Command CAdd (OOverlay (OType k "1.1") (Content (Some (plain_map m)) (Some [])))) by (destruct Hps as [-> | ->]; by destruct Hk as [-> |[-> |[-> |[-> |[-> | ->]]]]]).
    eapply eq_rect; [apply (ha_plain wide said_ok k w "ADD" " " W " " "ATTRS" (plain_map m) (cat_map kv_quoted (plain_map m)) "");
      [done|done|apply sep_space|done|apply sep_space|done|done| |split; [done|by left]]|].
    + destruct Hk as [-> |[-> |[-> |[-> |[-> | ->]]]]]; by first [apply plain_pairs|apply unit_pairs].
    + rewrite append_nil_r. reflexivity.
  - destruct H as (Hp & Hn & H). destruct (codes_of _ H) as (m & -> & Hm).
    assert (Et : t = ("ADD ENTRY_CODE ATTRS" +:+ cat_map code_text (code_map m))%string).
    { cbn [command_text cmd_kind cmd_obj overlay_text ot_kind ct_props ct_attrs attrs_text] in E. destruct Hps as [-> | ->]; injection E as <-; reflexivity. }
    subst t. replace (as_read (Command CAdd (OOverlay (OType KEntryCode ver) (Content (Some (code_map m)) ps))))
      with (Command CAdd (OOverlay (OType KEntryCode "1.1") (Content (Some (code_map m)) (Some [])))) by (by destruct Hps as [-> | ->]).
    eapply eq_rect; [apply (ha_plain wide said_ok KEntryCode "entry_code" "ADD" " " "ENTRY_CODE" " " "ATTRS" (code_map m) (cat_map code_text (code_map m)) "");
      [apply elem_of_list_In; cbn; auto 10|done|apply sep_space|done|apply sep_space|done|done| |split; [done|by left]]|].
    + cbn [w_table]. replace (cat_map code_text (code_map m)) with (cat_map (fun x : string * code_value => (" " +:+ x.1 +:+ "=" +:+ cv_text x.2)%string) m).
      * unfold code_map. apply (pairs_of sep tight (w_code wide) fst (fun x => cv_val x.2) (fun x => cv_text x.2) (fun _ => " ")); [done|].
        eapply Forall_impl; [exact Hm|]. intros [k c] (H1 & H2 & H3). split; [apply sep_space|]. split; [done|]. by apply code_written.
      * unfold code_map. clear. induction m as [|[k c] m IH]; [done|]. cbn [map]. rewrite !cat_cons, IH. cbn [fst snd]. by rewrite code_text_is.
    + rewrite append_nil_r. reflexivity.
  - destruct H as (Hp & Hn & H). destruct (entries_of _ H) as (m & -> & Hm).
    assert (Et : t = ("ADD ENTRY " +:+ l +:+ " ATTRS " +:+ cat_map entry_text (entry_map m))%string).
    { cbn [command_text cmd_kind cmd_obj overlay_text ot_kind ct_props ct_attrs opt_text] in E. unfold lang_text, attrs_text, swap_remove, imap_mem in E.
      cbn [imap_get String.eqb Ascii.eqb Bool.eqb existsb fst orb rev app upper_snake props_text] in E. injection E as <-. rewrite ?append_assoc. reflexivity. }
    subst t. cbn [as_read unwrap_or].
    destruct m as [|[k c] m]; [done|]. inversion Hm as [|? ? (H1 & H2 & H3) Hm']; subst. cbn [fst snd] in *.
    assert (Hs : Forall (fun kc : string * entry_value => exists s, kc.2 = EVText s) m).
    { clear -Ha. unfold entry_map in Ha. cbn [map set_apart] in Ha. induction m as [|[k' c'] m IH]; [constructor|]. cbn [map] in Ha. inversion Ha as [|? ? [s Hs] Hr]; subst.
      constructor; [|by apply IH]. cbn [snd] in *. destruct c' as [s'|l']; [by eexists|discriminate Hs]. }
    assert (Et : (" " +:+ cat_map entry_text (entry_map ((k, c) :: m)))%string =
      ((" " +:+ entry_sep c) +:+ k +:+ "" +:+ "=" +:+ "" +:+ ev_text c +:+ cat_map (fun x : string * entry_value => (" " +:+ x.1 +:+ "=" +:+ ev_text x.2)%string) m)%string).
    { unfold entry_map. cbn [map]. rewrite cat_cons. cbn [fst snd]. rewrite entry_text_is. unfold entry_pair_text. cbn [append]. rewrite !append_assoc. do 3 f_equal. cbn [append]. do 2 f_equal.
      clear -Hs. induction Hs as [|[k' c'] m [s Hc] Hs IH]; [done|]. cbn [map]. cbn [snd] in Hc. subst c'. rewrite !cat_cons, IH. reflexivity. }
    eapply eq_rect; [apply (ha_lang wide said_ok KEntry "entry" "ADD" " " "ENTRY" " " l " " "ATTRS" (entry_map ((k, c) :: m)) (" " +:+ cat_map entry_text (entry_map ((k, c) :: m))) "");
      [apply elem_of_list_In; cbn; auto 10|done|apply sep_space|done|apply sep_space|done|apply sep_space|done|done| |done]|].
    + cbn [w_table]. rewrite Et. unfold entry_map. cbn [map fst snd].
      apply pt_pair; [split; [apply gap_blank; [done|]; destruct c; [apply gap_space|apply gap_none]|done]|done|done|done|by apply entry_written|].
      apply (pairs_of sep tight (w_entry wide) fst (fun x => ev_val x.2) (fun x => ev_text x.2) (fun _ => " ")); [done|].
      eapply Forall_impl; [exact Hm'|]. intros [k' c'] (G1 & G2 & G3). split; [apply sep_space|]. split; [done|]. by apply entry_written.
    + rewrite append_nil_r. reflexivity.
  - destruct H as (Hp & Hn & H). destruct (plain_table_of _ H) as (m & -> & Hm).
    assert (Et : t = ("ADD LINK refs:" +:+ s +:+ " ATTRS" +:+ cat_map kv_quoted (plain_map m))%string).
    { cbn [command_text cmd_kind cmd_obj overlay_text ot_kind ct_props ct_attrs opt_text] in E. unfold attrs_text in E. cbn [imap_get String.eqb Ascii.eqb Bool.eqb] in E.
      injection E as <-. rewrite ?append_assoc. reflexivity. }
    subst t. cbn [as_read unwrap_or].
    eapply eq_rect; [apply (ha_link wide said_ok "ADD" " " "LINK" " " (RSaid s) ("refs:" +:+ s) " " "ATTRS" (plain_map m) (cat_map kv_quoted (plain_map m)) "");
      [done|apply sep_space|done|apply sep_space|by apply tt_said|apply sep_space|done|done|by apply plain_pairs|done]|].
    rewrite append_nil_r. cbn [append]. rewrite ?append_assoc. reflexivity.
  - assert (Et : t = ("REMOVE ATTRIBUTE" +:+ cat_map (fun kv : string * nattr => (" " +:+ kv.1)%string) l)%string).
    { cbn [command_text cmd_kind cmd_obj cc_attrs cc_props opt_text] in E. rewrite append_nil_r in E. injection E as <-. reflexivity. }
    subst t. cbn [as_read]. rewrite <- (map_map fst (fun k => (k, NNull))).
    apply (ha_remove wide said_ok "REMOVE" " " "ATTRIBUTE" (map fst l)); [done|apply sep_space|done|done|].
    clear -H. induction H as [|[k v] l Hk Hl IH]; [apply nt_none|]. rewrite cat_cons. cbn [map fst]. rewrite append_assoc. apply nt_name; [apply sep_space|done|done].
  - cbn in E. injection E as <-. cbn [as_read]. by apply (ha_unclass wide said_ok "REMOVE" " " "CLASSIFICATION"); [|apply sep_space|].
Qed.
End HandPrinted.
