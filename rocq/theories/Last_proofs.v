(** The last word of a list of commands: one command at a time. *)
From Verif Require Import Spec_Last Upd_proofs Effect_proofs Command_proofs Load_proofs Bundle_proofs Box_proofs Run_proofs.

Section LP.
Variable from1 : string -> option string.
Notation says_c := (command_says from1).

(** Nothing carries a category label and there is no attribute mapping: holds from scratch, kept by every command. *)
(** proof device: an invariant of builds from scratch *)
Definition plain (b : obox) : Prop :=
  api_box b /\ (forall n a, bx_attrs b !! n = Some a -> at_catlabels a = None) /\ bx_maps b = None.
Lemma plain_new : plain box_new.
Proof. split; [apply ab_new|]. split; [|done]. intros n a H. cbn in H. by rewrite lookup_empty in H. Qed.
Lemma plain_category b s n : plain b -> category b s n = None.
Proof.
  intros (_ & H & _). unfold category. destruct s as [|k l| |]; try done. destruct k; try done.
  destruct (bx_attrs b !! n) as [a|] eqn:E; [|done]. cbn. by rewrite (H n a E).
Qed.
Lemma removes_dec n c : Decision (removes n c).
Proof.
  destruct c as [[] [cc|bc|t ct]]; try (right; intros (x & l & [=] & _); fail).
  destruct (cc_attrs cc) as [l|] eqn:E; [|right; intros (x & l & [= <-] & E' & _); congruence].
  destruct (decide (n ∈ imap_keys l)) as [H|H]; [left; by exists cc, l|].
  right. intros (x & l' & [= <-] & E' & Hin). rewrite E in E'. by injection E' as ->.
Qed.
Lemma is_meta_dec s : Decision (is_meta s).
Proof.
  destruct s as [k|k l|t|f]; try (right; intros [? [=]]; fail). destruct k; try (right; intros [? [=]]; fail). left. by exists l.
Qed.
Lemma not_meta s l : ~ is_meta s -> s <> SLang KMeta l.
Proof. intros H ->. apply H. by exists l. Qed.
Lemma says_not_meta k p v s d : says from1 k p v s d -> ~ is_meta s.
Proof. intros H [l ->]. inversion H. Qed.
Lemma says_not_mapping c s n d : says_c c s n d -> s <> SPlain KAttributeMapping.
Proof. intros H. destruct H as [t ct n v s d _ _ H|]; [|done]. intros ->. inversion H. Qed.

(** One accepted command. *)
Lemma one_command b c b' : plain b -> command_ok c -> apply_command from1 (Some b) c = Ok b' ->
  plain b' /\
  forall s n, s <> SPlain KAttributeMapping ->
    (wipes c s n -> box_datum b' s n = None) /\
    (forall d, says_c c s n d -> ~ wipes c s n /\ box_datum b' s n = Some (written s (box_datum b s n) None d)) /\
    (wipes c s n \/ (exists d, says_c c s n d) \/ (~ wipes c s n /\ (forall d, ~ says_c c s n d) /\ box_datum b' s n = box_datum b s n)).
Proof.
  intros Hp Hc H. assert (Hcat := plain_category b). pose proof Hp as Hp'. destruct Hp as (Hb & Hl & Hmap).
  assert (Hb' : api_box b') by (eapply (apply_api from1 (Some b)); [exact Hc|by intros ? [= <-]|exact H]).
  assert (Hbo := api_box_ok b Hb).
  destruct c as [[] [cc|bc|t ct]]; try done.
  - (* ADD to the capture base *)
    cbn in H. injection H as <-. unfold add_capture. destruct Hc as [Ha Hpp]. cbn in Ha, Hpp.
    set (b1 := fold_left _ (unwrap_or [] (cc_attrs cc)) b).
    destruct (add_capture_attrs (unwrap_or [] (cc_attrs cc)) b) as (A1 & A2 & A3 & A4);
      [by apply box_ok_names|destruct (cc_attrs cc); cbn; [by apply Ha|constructor]|]. fold b1 in A1, A2, A3, A4.
    destruct (add_capture_class (unwrap_or [] (cc_props cc)) b1) as (B1 & B2 & B3 & B4); [destruct (cc_props cc) as [p|]; cbn; [by apply (Hpp p)|constructor]|].
    set (b2 := fold_left _ (unwrap_or [] (cc_props cc)) b1) in *. split.
    + split; [unfold add_capture in Hb'; exact Hb'|]. split; [|by rewrite B2, A1].
      intros n a E. rewrite B1, A4 in E. destruct (imap_get n _) as [ty|]; [|by eapply Hl].
      destruct (bx_attrs b !! n) as [a0|] eqn:E0; injection E as <-; [|done]. by apply (Hl n a0).
    + assert (Hno : forall s n d, ~ says_c (Command CAdd (OCaptureBase cc)) s n d) by (intros s n d X; inversion X).
      intros s n Hs. assert (Hnw : ~ wipes (Command CAdd (OCaptureBase cc)) s n) by (intros [(x & l & [=] & _) _]).
      split; [done|]. split; [intros d X; by destruct (Hno s n d)|]. right; right. split; [done|]. split; [by apply Hno|].
      destruct (is_meta_dec s) as [[l ->]|Hm]; [unfold box_datum; by rewrite B3, A2|].
      rewrite !box_datum_attr by (intros; by apply not_meta). rewrite B1, A4.
      destruct (imap_get n _) as [ty|]; [|done]. destruct (bx_attrs b !! n) as [a0|]; cbn [mbind option_bind].
      * destruct s as [[]|[]| |]; try done.
      * destruct s as [[]|[]| |]; try done.
  - (* ADD to an overlay *)
    assert (Hnw : forall s n, ~ wipes (Command CAdd (OOverlay t ct)) s n) by (intros s n [(x & l & [=] & _) _]).
    assert (Hc' := Hc). destruct Hc as [Ha Hpp]. cbn in Ha, Hpp. cbn in H.
    destruct (decide (ot_kind t = KMeta)) as [Hk|Hk].
    + rewrite Hk in H. apply meta_effect in H as (H1 & H2 & H3 & H4 & H5); [|done]. split.
      { split; [done|]. split; [|by rewrite H2]. by rewrite H1. }
      intros s n Hs. split; [intros X; by destruct (Hnw s n)|]. split.
      * intros d X. split; [done|]. inversion X as [t' ct' n' v s' d' Hin|t' ct' l key x K Hla Hne Hh]; subst.
        -- exfalso. rewrite Hk in Hin. by apply loops_not_meta in Hin.
        -- rewrite (H4 l n x) by done. by destruct (box_datum b _ _).
      * destruct (is_meta_dec s) as [[l ->]|Hm].
        -- assert (D : (lang_is from1 (ct_props ct) l /\ n <> "lang" /\ exists x, has (ct_props ct) n (VVal x)) \/
                       ~ (lang_is from1 (ct_props ct) l /\ n <> "lang" /\ exists x, has (ct_props ct) n (VVal x))).
           { destruct (cmd_lang from1 (ct_props ct)) as [l'|] eqn:E.
             - destruct (decide (l' = l)) as [->|Hne]; [|right; intros [X%cmd_lang_spec _]; congruence].
               apply cmd_lang_spec in E. destruct (decide (n = "lang")) as [->|Hn]; [right; by intros (_ & ? & _)|].
               destruct (ct_props ct) as [p|]; [|right; by intros (_ & _ & x & q & ? & _)].
               destruct (imap_get n p) as [[|x| |]|] eqn:Ep;
                 try (right; intros (_ & _ & x' & q & [= <-] & X); congruence).
               left. split; [done|]. split; [done|]. exists x. by exists p.
             - right. intros [X%cmd_lang_spec _]. congruence. }
           destruct D as [(D1 & D2 & x & D3)|D].
           ++ right; left. exists (DText x). by apply cs_meta.
           ++ right; right. split; [done|]. split; [|by apply H5]. intros d X. apply D.
              inversion X as [t' ct' n' v s' d' Hin Hh Hsay|t' ct' l' key x K Hla Hne Hh]; subst; [exfalso; eapply says_not_meta; [exact Hsay|by exists l]|eauto].
        -- right; right. split; [done|]. split.
           ++ intros d X. inversion X as [t' ct' n' v s' d' Hin|t' ct' l key x K Hla Hne Hh]; subst.
              ** rewrite Hk in Hin. by apply loops_not_meta in Hin.
              ** apply Hm. by exists l.
           ++ rewrite !box_datum_attr by (intros; by apply not_meta). by rewrite H1.
    + destruct (overlay_rest from1 b b' (ot_kind t) ct Hbo Ha Hpp Hk H) as (R1 & R2 & R3 & R4 & R5 & R6).
      destruct (overlay_effect from1 b b' (ot_kind t) ct Hbo Ha Hpp Hk H) as (_ & _ & _ & Eff).
      split.
      { split; [done|]. split; [|by rewrite R1]. intros n a E. rewrite Eff in E. unfold eff_at in E.
        destruct (bx_attrs b !! n) as [a0|] eqn:E0; [|done].
        destruct (imap_get n _) as [v|]; injection E as <-; [|by apply (Hl n)].
        destruct (eff_keeps from1 (ot_kind t) (ct_props ct) v a0) as (_ & _ & ->). by apply (Hl n). }
      intros s n Hs. split; [intros X; by destruct (Hnw s n)|]. split.
      * intros d X. split; [done|]. inversion X as [t' ct' n' v s' d' Hin Hh Hsay|t' ct' l key x K Hla Hne Hh]; subst; [|done].
        destruct (overlay_given from1 b b' (ot_kind t) ct n v s d Hbo Ha Hpp H Hin Hh Hsay) as [E _].
        by rewrite E, (Hcat s n Hp').
      * destruct (decide (ot_kind t ∈ attribute_kinds)) as [Hin|Hin].
        2:{ right; right. split; [done|]. split.
            - intros d X. inversion X; subst; done.
            - eapply (overlay_other from1 b b' (ot_kind t) ct n Hbo Ha Hpp Hk H). done. }
        destruct (match ct_attrs ct with Some l => imap_get n l | None => None end) as [v|] eqn:Ev.
        2:{ right; right. split; [done|]. split.
            - intros d X. inversion X as [t' ct' n' v s' d' Hin' Hh Hsay|]; subst; [|done]. destruct Hh as (l & E & Hg). rewrite E in Ev. congruence.
            - eapply (overlay_other from1 b b' (ot_kind t) ct n Hbo Ha Hpp Hk H). intros v s0 d _ (l & E & Hg) _. rewrite E in Ev. congruence. }
        assert (Hh : has (ct_attrs ct) n v). { destruct (ct_attrs ct) as [l|]; [|done]. by exists l. }
        assert (Hv : nvalue_ok v). { destruct Hh as (l & E & Hg). by eapply (proj2 (Ha l E)). }
        assert (Hu : forall v', has (ct_attrs ct) n v' -> v' = v). { intros v' (l & E & Hg). rewrite E in Ev. congruence. }
        destruct (value_upd from1 (ot_kind t) (ct_props ct) v) as [[u|]| |] eqn:Eu.
        -- assert (Hsay := upd_says from1 _ _ _ _ Hv Hpp Eu).
           assert (EqS : {upd_slot u = s} + {upd_slot u <> s}) by (repeat decide equality). destruct EqS as [<-|Hne].
           ++ right; left. exists (upd_datum u). by eapply cs_attr.
           ++ right; right. split; [done|]. split.
              ** intros d X. inversion X as [t' ct' n' v' s' d' Hin' Hh' Hsay'|]; subst; [|done]. rewrite (Hu v' Hh') in Hsay'.
                 destruct (says_upd from1 _ _ _ _ _ Hv Hpp Hsay') as (u' & Eu' & E1 & E2). rewrite Eu in Eu'. injection Eu' as <-. done.
              ** apply (overlay_given from1 b b' (ot_kind t) ct n v (upd_slot u) (upd_datum u)); try done; congruence.
        -- right; right. split; [done|].
           assert (Hno : forall v s d, has (ct_attrs ct) n v -> ~ says from1 (ot_kind t) (ct_props ct) v s d).
           { intros v' s' d' Hh' Hsay'. rewrite (Hu v' Hh') in Hsay'. destruct (says_upd from1 _ _ _ _ _ Hv Hpp Hsay') as (u' & Eu' & _). congruence. }
           split; [intros d X; inversion X as [t' ct' n' v' s' d' Hin' Hh' Hsay'|]; subst; [by eapply Hno|done]|].
           eapply (overlay_other from1 b b' (ot_kind t) ct n Hbo Ha Hpp Hk H). intros; by eapply Hno.
        -- right; right. split; [done|].
           assert (Hno : forall v s d, has (ct_attrs ct) n v -> ~ says from1 (ot_kind t) (ct_props ct) v s d).
           { intros v' s' d' Hh' Hsay'. rewrite (Hu v' Hh') in Hsay'. destruct (says_upd from1 _ _ _ _ _ Hv Hpp Hsay') as (u' & Eu' & _). congruence. }
           split; [intros d X; inversion X as [t' ct' n' v' s' d' Hin' Hh' Hsay'|]; subst; [by eapply Hno|done]|].
           eapply (overlay_other from1 b b' (ot_kind t) ct n Hbo Ha Hpp Hk H). intros; by eapply Hno.
        -- right; right. split; [done|].
           assert (Hno : forall v s d, has (ct_attrs ct) n v -> ~ says from1 (ot_kind t) (ct_props ct) v s d).
           { intros v' s' d' Hh' Hsay'. rewrite (Hu v' Hh') in Hsay'. destruct (says_upd from1 _ _ _ _ _ Hv Hpp Hsay') as (u' & Eu' & _). congruence. }
           split; [intros d X; inversion X as [t' ct' n' v' s' d' Hin' Hh' Hsay'|]; subst; [by eapply Hno|done]|].
           eapply (overlay_other from1 b b' (ot_kind t) ct n Hbo Ha Hpp Hk H). intros; by eapply Hno.
  - (* REMOVE from the capture base *)
    cbn in H. injection H as <-. unfold remove_capture in Hb' |- *.
    set (b1 := fold_left _ (unwrap_or [] (cc_attrs cc)) b) in *.
    destruct (remove_capture_attrs (unwrap_or [] (cc_attrs cc)) b) as (A1 & A2 & A3 & A4). fold b1 in A1, A2, A3, A4.
    destruct (remove_capture_class (unwrap_or [] (cc_props cc)) b1) as (B1 & B2 & B3 & B4).
    set (b2 := fold_left _ (unwrap_or [] (cc_props cc)) b1) in *. split.
    + split; [exact Hb'|]. split; [|by rewrite B2, A1].
      intros n a E. rewrite B1, A4 in E. case_decide; [done|]. by apply (Hl n).
    + assert (Hno : forall s n d, ~ says_c (Command CRemove (OCaptureBase cc)) s n d) by (intros s n d X; inversion X).
      assert (Hrm : forall n, removes n (Command CRemove (OCaptureBase cc)) <-> n ∈ map fst (unwrap_or [] (cc_attrs cc))).
      { intros n. split.
        - intros (x & l & [= <-] & E & Hin). rewrite E. exact Hin.
        - intros Hin. destruct (cc_attrs cc) as [l|] eqn:E; [|by apply not_elem_of_nil in Hin]. by exists cc, l. }
      intros s n Hs. split; [|split; [intros d X; by destruct (Hno s n d)|]].
      * intros [Hr Hm]. rewrite box_datum_attr by (intros; by apply not_meta). rewrite B1, A4. by rewrite decide_True by by apply Hrm.
      * destruct (is_meta_dec s) as [Hm|Hm].
        -- right; right. split; [by intros [_ X]|]. split; [by apply Hno|]. destruct Hm as [l ->]. unfold box_datum. by rewrite B3, A2.
        -- destruct (removes_dec n (Command CRemove (OCaptureBase cc))) as [Hr|Hr]; [left; by split|].
           right; right. split; [by intros [? _]|]. split; [by apply Hno|].
           rewrite !box_datum_attr by (intros; by apply not_meta). rewrite B1, A4. rewrite decide_False; [done|]. by rewrite <- Hrm.
Qed.
End LP.
