(** C54: standards. *)
From Verif Require Import Spec_Standard Regex_proofs Standard_proofs Condition_proofs BundleCodec Spec_BundleCodec BundleCodec_proofs Sort_proofs Codec_proofs Props_Codec.

(** The pattern test is the membership test: a text is accepted by a pattern exactly when it is one of its texts. *)
Theorem C54_pattern_match : forall r s, rx_match r s = true <-> means r (list_ascii_of_string s).
Proof. intros. apply rx_match_spec. Qed.
Print Assumptions C54_pattern_match.

Lemma read_ok urn v t : read_standard urn v = Some t -> t = lower_str v /\ standard_validate urn (lower_str v) = Ok (lower_str v).
Proof.
  unfold read_standard, standard_new, standard_validate. destruct (urn (lower_str v)) as [[nid nss]|]; [|discriminate].
  destruct (regexes nid) as [r|]; [|discriminate]. destruct (rx_match r nss); [|discriminate]. intros [= <-]. done.
Qed.

(** What is kept of a standard is its name in small letters, and reading that again gives it again; names that differ in
    the case of letters are the same standard. *)
Theorem C54_reading_settles : forall urn v t, read_standard urn v = Some t ->
  t = lower_str v /\ read_standard urn t = Some t /\ forall w, lower_str w = lower_str v -> read_standard urn w = Some t.
Proof.
  intros urn v t H. destruct (read_ok _ _ _ H) as [-> E]. split; [done|].
  assert (X : forall w, lower_str w = lower_str v -> read_standard urn w = Some (lower_str v)).
  { intros w Ew. unfold read_standard, standard_new. by rewrite Ew, E. }
  split; [apply X, lower_idem|done].
Qed.
Print Assumptions C54_reading_settles.

(** Only the two namespaces of standards.yml are known: everything else is turned down. *)
Theorem C54_namespaces : forall urn v t, read_standard urn v = Some t ->
  exists nss, urn t = Some ("ietf", nss) \/ urn t = Some ("iso", nss).
Proof.
  intros urn v t H. destruct (read_ok _ _ _ H) as [-> E]. unfold standard_validate in E. destruct (urn (lower_str v)) as [[nid nss]|]; [|discriminate].
  exists nss. unfold regexes, standards in E. cbn [imap_get] in E. destruct (String.eqb_spec nid "ietf") as [->|]; [by left|].
  destruct (String.eqb_spec nid "iso") as [->|]; [by right|discriminate].
Qed.
Print Assumptions C54_namespaces.

(** In the ietf namespace a name is accepted exactly when it is a numbered series (rfc, fyi, std, bcp), a draft or a
    meeting (id, mtg) or a single word. *)
Theorem C54_ietf : forall urn v nss, urn (lower_str v) = Some ("ietf", nss) ->
  read_standard urn v = Some (lower_str v) <-> ietf_name nss.
Proof.
  intros urn v nss E. unfold read_standard, standard_validate, standard_new. rewrite E, ietf_compiled. rewrite <- ietf_means, <- rx_match_spec.
  destruct (rx_match ietf_rx nss); split; intros H; try done.
Qed.
Print Assumptions C54_ietf.

(** In the iso namespace a name that is accepted starts with std, a publisher, perhaps a kind of document, and a number;
    a name that is only that is accepted. *)
Theorem C54_iso : forall urn v nss, urn (lower_str v) = Some ("iso", nss) ->
  (read_standard urn v = Some (lower_str v) -> exists h r, nss = h +:+ r /\ iso_start h) /\
  (iso_start nss -> read_standard urn v = Some (lower_str v)).
Proof.
  intros urn v nss E. unfold read_standard, standard_validate, standard_new. rewrite E, iso_compiled. split.
  - destruct (rx_match (iso_rx iso_rest) nss) eqn:Em; [|discriminate]. intros _. apply rx_match_spec, iso_means in Em as (h & r & -> & Hh & _). eauto.
  - intros H. assert (X : rx_match (iso_rx iso_rest) nss = true); [|by rewrite X]. apply rx_match_spec, iso_means. exists nss, "".
    split; [by rewrite append_nil_r|]. split; [done|]. apply rest_letters. done.
Qed.
Print Assumptions C54_iso.

(** Found: the end of the iso pattern takes any letters after the number, so names that run on into letters are accepted. *)
Theorem C54_iso_letters_refuted : forall urn v h w, iso_start h -> letters_only w -> urn (lower_str v) = Some ("iso", h +:+ w) ->
  read_standard urn v = Some (lower_str v).
Proof.
  intros urn v h w Hh Hw E. unfold read_standard, standard_validate, standard_new. rewrite E, iso_compiled.
  assert (X : rx_match (iso_rx iso_rest) (h +:+ w) = true); [|by rewrite X]. apply rx_match_spec, iso_means. exists h, w. split; [done|]. split; [done|].
  by apply rest_letters.
Qed.
Print Assumptions C54_iso_letters_refuted.

(** A standard overlay whose entries were read from standards comes back from its JSON with the same identifiers and the
    same entries (sorted by attribute). *)
Theorem C54_overlay_round_trip : forall said_ok digits lang_ok urn d c a b l, digits_class digits ->
  said_ok d = true -> said_ok c = true -> digits a = true -> digits b = true -> NoDup (map fst l) ->
  Forall (fun kv => exists v, read_standard urn v = Some kv.2) l ->
  overlay_parse said_ok digits lang_ok (read_standard urn) (overlay_json (Overlay (Some d) (Some c) (a +:+ "." +:+ b) (BStandard l)))
  = Ok (Overlay (Some d) (Some c) (a +:+ "." +:+ b) (BStandard (sort_by fst l))).
Proof.
  intros so dg lo urn d c a b l Hdg Hd Hc Ha Hb Hn Hl. set (ov := Overlay (Some d) (Some c) (a +:+ "." +:+ b) (BStandard l)).
  assert (HN : NoDup (map fst (fields ov))) by (cbn; repeat (apply NoDup_cons; split; [set_solver|]); by apply NoDup_nil).
  unfold overlay_parse. rewrite overlay_json_fields. cbn [canon]. pose proof (canon_get (fields ov)) as G.
  set (L := sorted_pairs _) in *. unfold overlay_fields_parse, need.
  assert (F : forall k x, (k, x) ∈ fields ov -> imap_get k (fields ov) = Some x) by (intros k x Hin; by apply imap_get_nodup).
  rewrite (G "type" HN), (F "type" (JStr (otype_text (ov_type ov)))) by (right; right; left).
  cbn [fmap option_fmap option_map canon otype_json_parse].
  assert (P : otype_parse dg (otype_text (ov_type ov)) = Some (ov_type ov)).
  { apply (C17_parse dg _ _ Hdg). split; [done|]. by exists a, b. }
  rewrite P. cbn [obind]. rewrite (G "d" HN), (F "d" (JStr d)) by left. cbn [fmap option_fmap option_map opt_parse said_parse canon]. rewrite Hd. cbn [obind].
  rewrite (G "capture_base" HN), (F "capture_base" (JStr c)) by (right; left). cbn [fmap option_fmap option_map opt_parse said_parse canon]. rewrite Hc. cbn [obind].
  change (ot_kind (ov_type ov)) with KStandard. cbn [body_parse]. unfold need.
  rewrite (G "attribute_standards" HN), (F "attribute_standards" (JObj (map (fun kv => (kv.1, JStr kv.2)) l))) by (right; right; right; left).
  cbn [fmap option_fmap option_map].
  assert (PL : l ≡ₚ map_to_list (map_of l)).
  { apply NoDup_Permutation; [by apply (NoDup_fmap_1 fst)|apply NoDup_map_to_list|]. intros [k v]. rewrite elem_of_map_to_list, map_of_lookup by done. split.
    - by apply imap_get_nodup.
    - apply Upd_proofs.imap_get_elem. }
  assert (C : canon (JObj (map (fun kv => (kv.1, JStr kv.2)) l)) = jmap JStr (map_of l)).
  { unfold jmap. rewrite sorted_pairs_fmap. cbn [canon]. f_equal. rewrite map_map. cbn [fst snd canon]. f_equal. apply map_eq. intros k.
    rewrite map_of_lookup by by rewrite map_fst_map. by rewrite lookup_fmap, map_of_lookup, imap_get_map. }
  rewrite C. rewrite (map_parse_ok _ _ id).
  - rewrite map_fmap_id. cbn [obind ov_type ot_ver]. by rewrite <- (sort_fst_of_map l _ PL).
  - intros k v Hk. rewrite map_of_lookup in Hk by done. apply Upd_proofs.imap_get_elem in Hk. eapply Forall_forall in Hl as [w Hw]; [|exact Hk].
    cbn [snd] in Hw. apply C54_reading_settles in Hw as (_ & Hw & _). cbn [standard_parse]. by rewrite Hw.
Qed.
Print Assumptions C54_overlay_round_trip.

(** A stand-in for the urn crate: urn:, a namespace, a colon, the rest. *)
Definition ex_urn (s : string) : option (string * string) :=
  match split_once ":" s with
  | Some (u, r) => if String.eqb u "urn" then split_once ":" r else None
  | None => None
  end.
(** Names that meet the hypotheses, and names that are turned down. *)
Theorem C54_hypotheses_met :
  ex_urn (lower_str "URN:IETF:RFC:8141") = Some ("ietf", "rfc:8141") /\ ietf_name "rfc:8141" /\
  read_standard ex_urn "URN:IETF:RFC:8141" = Some "urn:ietf:rfc:8141" /\
  ex_urn (lower_str "urn:ISO:std:iso:ts:9001") = Some ("iso", "std:iso:ts:9001") /\ iso_start "std:iso:ts:9001" /\
  read_standard ex_urn "urn:iso:std:iso:9001:ed-5:v2-amd1:en,fr:clause:3.1,4-5" = Some "urn:iso:std:iso:9001:ed-5:v2-amd1:en,fr:clause:3.1,4-5" /\
  read_standard ex_urn "urn:iso:std:iso:9001abc" = Some "urn:iso:std:iso:9001abc" /\
  map (read_standard ex_urn) ["urn:iso:iso:9001"; "urn:ietf:rfc:"; "urn:isbn:0451450523"; "rfc:8141"] = [None; None; None; None] /\
  overlay_parse (fun s => negb (String.eqb s "")) ascii_digits (fun _ => true) (read_standard ex_urn)
    (overlay_json (Overlay (Some "E1") (Some "E2") "1.1" (BStandard [("b", "urn:ietf:rfc:8141"); ("a", "urn:iso:std:iso:1")])))
  = Ok (Overlay (Some "E1") (Some "E2") "1.1" (BStandard [("a", "urn:iso:std:iso:1"); ("b", "urn:ietf:rfc:8141")])).
Proof.
  split; [reflexivity|]. split; [right; exists "rfc", "8141"; split; [done|]; left; split; [left|done]|]. split; [vm_compute; reflexivity|].
  split; [reflexivity|]. split.
  { exists "std", "iso", ":ts", "9001". split; [done|]. split; [done|]. split; [left|]. split; [|done]. right. exists "ts". split; [done|]. by apply (bool_decide_unpack _). }
  split; [vm_compute; reflexivity|]. split; [vm_compute; reflexivity|]. split; vm_compute; reflexivity.
Qed.
