(** C56: JSON text. *)
From Verif Require Import Base Condition_proofs Nesting Nesting_proofs JsonText JsonText_proofs BundleText Bundle Spec_Bundle Build Text Spec_Facade Spec_BundleCodec BundleCodec_proofs Props_Codec Props_BundleCodec Props_Bundle Props_Build Props_Dag Props_History
  Props_Transformation Props_Total2 Peg OcaGrammar OcaFile Spec_OcaFile Props_OcaFile Props_Read Facade_proofs Props_Export2 Inj_digest Checkers.
Local Open Scope list_scope.

(** A text is read as a tree exactly when it says that tree and no more than 127 arrays and objects stand inside one another. *)
Theorem C56_reading : forall s j, read_json s = Some j <-> json_text j s /\ (nesting j <= 127)%nat.
Proof. apply read_json_spec. Qed.
Print Assumptions C56_reading.
(** A text says one tree at most. *)
Theorem C56_unambiguous : forall s j j', json_text j s -> json_text j' s -> j = j'.
Proof. intros s j j'. apply text_unique. Qed.
Print Assumptions C56_unambiguous.
(** What is written says the tree, whatever stands in its strings and however deep it nests. *)
Theorem C56_writing : forall j, json_text j (write_json j).
Proof. apply write_text. Qed.
Print Assumptions C56_writing.
(** Different trees have different texts. *)
Theorem C56_injective : forall j j', write_json j = write_json j' -> j = j'.
Proof. intros j j' E. apply (text_unique _ _ (write_json j)); [apply write_text|]. rewrite E. apply write_text. Qed.
Print Assumptions C56_injective.
(** What is written is read back, unless it nests too deep; then it is not read at all. *)
Theorem C56_round_trip : forall j, ((nesting j <= 127)%nat -> read_json (write_json j) = Some j) /\ ((127 < nesting j)%nat -> read_json (write_json j) = None).
Proof.
  intros j. split; intros H; [apply read_json_spec; split; [apply write_text|done]|].
  destruct (read_json (write_json j)) as [j'|] eqn:E; [|done]. apply read_json_spec in E as [E1 E2]. pose proof (text_unique _ _ _ (write_text j) E1) as <-. lia.
Qed.
Print Assumptions C56_round_trip.
(** So the service the other theorems ask for is there. *)
Theorem C56_serves : text_ok write_json read_json.
Proof. intros j H. by apply C56_round_trip. Qed.
Print Assumptions C56_serves.
(** The layout does not matter. *)
Theorem C56_layout : forall j s s', json_text j s -> json_text j s' -> read_json s = read_json s'.
Proof.
  intros j s s' H H'. destruct (le_lt_dec (nesting j) 127) as [L|L].
  - rewrite (proj2 (read_json_spec s j)), (proj2 (read_json_spec s' j)); by split.
  - assert (N : forall x, json_text j x -> read_json x = None); [|by rewrite !N].
    intros x Hx. destruct (read_json x) as [j'|] eqn:E; [|done]. apply read_json_spec in E as [E1 E2]. pose proof (text_unique _ _ _ Hx E1) as <-. lia.
Qed.
Print Assumptions C56_layout.

(** ** The text of a facade bundle *)
Lemma joined_commas l : joined l = commas l.
Proof. induction l as [|s [|t l] IH]; [done|cbn; apply append_nil_r|]. change (joined (s :: t :: l)) with ((s +:+ ",") +:+ joined (t :: l))%string. rewrite IH, append_assoc. reflexivity. Qed.
(** However many transformations there are, it is JSON and holds the parts; without a structural part there is no text. *)
Theorem C56_bundle_text : forall b, match fb_structural b with
  | None => fb_text b = Panic
  | Some B => exists t, fb_text b = Ok t /\ json_text (JObj [("d", JStr ""); ("m", bundle_json B); ("t", JArr (map transformation_json (fb_transformations b)))]) t
  end.
Proof.
  intros b. unfold fb_text. destruct (fb_structural b) as [B|]; [|done]. eexists. split; [reflexivity|]. rewrite joined_commas, <- (map_map transformation_json write_json).
  assert (E : forall t, write_json (JObj [("d", JStr ""); ("m", bundle_json B); ("t", JArr t)]) =
    ("{" +:+ lit_key "d" +:+ QT +:+ QT +:+ "," +:+ lit_key "m" +:+ write_json (bundle_json B) +:+ "," +:+ lit_key "t" +:+ "[" +:+ commas (map write_json t) +:+ "]}")%string).
  { intros t. generalize (bundle_json B). intros j. cbn [write_json map commas fst snd]. generalize (commas (map write_json t)), (write_json j). intros u v.
    unfold write_str, lit_key. cbn [escape]. change (escape_char "d") with "d". change (escape_char "m") with "m". change (escape_char "t") with "t".
    unfold QT. repeat (cbn [append]; rewrite ?append_assoc). reflexivity. }
  rewrite <- E. apply write_text.
Qed.
Print Assumptions C56_bundle_text.

(** ** Loading from a text *)
Theorem C56_load : forall said_ok digits lang_ok standard_read B s, digits_class digits -> bundle_readable said_ok digits lang_ok B -> groups_sorted B ->
  (forall n t, (n, t) ∈ cb_attrs (b_cb B) -> (nesting (nattr_json t) <= 124)%nat) -> json_text (bundle_json B) s ->
  exists B', load_oca said_ok digits lang_ok standard_read s = Ok B' /\ bundle_json B' = bundle_json B /\ b_said B' = b_said B.
Proof.
  intros so dg lo sr B s Hd Hr Hg Hn Hs. destruct (C06_round_trip so dg lo sr B Hd Hr Hg) as (B' & P & J & S & _). exists B'. split; [|done].
  unfold load_oca, parse_text. rewrite (proj2 (read_json_spec s (bundle_json B))); [|split; [done|by apply bundle_shallow]]. by rewrite P.
Qed.
Print Assumptions C56_load.
Theorem C56_load_facade : forall said_ok digits lang_ok standard_read b s, digits_class digits ->
  (forall x, fb_said b = Some x -> said_ok x = true) -> (forall B, fb_structural b = Some B -> bundle_readable said_ok digits lang_ok B /\ groups_sorted B) ->
  (forall t, t ∈ fb_transformations b -> NoDup (map fst (tr_attrs t)) /\ forall x, tr_said t = Some x -> said_ok x = true) ->
  (forall B n t, fb_structural b = Some B -> (n, t) ∈ cb_attrs (b_cb B) -> (nesting (nattr_json t) <= 123)%nat) -> json_text (fbundle_json b) s ->
  exists b', fb_load_oca said_ok digits lang_ok standard_read s = Ok b' /\ fbundle_json b' = fbundle_json b /\ fb_said b' = fb_said b /\ fb_transformations b' = fb_transformations b.
Proof.
  intros so dg lo sr b s Hd Hs Hm Ht Hn Hj. destruct (C35_round_trip so dg lo sr b Hd Hs Hm Ht) as (b' & P & J & S & T). exists b'. split; [|done].
  unfold fb_load_oca, parse_text. rewrite (proj2 (read_json_spec s (fbundle_json b))); [by rewrite P|]. split; [done|]. apply nest_obj. intros k x. rewrite !elem_of_cons, elem_of_nil.
  intros [[= -> ->]|[[= -> ->]|[[= -> ->]|[]]]].
  - rewrite nest_opt. lia.
  - destruct (fb_structural b) as [B|] eqn:E; [|cbn; lia]. assert (7 <= 126)%nat as L by lia. apply (bundle_nesting B 126 L). intros a t Hin. specialize (Hn B a t eq_refl Hin). lia.
  - etransitivity; [apply (proj2 (nest_arr 2 _))|lia]. intros x Hx. apply elem_of_list_fmap in Hx as (t & -> & _). apply nest_obj. intros k x. rewrite !elem_of_cons, elem_of_nil.
    intros [[= -> ->]|[[= -> ->]|[[= -> ->]|[[= -> ->]|[]]]]]; rewrite ?nest_opt; try lia. apply (nest_pairs _ _ 0). intros; cbn; lia.
Qed.
Print Assumptions C56_load_facade.

(** ** Types that nest too deep *)
(** A bundle with an attribute whose type nests deeper than 124 arrays is written, and what is written cannot be read. *)
Theorem C56_deep_bundle_refuted : forall said_ok digits lang_ok standard_read B n t, (n, t) ∈ cb_attrs (b_cb B) -> (124 < nesting (nattr_json t))%nat ->
  json_text (bundle_json B) (write_json (bundle_json B)) /\
  read_bundle said_ok digits lang_ok standard_read read_json (write_json (bundle_json B)) = Err ["Failed to parse oca bundle"].
Proof.
  intros so dg lo sr B n t Hin Hd. split; [apply write_text|]. unfold read_bundle, parse_text. rewrite (proj2 (C56_round_trip (bundle_json B))); [done|].
  destruct (le_lt_dec (nesting (bundle_json B)) 127) as [L|L]; [|done]. pose proof (proj2 (bundle_shallow B) L n t Hin). lia.
Qed.
Print Assumptions C56_deep_bundle_refuted.
(** From the text of an OCAfile: the build succeeds, but the bundle cannot be fetched, its history cannot be read, and a file that builds on
    it is built without it. *)
Fixpoint array_of (n : nat) : string := match n with O => "Text" | S n => ("Array[" +:+ array_of n +:+ "]")%string end.
Definition deep_src : string := file_of ["ADD ATTRIBUTE a=" +:+ array_of 125]%string.
Definition next_src (k : string) : string := file_of ["FROM " +:+ k; "ADD ATTRIBUTE b=Text"]%string.
Notation js_validate := (validate_ast ex_digest ex_from1 ex_said_ok ascii_digits ex_lang_ok (fun _ => None) read_json (fun _ => ord1)).
Notation js_build := (build ex_from1 Props_Dag.ex_to1 ex_listing write_json ex_hash).
Notation js_file := (file_steps (parse_ocafile no_wide ex_said_ok) js_validate js_build).
Notation js_fetch := (get_bundle ex_said_ok ascii_digits ex_lang_ok (fun _ => None) read_json).
Notation js_steps := (get_steps ex_said_ok ascii_digits ex_lang_ok (fun _ => None) read_json).
Theorem C56_deep_type_refuted : exists f B steps k f2 B2 steps2, js_file deep_src facade_new = Ok (f, (B, steps)) /\ b_said B = Some k /\
  js_fetch (fa_cache f) k = Err ["Failed to parse oca bundle"] /\ (forall n, js_steps (S n) f k = Some (Err ["Failed to parse command"])) /\
  js_file (next_src k) f = Ok (f2, (B2, steps2)) /\ cb_attrs (b_cb B2) = [("b", NVal TText)].
Proof.
  assert (H : match js_file deep_src facade_new with Ok (f, (B, steps)) => match b_said B with Some k =>
    match js_fetch (fa_cache f) k, get_op ex_said_ok read_json (fa_db f) k, js_file (next_src k) f with Err e, Err e2, Ok (f2, (B2, s2)) =>
      bool_decide (e = ["Failed to parse oca bundle"]) && bool_decide (e2 = ["Failed to parse command"]) && match cb_attrs (b_cb B2) with [(n, NVal TText)] => String.eqb n "b" | _ => false end
    | _, _, _ => false end | None => false end | _ => false end = true) by (vm_compute; reflexivity).
  destruct (js_file deep_src facade_new) as [[f [B steps]]| |] eqn:E; [|discriminate H|discriminate H]. destruct (b_said B) as [k|] eqn:Ek; [|discriminate H].
  destruct (js_fetch (fa_cache f) k) as [|e|] eqn:Ef; [discriminate H| |discriminate H]. destruct (get_op ex_said_ok read_json (fa_db f) k) as [|e2|] eqn:Eo; [discriminate H| |discriminate H].
  destruct (js_file (next_src k) f) as [[f2 [B2 s2]]| |] eqn:E2; [|discriminate H|discriminate H]. apply andb_true_iff in H as [H H3]. apply andb_true_iff in H as [H1 H2].
  apply bool_decide_eq_true in H1, H2. subst e e2. exists f, B, steps, k, f2, B2, s2. split; [first [exact E|reflexivity]|]. split; [first [exact Ek|reflexivity]|]. split; [first [exact Ef|reflexivity]|]. split; [|split; [first [exact E2|reflexivity]|]].
  - intros n. unfold get_steps. cbn [steps_loop]. by rewrite Eo.
  - destruct (cb_attrs (b_cb B2)) as [|[n [| [] | |]] [|]]; try discriminate H3. apply String.eqb_eq in H3. by subst n.
Qed.
Print Assumptions C56_deep_type_refuted.

(** ** Concrete cases *)
Definition ex_tree : json := JObj [("a b", JArr [JNull; JBool true; JNum 120; JStr (String "010"%char (String "034"%char "x"))]); ("", JObj [])].
Definition ex_loose : string := (" { " +:+ QT +:+ "a\u0020b" +:+ QT +:+ " : [null ,true, 120," +:+ QT +:+ "\n\" +:+ QT +:+ "x" +:+ QT +:+ "] ,"  +:+ QT +:+ QT +:+ ":{ } }" +:+ String "010" "")%string.
Theorem C56_hypotheses_met : read_json (write_json ex_tree) = Some ex_tree /\ read_json ex_loose = Some ex_tree /\ nesting ex_tree = 2%nat /\
  json_text ex_tree ex_loose /\ json_text ex_tree (write_json ex_tree) /\ ex_loose <> write_json ex_tree /\
  read_json "[1,]" = None /\ read_json "[01]" = None /\ read_json (QT +:+ "\ud800" +:+ QT) = None /\ read_json (QT +:+ "\uD83d\ude00" +:+ QT) = Some (JStr (Spec_JsonText.bytes [240; 159; 152; 128]%N)).
Proof.
  assert (H : read_json ex_loose = Some ex_tree) by (vm_compute; reflexivity). split; [vm_compute; reflexivity|]. split; [exact H|]. split; [reflexivity|]. split; [by apply read_json_spec in H as [H _]|].
  split; [apply write_text|]. split; [intros E; vm_compute in E; discriminate E|]. repeat split; vm_compute; reflexivity.
Qed.
Print Assumptions C56_hypotheses_met.
Theorem C56_load_met : exists B, generate_bundle inj_digest ord1 (ex_read_box sorted_groups) = Some B /\
  digits_class ascii_digits /\ bundle_readable ex_said_ok ascii_digits ex_lang_ok B /\ groups_sorted B /\ (length (b_ovs B) >= 10)%nat /\
  (forall n t, (n, t) ∈ cb_attrs (b_cb B) -> (nesting (nattr_json t) <= 123)%nat) /\ json_text (bundle_json B) (write_json (bundle_json B)).
Proof.
  destruct (C02_bundle_is_box_content inj_digest ord1 (ex_read_box sorted_groups) ord1_ok (ex_read_api sorted_groups)) as (B & G & R). exists B. split; [exact G|].
  split; [exact ascii_digits_class|]. assert (S : forall j, ex_said_ok (inj_digest j) = true) by (by intros []).
  split; [exact (generated_readable inj_digest ex_said_ok ascii_digits ex_lang_ok ord1 _ B S eq_refl R G ex_read_ok)|].
  split; [exact (generated_groups _ B R (bk_groups _ _ _ ex_read_ok))|].
  assert (H : match generate_bundle inj_digest ord1 (ex_read_box sorted_groups) with
    | Some B => Nat.leb 10 (length (b_ovs B)) && forallb (fun kv => Nat.leb (nesting (nattr_json kv.2)) 123) (cb_attrs (b_cb B))
    | None => false end = true) by (vm_compute; reflexivity).
  clear R. destruct (generate_bundle inj_digest ord1 (ex_read_box sorted_groups)) as [B0|]; [|discriminate G].
  apply (f_equal (fun o => match o with Some x => x | None => B end)) in G. subst B0. apply andb_true_iff in H as [H1 H2]. apply Nat.leb_le in H1. split; [exact H1|].
  rewrite forallb_forall in H2. split; [|apply write_text]. intros n t Hin. apply elem_of_list_In in Hin. apply Nat.leb_le. exact (H2 _ Hin).
Qed.
Print Assumptions C56_load_met.
