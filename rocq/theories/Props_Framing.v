(** C41, C42: generated files and layouts with ATTR_FRAMING commands, the one command that is written on several lines. *)
From Verif Require Import Spec_Framing FramingLines AsRead Spec_Ast AstValidator_proofs Props_Ast Condition_proofs Props_OcaFile Props_Build Bundle Inj_digest Props_Bundle.

Lemma printable_not_framing wide said_ok c : printable wide said_ok c -> is_framing c = false.
Proof. destruct 1 as [| | |k ver l ats Hk|k ver ats ps Hk| | | | |]; try done; [by destruct Hk as [-> | ->]|by destruct Hk as [-> |[-> |[-> |[-> |[-> | ->]]]]]]. Qed.
Lemma framing_is c : framing_ok c -> is_framing c = true.
Proof. by destruct 1. Qed.
Lemma says_line wide said_ok c : says wide said_ok c -> gline_ok wide said_ok (gline_of c) /\ exists t, command_text c = Some t /\ is_gline (gline_of c) t.
Proof.
  intros [H|H]; unfold gline_of.
  - rewrite (printable_not_framing _ _ _ H). split; [exact H|]. destruct (printable_line wide said_ok c H) as [t Et]. eauto.
  - rewrite (framing_is c H). split; [exact H|]. destruct (line_framing wide said_ok c H) as (t & tok & o & E & _). eauto.
Qed.
Lemma no_blank cs : no_blank_after (map gline_of cs).
Proof.
  induction cs as [|c cs IH]; [done|]. cbn [map]. unfold gline_of at 1. destruct (is_framing c); [|exact IH]. cbn [no_blank_after]. destruct cs as [|d cs]; [exact IH|].
  cbn [map] in *. destruct (gline_of d) as [f|e] eqn:G; [|exact IH]. destruct f as [| | | | |]; try exact IH. unfold gline_of in G. by destruct (is_framing d).
Qed.
Lemma written wide said_ok cs : Forall (says wide said_ok) cs -> exists ts, Forall2 (fun c t => command_text c = Some t) cs ts /\ Forall2 is_gline (map gline_of cs) ts /\
  commands_text cs = Some (file_of ts).
Proof.
  induction 1 as [|c cs Hc Hcs (ts & H1 & H2 & E)]; [exists []; split; [constructor|]; split; [constructor|done]|]. destruct (says_line _ _ c Hc) as (_ & t & Et & Hl).
  exists (t :: ts). split; [by constructor|]. split; [by constructor|]. cbn [commands_text]. rewrite Et, E. unfold file_of. rewrite cat_cons, append_assoc. reflexivity.
Qed.
(** The generated file, read back: each command once written and read. *)
Theorem C41_framing_round_trip : forall wide said_ok a, Forall (says wide said_ok) (ast_commands a) -> exists lines,
  Forall2 (fun c t => command_text c = Some t) (ast_commands a) lines /\ generate_ocafile a = Ok (file_of lines) /\
  parse_ocafile wide said_ok (file_of lines) = push_all ast_new (gline_commands 0 (zip (map gline_of (ast_commands a)) lines)).
Proof.
  intros wide said_ok a H. destruct (written wide said_ok _ H) as (ts & H1 & H2 & E). exists ts. split; [done|]. split; [unfold generate_ocafile; by rewrite E|].
  rewrite (glayout wide said_ok (map gline_of (ast_commands a)) ts); [| |done|apply no_blank].
  - destruct (push_all ast_new (gline_commands 0 (zip (map gline_of (ast_commands a)) ts))) as [b| |]; [|done|done]. cbn [obind]. f_equal. unfold with_gline_meta.
    assert (M : forall cs m, gline_meta (map gline_of cs) m = m).
    { induction cs as [|c cs IH]; intros m; [done|]. unfold gline_meta in *. cbn [map fold_left]. unfold gline_of at 2. destruct (is_framing c); apply IH. }
    rewrite M. by destruct b.
  - apply Forall_map. eapply Forall_impl; [exact H|]. intros c Hc. by destruct (says_line _ _ c Hc).
Qed.
Print Assumptions C41_framing_round_trip.
Lemma gline_commands_fst cs : forall ts n, length cs = length ts -> map fst (gline_commands n (zip (map gline_of cs) ts)) = map read_back cs.
Proof.
  induction cs as [|c cs IH]; intros [|t ts] n H; [done|done|done|]. cbn [map zip_with]. unfold gline_of at 1, read_back at 1. injection H as H.
  destruct (is_framing c); cbn; f_equal; by apply IH.
Qed.
Lemma framing_names_nothing c : is_framing c = true -> forall k n, ~ names_attr k n c /\ ~ names_prop k n c.
Proof.
  intros H k n. destruct c as [ck [cc|bc|[ok ver] ct]]; [done|done|]. split; intros (cc & l & E & _); done.
Qed.
Lemma framing_read_is c : is_framing c = true -> is_framing (framing_read c) = true.
Proof. destruct c as [ck [cc|bc|[ok ver] [[ats|] [ps|]]]]; try done; destruct ck, ok; done. Qed.
Lemma read_back_names_attr k n c : names_attr k n (read_back c) <-> names_attr k n c.
Proof.
  unfold read_back. destruct (is_framing c) eqn:E; [|apply as_read_names_attr]. pose proof (framing_names_nothing _ (framing_read_is c E) k n) as [H1 _].
  pose proof (framing_names_nothing _ E k n) as [H2 _]. tauto.
Qed.
Lemma read_back_names_prop k n c : names_prop k n (read_back c) <-> names_prop k n c.
Proof.
  unfold read_back. destruct (is_framing c) eqn:E; [|apply as_read_names_prop]. pose proof (framing_names_nothing _ (framing_read_is c E) k n) as [_ H1].
  pose proof (framing_names_nothing _ E k n) as [_ H2]. tauto.
Qed.
Lemma read_back_stack (names : cmd_type -> string -> command -> Prop) cs n : (forall k n c, names k n (read_back c) <-> names k n c) ->
  on_stack names (map read_back cs) n <-> on_stack names cs n.
Proof.
  intros Hn. split.
  - intros (pre & c & post & E & Hc & Hp). apply map_eq_app in E as (pre' & rest & -> & <- & E). destruct rest as [|c' post']; [done|]. injection E as <- <-.
    exists pre', c', post'. split; [done|]. split; [by apply Hn|]. intros d Hd Hr. apply (Hp (read_back d)); [by apply elem_of_list_fmap_1|by apply Hn].
  - intros (pre & c & post & -> & Hc & Hp). exists (map read_back pre), (read_back c), (map read_back post). split; [by rewrite map_app|]. split; [by apply Hn|].
    intros d Hd Hr. apply elem_of_list_fmap in Hd as (d' & -> & Hd). apply (Hp d' Hd). by apply Hn.
Qed.
Lemma read_back_placed cs c : well_placed cs c -> well_placed (map read_back cs) (read_back c).
Proof.
  intros (H1 & H2 & H3). split; [|split]; intros n Hn.
  - rewrite (read_back_stack names_attr) by exact read_back_names_attr. apply H1. by apply read_back_names_attr.
  - rewrite (read_back_stack names_attr) by exact read_back_names_attr. apply H2. by apply read_back_names_attr.
  - rewrite (read_back_stack names_prop) by exact read_back_names_prop. apply H3. by apply read_back_names_prop.
Qed.
(** An AST accepted by the validator stays accepted. *)
Theorem C41_framing_accepted_again : forall wide said_ok l a, push_all ast_new l = Ok a -> Forall (says wide said_ok) (ast_commands a) ->
  exists s b, generate_ocafile a = Ok s /\ parse_ocafile wide said_ok s = Ok b /\ ast_commands b = map read_back (ast_commands a) /\ ast_meta b = ∅.
Proof.
  intros wide said_ok l a Hl H. destruct (C41_framing_round_trip wide said_ok a H) as (ts & H2 & Eg & Ep). exists (file_of ts). apply C15_assembly in Hl as [Hw ->]. cbn [ast_commands] in *.
  pose proof (Forall2_length _ _ _ H2) as Hlen. set (fc := gline_commands 0 (zip (map gline_of (map fst l)) ts)) in *.
  assert (Efst : map fst fc = map read_back (map fst l)) by (by apply gline_commands_fst).
  exists (Ast "1.0.0" (map fst fc) (zip (seq 0 (length fc)) (map snd fc)) ∅).
  assert (Pb : push_all ast_new fc = Ok (Ast "1.0.0" (map fst fc) (zip (seq 0 (length fc)) (map snd fc)) ∅)).
  { apply C15_assembly. split; [|done]. intros pre c m post E. assert (E' : map read_back (map fst l) = map fst pre ++ c :: map fst post) by (by rewrite <- Efst, E, map_app).
    apply map_eq_app in E' as (p' & rest & E1 & <- & E2). destruct rest as [|d rest]; [done|]. injection E2 as <- _.
    apply map_eq_app in E1 as (p1 & r1 & -> & <- & E1). destruct r1 as [|[d' m'] r1]; [done|]. injection E1 as -> _.
    apply read_back_placed. by apply (Hw p1 d m' r1). }
  split; [done|]. split; [by rewrite Ep|]. split; [exact Efst|done].
Qed.
Print Assumptions C41_framing_accepted_again.
Lemma without_prop k : k ∈ frame_props -> without "frame_" k = k.
Proof. intros H. repeat (apply elem_of_cons in H as [->|H]; [reflexivity|]). by apply elem_of_nil in H. Qed.
Lemma lower_keys_same (P : nvalue -> Prop) f v : (forall m, v = VObj m -> Forall (fun kv => lower_case kv.1 /\ P kv.2) m) -> (forall x, P x -> f x = x) -> lower_keys f v = v.
Proof.
  intros H Hf. destruct v as [r|s|m|l]; try done. cbn [lower_keys]. f_equal. specialize (H m eq_refl). induction H as [|[k x] m [Hk Hx] Hm IH]; [done|]. cbn [map fst snd] in *.
  unfold lower_case in Hk. by rewrite Hk, (Hf x Hx), IH.
Qed.
Lemma settled_read c : framing_ok c -> settled c -> framing_read c = as_read c.
Proof.
  intros [ver ats ps _ _ _ _] Hs. destruct (Hs ver ats ps eq_refl) as [Hp Ha]. clear Hs. cbn [framing_read as_read unwrap_or]. do 4 f_equal.
  - f_equal. induction Ha as [|[n v] ats Hv Ha IH]; [done|]. cbn [map fst snd] in *. rewrite IH. f_equal. f_equal.
    apply (lower_keys_same (fun x => forall k, x = VObj k -> Forall (fun x => lower_case x.1) k)); [exact Hv|]. intros x Hx.
    apply (lower_keys_same (fun _ => True)); [|done]. intros m E. eapply Forall_impl; [exact (Hx m E)|]. done.
  - induction Hp as [|[k v] ps Hk Hp IH]; [done|]. cbn [map fst snd] in *. rewrite without_prop by done. congruence.
Qed.
(** The same build, when the names inside the braces are in lower case. *)
Theorem C41_framing_same_build : forall wide said_ok l a, push_all ast_new l = Ok a -> Forall (says wide said_ok) (ast_commands a) -> Forall settled (ast_commands a) ->
  exists s b, generate_ocafile a = Ok s /\ parse_ocafile wide said_ok s = Ok b /\ ast_commands b = map as_read (ast_commands a) /\
  forall digest from1 os from, same_build (from_ast digest from1 os from b) (from_ast digest from1 os from a).
Proof.
  intros wide said_ok l a Hl H Hs. destruct (C41_framing_accepted_again wide said_ok l a Hl H) as (s & b & Eg & Ep & Ec & _). exists s, b. split; [done|]. split; [done|].
  assert (E : map read_back (ast_commands a) = map as_read (ast_commands a)).
  { apply map_ext_Forall. eapply Forall_impl; [exact (proj2 (Forall_and _ _) (conj H Hs))|]. intros c [[Hc|Hc] Hst]; unfold read_back.
    - by rewrite (printable_not_framing _ _ _ Hc).
    - rewrite (framing_is c Hc). by apply settled_read. }
  rewrite E in Ec. split; [done|]. intros digest from1 os from. apply (build_same as_read); [|done]. eapply Forall_impl; [exact H|]. intros c [Hc|Hc] st; [by eapply apply_as_read|].
  destruct Hc as [ver ats ps _ _ _ _]. reflexivity.
Qed.
Print Assumptions C41_framing_same_build.

(** Once read, a command comes back the same from then on. *)
Lemma lower_idem c : lower (lower c) = lower c.
Proof. destruct c as [[] [] [] [] [] [] [] []]; vm_compute; done. Qed.
Lemma lower_str_idem s : lower_str (lower_str s) = lower_str s.
Proof. induction s as [|c s IH]; [done|]. cbn [lower_str]. by rewrite lower_idem, IH. Qed.
Lemma lower_class c : is_c BSL (lower c) = is_c BSL c /\ is_c DQ (lower c) = is_c DQ c /\ dq_c (lower c) = dq_c c.
Proof. destruct c as [[] [] [] [] [] [] [] []]; vm_compute; done. Qed.
Lemma lower_quotable_n n : forall s, String.length s <= n -> quotable (lower_str s) = quotable s.
Proof.
  induction n as [|n IH]; intros [|c s] Hn; [done|cbn in Hn; lia|done|]. cbn [String.length] in Hn. cbn [lower_str quotable]. destruct (lower_class c) as (-> & _ & ->).
  destruct (is_c BSL c); [|f_equal; apply IH; lia]. destruct s as [|d s]; [done|]. cbn [lower_str]. destruct (lower_class d) as (-> & -> & _). cbn [String.length] in Hn.
  destruct (is_c DQ d || is_c BSL d); [apply IH; lia|]. apply (IH (String d s)). cbn [String.length]. lia.
Qed.
Lemma lower_quotable s : quotable (lower_str s) = quotable s.
Proof. by apply (lower_quotable_n (String.length s)). Qed.
Theorem C41_framing_settles : forall c, framing_ok c -> framing_ok (framing_read c) /\ settled (framing_read c) /\ framing_read (framing_read c) = framing_read c.
Proof.
  intros c Hc. assert (Ok : framing_ok (framing_read c) /\ settled (framing_read c)).
  { destruct Hc as [ver ats ps (Ha & Hn & Hats) Hp Hpn Hps]. cbn [framing_read]. split.
    - constructor.
      + split; [by destruct ats|]. split; [by rewrite map_map|]. apply Forall_map. eapply Forall_impl; [exact Hats|]. intros [k v] [Hk (m & Ev & Hm & Hd & Hf)]. cbn [fst snd] in *. subst v.
        split; [done|]. eexists. split; [reflexivity|]. split; [by destruct m|]. split.
        * rewrite map_map. cbn [fst]. rewrite (map_ext _ (fun f => lower_str f.1)) by (intros f; apply lower_str_idem). done.
        * apply Forall_map. eapply Forall_impl; [exact Hf|]. intros [k' v'] [Hk' (m' & Ev' & Hm' & Hd' & Hf')]. cbn [fst snd] in *. subst v'. split; [by cbn; rewrite lower_quotable|].
          eexists. split; [reflexivity|]. split; [by destruct m'|]. split.
          -- rewrite map_map. cbn [fst]. rewrite (map_ext _ (fun f => lower_str f.1)) by (intros f; apply lower_str_idem). done.
          -- apply Forall_map. eapply Forall_impl; [exact Hf'|]. intros [k2 v2] [Hk2 Hv2]. cbn [fst snd] in *. by rewrite lower_quotable.
      + by destruct ps.
      + rewrite map_map. cbn [fst]. erewrite map_ext_Forall; [exact Hpn|]. eapply Forall_impl; [exact Hps|]. intros [k v] [Hk _]. cbn [fst] in *. by apply without_prop.
      + apply Forall_map. eapply Forall_impl; [exact Hps|]. intros [k v] [Hk Hv]. split; [|done]. cbn [fst] in *. by rewrite without_prop.
    - intros ver' ats' ps' E. injection E as _ <- <-. split.
      + apply Forall_map. eapply Forall_impl; [exact Hps|]. by intros [k v] [Hk _].
      + apply Forall_map. eapply Forall_impl; [exact Hats|]. intros [k v] _ m E. cbn [fst snd] in *. destruct v as [| |m0|]; try done. cbn [lower_keys] in E. injection E as <-.
        apply Forall_map, Forall_true. intros [k' v']. cbn [fst snd]. split; [apply lower_str_idem|]. intros k2 E. destruct v' as [| |m2|]; try done. cbn [lower_keys] in E. injection E as <-.
        apply Forall_map, Forall_true. intros [k3 v3]. apply lower_str_idem. }
  destruct Ok as [H1 H2]. split; [done|]. split; [done|]. rewrite (settled_read _ H1 H2). destruct Hc as [ver ats ps _ _ _ _]. reflexivity.
Qed.
Print Assumptions C41_framing_settles.

(** ** Layout *)
Theorem C42_framing_layout : forall wide said_ok gs ts, Forall (gline_ok wide said_ok) gs -> Forall2 is_gline gs ts -> no_blank_after gs ->
  parse_ocafile wide said_ok (file_of ts) = (let! a := push_all ast_new (gline_commands 0 (zip gs ts)) in Ok (with_gline_meta gs a)).
Proof. exact glayout. Qed.
Print Assumptions C42_framing_layout.

(** ** A concrete case *)
(** Example. *)
Definition fr_scope (p j : string) : nvalue := VObj [("predicate_id", VVal p); ("framing_justification", VVal j)].
(** Example. *)
Definition fr_command (key : string) : command :=
  Command CAdd (OOverlay (OType KAttributeFraming "1.1") (Content
    (Some [("age", VObj [(key, fr_scope "exactMatch" "manual"); ("loinc:30525-0", fr_scope "closeMatch" "a \""quoted\"" word")]); ("name", VObj [(key, fr_scope "exactMatch" "manual")])])
    (Some [("id", VVal "snomedct"); ("label", VVal "Clinical terms"); ("version", VVal "2024")]))).
(** Example. *)
Definition fr_ast (key : string) : list command :=
  [Command CAdd (OCaptureBase (CapContent (Some [("name", NVal TText); ("age", NVal TNumeric)]) None None)); fr_command key;
   Command CAdd (OOverlay (OType KUnit "1.1") (Content (Some [("age", VVal "years")]) None))].
Lemma fr_ok_command key : quotable key = true -> lower_str key <> "loinc:30525-0" -> framing_ok (fr_command key).
Proof.
  intros Hq Hl. assert (S : forall p j, quotable p = true -> quotable j = true -> exists m, fr_scope p j = VObj m /\ m <> [] /\ NoDup (map (fun kv => lower_str kv.1) m) /\ Forall (fun kv => quotable kv.1 = true /\ plain_ok kv.2) m).
  { intros p j Hp Hj. eexists. split; [reflexivity|]. split; [done|]. split; [by apply (bool_decide_unpack _)|]. repeat (apply Forall_cons; split); [| |by apply Forall_nil]; (split; [done|]); by eexists. }
  constructor; [|done|by apply (bool_decide_unpack _)|].
  - split; [done|]. split; [by apply (bool_decide_unpack _)|]. repeat (apply Forall_cons; split); [| |by apply Forall_nil]; (split; [by split|]); eexists; (split; [reflexivity|]); (split; [done|]).
    + split; [cbn [map fst]; apply NoDup_cons; split; [by intros H%elem_of_list_singleton|apply NoDup_singleton]|]. repeat (apply Forall_cons; split); [| |by apply Forall_nil]; (split; [done|]); by apply S.
    + split; [apply NoDup_singleton|]. apply Forall_cons; split; [|by apply Forall_nil]. split; [done|]. by apply S.
  - repeat (apply Forall_cons; split); [| | |by apply Forall_nil]; (split; [by apply (bool_decide_unpack _)|by eexists]).
Qed.
(** Example. *)
Definition fr_text : string := file_of [
  "ADD ATTRIBUTE name=Text age=Numeric";
  "ADD ATTR_FRAMING \"; "        id=""snomedct"" \"; "        label=""Clinical terms"" \"; "        version=""2024"" \"; "    ATTRS \";
  "        age={"; "            ""snomedct:397669002"": {"; "                ""predicate_id"": ""exactMatch"","; "                ""framing_justification"": ""manual"","; "            },";
  "            ""loinc:30525-0"": {"; "                ""predicate_id"": ""closeMatch"","; "                ""framing_justification"": ""a \""quoted\"" word"","; "            },"; "        }";
  "        name={"; "            ""snomedct:397669002"": {"; "                ""predicate_id"": ""exactMatch"","; "                ""framing_justification"": ""manual"","; "            },"; "        }";
  "ADD UNIT ATTRS age=""years"""]%string.
Theorem C41_framing_hypotheses_met :
  Forall (says no_wide any_said) (fr_ast "snomedct:397669002") /\ Forall settled (fr_ast "snomedct:397669002") /\
  generate_ocafile (mk_ast (fr_ast "snomedct:397669002")) = Ok fr_text /\ reads fr_text (fun a => ast_commands a = map as_read (fr_ast "snomedct:397669002")).
Proof.
  split; [|split; [|split; [vm_compute; reflexivity|vm_compute; reflexivity]]].
  - apply Forall_cons; split; [left|apply Forall_cons; split; [right|apply Forall_cons; split; [left|by apply Forall_nil]]].
    + constructor. split; [done|]. split; [by apply (bool_decide_unpack _)|]. repeat (apply Forall_cons; split); [| |by apply Forall_nil]; (split; [by split|]); constructor.
    + by apply fr_ok_command.
    + apply pr_plain; [by do 5 right|split; [done|]|by left]. split; [apply NoDup_singleton|]. apply Forall_cons; split; [|by apply Forall_nil]. split; [by split|by eexists].
  - repeat (apply Forall_cons; split); [done| |done|by apply Forall_nil]. intros ver ats ps E. injection E as _ <- <-. split.
    + repeat (apply Forall_cons; split); [| | |by apply Forall_nil]; by apply (bool_decide_unpack _).
    + repeat (apply Forall_cons; split); [| |by apply Forall_nil]; intros m E; injection E as <-; repeat (apply Forall_cons; split); try (by apply Forall_nil);
        (split; [reflexivity|]); intros k E; injection E as <-; repeat (apply Forall_cons; split); try (by apply Forall_nil); reflexivity.
Qed.
Print Assumptions C41_framing_hypotheses_met.

(** Findings. *)
(** A name inside the braces loses its capitals, and with it the SAID: written, read back and built again, the same AST gives another bundle. *)
(** Example: build.rs [from_ast], the SAID of the result. *)
Definition fr_build (a : ast) : option string := match from_ast inj_digest ex_from1 (fun _ => Props_Bundle.ord1) None a with BuildOk B _ => b_said B | _ => None end.
Theorem C41_framing_capitals_refuted : framing_ok (fr_command "SNOMEDCT:397669002") /\
  match generate_ocafile (mk_ast (fr_ast "SNOMEDCT:397669002")) with
  | Ok s => reads s (fun b => fr_build b <> None /\ fr_build (mk_ast (fr_ast "SNOMEDCT:397669002")) <> None /\ fr_build b <> fr_build (mk_ast (fr_ast "SNOMEDCT:397669002")))
  | _ => False
  end.
Proof. split; [by apply fr_ok_command|]. vm_compute. done. Qed.
Print Assumptions C41_framing_capitals_refuted.
(** Two names that differ in their capitals only: the second replaces the first. *)
Theorem C41_framing_merge_refuted : reads (file_of ["ADD ATTR_FRAMING id=""x"" ATTRS a={""A"": {""p"": ""1""}, ""a"": {""p"": ""2""}}"])
  (fun a => exists ps, ast_commands a = [Command CAdd (OOverlay (OType KAttributeFraming "1.1") (Content (Some [("a", VObj [("a", VObj [("p", VVal "2")])])]) ps))]).
Proof. vm_compute. by eexists. Qed.
Print Assumptions C41_framing_merge_refuted.
(** An empty line right after such a command is not counted: the lines below are off by one more. *)
Theorem C42_blank_after_framing_refuted :
  reads (file_of ["ADD ATTR_FRAMING id=""x"" ATTRS a={""k"": {""p"": ""1""}}"; ""; "ADD ATTRIBUTE a=Text"]) (fun a => map (fun m => cm_line m.2) (ast_cmeta a) = [1; 2]) /\
  reads (file_of ["ADD UNIT ATTRS a=""x"""; ""; "ADD ATTRIBUTE a=Text"]) (fun a => map (fun m => cm_line m.2) (ast_cmeta a) = [1; 3]).
Proof. vm_compute. done. Qed.
Print Assumptions C42_blank_after_framing_refuted.
