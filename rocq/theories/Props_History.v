(** Theorems C22, and concrete cases for C22, C23. *)
From Verif Require Import Base Condition_proofs Spec_Bundle Spec_Build Spec_Facade Props_Storage Props_Relations Codec_proofs Props_Codec BundleCodec_proofs Props_BundleCodec
  Props_Bundle Props_Build Props_Dag Tamper_proofs Inj_digest Facade_proofs Props_Facade History_proofs Checkers.

(** ** C22: replay.  [H0] is the stored history of the base ([] without base).  If all SAIDs along the history are
    different, the stored history of every step's bundle is the base's history followed by the build's steps up to it. *)
Theorem C22_history_replay : forall from1 to1 listing said_ok digits lang_ok standard_read to_text of_text hash B steps f f' B' base H0 n0,
  text_ok to_text of_text -> digits_class digits -> said_ok "" = false ->
  build from1 to1 listing to_text hash B steps f = Ok (f', B') ->
  consistent said_ok digits lang_ok standard_read of_text (fa_cache f) ->
  chained base steps -> (forall s, s ∈ steps -> step_storable said_ok digits lang_ok s) ->
  let history := get_steps said_ok digits lang_ok standard_read of_text in
  match base with None => H0 = [] | Some p => history n0 f p = Some (Ok H0) end ->
  NoDup (map (fun s => b_said (bs_result s)) (H0 ++ steps)) ->
  forall i s k, steps !! i = Some s -> b_said (bs_result s) = Some k ->
  exists H, Forall2 same_step (take (S i) steps) H /\ forall n, (n0 + S i <= n)%nat -> history n f' k = Some (Ok (H0 ++ H)).
Proof.
  intros f1 t1 ls so dg lo sr tt ot hs B steps f f' B' base H0 n0 Ht Hd He HB Hc Hch Hst history Hb Hn i s k Hi Hk.
  destruct (history_at f1 t1 ls so dg lo sr tt ot hs Ht Hd He B B' steps f f' base H0 n0 HB Hc Hch Hst) with (i := i) (s := s) (k := k) as (H & L & HF); try done.
  - destruct base as [p|]; [|done]. unfold history, get_steps in Hb. destruct (steps_loop _ _ _ _ _ n0 f p) as [[l|e|]|]; try discriminate.
    injection Hb as <-. by rewrite rev_involutive.
  - exists H. split; [done|]. intros n Hle. unfold history, get_steps. rewrite (loop_mono _ _ _ _ _ _ _ _ _ _ L Hle). by rewrite rev_involutive.
Qed.
Print Assumptions C22_history_replay.

Lemma chain_of_index l base : (forall i s, l !! i = Some s -> bs_parent s = match i with 0 => base | S j => p ← l !! j; b_said (bs_result p) end) -> chained base l.
Proof.
  revert base. induction l as [|s l IH]; intros base H; [done|]. split; [exact (H 0 s eq_refl)|]. apply IH. intros i s' Hi. rewrite (H (S i) s' Hi). by destruct i.
Qed.
(** From the AST: the recorded commands are the base's followed by the AST's. *)
Theorem C22_commands_replay : forall digest from1 to1 listing said_ok digits lang_ok standard_read to_text of_text hash os from a st B steps f f' B' H0 n0 k,
  text_ok to_text of_text -> digits_class digits -> said_ok "" = false ->
  base_of (os (S (length (ast_commands a)))) from st -> from_ast digest from1 os from a = BuildOk B steps ->
  build from1 to1 listing to_text hash B steps f = Ok (f', B') ->
  consistent said_ok digits lang_ok standard_read of_text (fa_cache f) ->
  (forall s, s ∈ steps -> step_storable said_ok digits lang_ok s) ->
  match from ≫= b_said with None => H0 = [] | Some p => get_steps said_ok digits lang_ok standard_read of_text n0 f p = Some (Ok H0) end ->
  NoDup (map (fun s => b_said (bs_result s)) (H0 ++ steps)) ->
  (s ← last steps; b_said (bs_result s)) = Some k ->
  forall n, (n0 + length (ast_commands a) <= n)%nat ->
  get_ast said_ok digits lang_ok standard_read of_text n f' k = Some (Ok (map bs_cmd H0 ++ ast_commands a)).
Proof.
  intros dig f1 t1 ls so dg lo sr tt ot hs os from a st B steps f f' B' H0 n0 k Ht Hd He Hb HA HB Hc Hst HH Hn Hk n Hle.
  destruct (C13_step_chain _ _ _ _ _ _ _ _ Hb HA) as (Hl & X & _).
  assert (Hch : chained (from ≫= b_said) steps) by (apply chain_of_index; intros i s Hi; by apply (X i s Hi)).
  destruct (last steps) as [s|] eqn:El; [|discriminate]. cbn in Hk. rewrite last_lookup in El. set (i := pred (length steps)) in *.
  assert (Hpos : length steps <> 0) by (intros E; destruct steps; done). assert (HSi : S i = length steps) by (subst i; lia).
  destruct (C22_history_replay f1 t1 ls so dg lo sr tt ot hs B steps f f' B' (from ≫= b_said) H0 n0 Ht Hd He HB Hc Hch Hst HH Hn i s k El Hk) as (H & HF & L).
  unfold get_ast. rewrite (L n) by lia. do 2 f_equal. rewrite map_app. f_equal. rewrite HSi, take_ge in HF by lia.
  assert (E : map bs_cmd H = map bs_cmd steps). { clear -HF. induction HF as [|x y l l' (E & _) _ IH]; [done|]. cbn. by rewrite E, IH. }
  rewrite E. apply list_eq. intros j. rewrite list_lookup_fmap. destruct (steps !! j) as [x|] eqn:Ej; cbn.
  - symmetry. by apply (X j x Ej).
  - symmetry. apply lookup_ge_None. apply lookup_ge_None in Ej. lia.
Qed.
Print Assumptions C22_commands_replay.

(** Refuted without distinct SAIDs. *)
Section Broken.
Variables said_ok digits lang_ok : string -> bool.
Variable standard_read : string -> option string.
Variable of_text : string -> option json.
Notation history := (get_steps said_ok digits lang_ok standard_read of_text).
(** A record that names the bundle itself as its parent ends every read with an error. *)
Lemma self_parent f k c : get_op said_ok of_text (fa_db f) k = Ok (k, c) -> forall n, history (S n) f k = Some (Err ["Malformed history"]).
Proof. intros H n. unfold get_steps. cbn [steps_loop]. rewrite H, String.eqb_refl. done. Qed.
(** Two records that name each other as parents: no number of iterations is enough. *)
Lemma two_cycle f k k' c c' : k <> k' -> k <> "" -> k' <> "" -> said_ok k = true -> said_ok k' = true ->
  get_op said_ok of_text (fa_db f) k = Ok (k', c) -> get_op said_ok of_text (fa_db f) k' = Ok (k, c') ->
  (exists B, get_bundle said_ok digits lang_ok standard_read of_text (fa_cache f) k = Ok B) ->
  (exists B, get_bundle said_ok digits lang_ok standard_read of_text (fa_cache f) k' = Ok B) ->
  forall n, history n f k = None.
Proof.
  intros Hne N N' S S' E E' [B HB] [B' HB'] n.
  assert (X : steps_loop said_ok digits lang_ok standard_read of_text n f k = None /\ steps_loop said_ok digits lang_ok standard_read of_text n f k' = None).
  { induction n as [|n [IH1 IH2]]; [done|]. cbn [steps_loop]. rewrite E, E', HB, HB', S, S'. cbn [negb]. cbv zeta.
    rewrite (proj2 (String.eqb_neq k' k)) by done. rewrite (proj2 (String.eqb_neq k k')) by done.
    rewrite (proj2 (String.eqb_neq k "")) by done. rewrite (proj2 (String.eqb_neq k' "")) by done. by rewrite IH1, IH2. }
  unfold get_steps. by rewrite (proj1 X).
Qed.
End Broken.

(** A short digest for concrete cases (it does collide; the cases check that it does not on them). *)
Fixpoint hash_n (s : string) (h : N) : N := match s with EmptyString => h | String c r => hash_n r ((h * 257 + N_of_ascii c + 1) mod 1000000007)%N end.
Fixpoint pos_text (p : positive) : string := match p with xH => "E" | xO q => String "0" (pos_text q) | xI q => String "1" (pos_text q) end.
Definition ex_digest (j : json) : string := pos_text (N.succ_pos (hash_n (inj_digest j) 7)).
Definition ex_hash (s : string) : string := pos_text (N.succ_pos (hash_n s 7)).
Definition ex_listing (_ : string) (l : list oobject) : list oobject := l.
Definition ex_run (cs : list command) (f : facade) : outcome (facade * bundle) :=
  build_ast ex_digest ex_from1 ex_to1 ex_listing ex_said_ok ascii_digits ex_lang_ok (fun _ => None) ex_to_text ex_of_text ex_hash (fun _ => ord1)
    (mk_ast cs) f.
Definition ex_history := get_steps ex_said_ok ascii_digits ex_lang_ok (fun _ => None) ex_of_text.
Definition ex_fetch := get_bundle ex_said_ok ascii_digits ex_lang_ok (fun _ => None) ex_of_text.

(** A command that changes nothing (a unit given twice): the history of the result cannot be read. *)
Definition noop_cmds : list command := [add_attrs [("a", NVal TText)]; add_ov KUnit [("a", VVal "g")] []; add_ov KUnit [("a", VVal "g")] []].
Theorem C22_unchanged_step_refuted : exists f B k, ex_run noop_cmds facade_new = Ok (f, B) /\ b_said B = Some k /\
  (exists B', ex_fetch (fa_cache f) k = Ok B') /\ forall n, ex_history (S n) f k = Some (Err ["Malformed history"]).
Proof.
  assert (H : match ex_run noop_cmds facade_new with
    | Ok (f, B) => match b_said B with
                   | Some k => is_ok (ex_fetch (fa_cache f) k) && match get_op ex_said_ok ex_of_text (fa_db f) k with Ok (p, _) => String.eqb p k | _ => false end
                   | None => false end
    | _ => false end = true) by (vm_compute; reflexivity).
  destruct (ex_run noop_cmds facade_new) as [[f B]|e|]; try done. destruct (b_said B) as [k|] eqn:Ek; [|done].
  apply andb_true_iff in H as [H1 H2]. exists f, B, k. split; [done|]. split; [done|]. split.
  - destruct (ex_fetch (fa_cache f) k) as [B'|e|]; try done. by exists B'.
  - destruct (get_op ex_said_ok ex_of_text (fa_db f) k) as [[p c]|e|] eqn:E; try done. apply String.eqb_eq in H2. subst p.
    apply (self_parent _ _ _ _ _ _ _ c E).
Qed.
(** Adding an attribute and removing it again: reading the history of the result never ends. *)
Definition revisit_cmds : list command := [add_attrs [("a", NVal TText)]; add_attrs [("b", NVal TText)]; rem_attrs ["b"]].
Theorem C22_revisited_state_refuted : exists f B k, ex_run revisit_cmds facade_new = Ok (f, B) /\ b_said B = Some k /\
  (exists B', ex_fetch (fa_cache f) k = Ok B') /\ forall n, ex_history n f k = None.
Proof.
  assert (H : match ex_run revisit_cmds facade_new with
    | Ok (f, B) => match b_said B with
                   | Some k => match get_op ex_said_ok ex_of_text (fa_db f) k with
                               | Ok (p, _) => match get_op ex_said_ok ex_of_text (fa_db f) p with
                                              | Ok (q, _) => String.eqb q k && negb (String.eqb p k) && ex_said_ok k && ex_said_ok p && is_ok (ex_fetch (fa_cache f) k) && is_ok (ex_fetch (fa_cache f) p)
                                              | _ => false end
                               | _ => false end
                   | None => false end
    | _ => false end = true) by (vm_compute; reflexivity).
  destruct (ex_run revisit_cmds facade_new) as [[f B]|e|]; try done. destruct (b_said B) as [k|] eqn:Ek; [|done].
  destruct (get_op ex_said_ok ex_of_text (fa_db f) k) as [[p c]|e|] eqn:E; try done.
  destruct (get_op ex_said_ok ex_of_text (fa_db f) p) as [[q c']|e|] eqn:E'; try done.
  apply andb_true_iff in H as [H H6]. apply andb_true_iff in H as [H H5]. apply andb_true_iff in H as [H H4]. apply andb_true_iff in H as [H H3].
  apply andb_true_iff in H as [H1 H2]. apply String.eqb_eq in H1. subst q. apply negb_true_iff, String.eqb_neq in H2.
  assert (F : forall x, is_ok (ex_fetch (fa_cache f) x) = true -> exists B', ex_fetch (fa_cache f) x = Ok B').
  { intros x Hx. destruct (ex_fetch (fa_cache f) x) as [B'|e|]; try done. by exists B'. }
  exists f, B, k. split; [done|]. split; [done|]. split; [by apply F|].
  eapply two_cycle; [| | |exact H3|exact H4|exact E|exact E'|apply F, H5|apply F, H6].
  - congruence.
  - intros ->. done.
  - intros ->. done.
Qed.

(** A build on a base: attributes a, b, then on that base two more commands.  All hypotheses of C22_commands_replay (and
    of C22_history_replay, C23) hold, with a base history of two steps. *)
Definition ex_first : list command := [add_attrs [("a", NVal TText)]; add_attrs [("b", NArr (NVal TText))]].
Definition ex_second : list command := [add_ov KLabel [("a", VVal "A")] [("lang", VVal "en")]; add_ov KUnit [("a", VVal "g")] []].
Definition ex_build := build ex_from1 ex_to1 ex_listing ex_to_text ex_hash.
Definition ex_ast := from_ast ex_digest ex_from1 (fun _ => ord1).
Definition ex_simple := forallb (step_simple ex_said_ok ex_lang_ok).
Lemma ex_simple_ok steps : ex_simple steps = true -> forall s, s ∈ steps -> step_storable ex_said_ok ascii_digits ex_lang_ok s.
Proof. intros H s Hs. unfold ex_simple in H. rewrite forallb_forall in H. apply step_simple_ok; [done|]. by apply H, elem_of_list_In. Qed.
Lemma ex_new_consistent : consistent ex_said_ok ascii_digits ex_lang_ok (fun _ => None) ex_of_text (fa_cache facade_new).
Proof. intros k B H. rewrite fetch_entry in H. cbn in H. discriminate. Qed.
Example C22_hypotheses_met : exists f1 f2 B1 B2 s1 s2 Bf st H0 k k1,
  ex_ast None (mk_ast ex_first) = BuildOk B1 s1 /\ ex_build B1 s1 facade_new = Ok (f1, B1) /\ ex_fetch (fa_cache f1) k1 = Ok Bf /\ b_said B1 = Some k1 /\ text_ok ex_to_text ex_of_text /\ digits_class ascii_digits /\ ex_said_ok "" = false /\ base_of ord1 (Some Bf) st /\ ex_ast (Some Bf) (mk_ast ex_second) = BuildOk B2 s2 /\ ex_build B2 s2 f1 = Ok (f2, B2) /\ consistent ex_said_ok ascii_digits ex_lang_ok (fun _ => None) ex_of_text (fa_cache f1) /\ (forall s, s ∈ s2 -> step_storable ex_said_ok ascii_digits ex_lang_ok s) /\ b_said Bf = Some k1 /\ ex_history 2 f1 k1 = Some (Ok H0) /\ NoDup (map (fun s => b_said (bs_result s)) (H0 ++ s2)) /\ (s ← last s2; b_said (bs_result s)) = Some k /\ length H0 = 2 /\ get_ast ex_said_ok ascii_digits ex_lang_ok (fun _ => None) ex_of_text 4 f2 k = Some (Ok (map bs_cmd H0 ++ ex_second)).
Proof.
  assert (H : match ex_ast None (mk_ast ex_first) with BuildOk B1 s1 =>
    match ex_build B1 s1 facade_new, b_said B1 with Ok (f1, B1'), Some k1 =>
      match ex_fetch (fa_cache f1) k1 with Ok Bf =>
        match load ord1 Bf, ex_ast (Some Bf) (mk_ast ex_second) with Some st, BuildOk B2 s2 =>
          match ex_build B2 s2 f1, ex_history 2 f1 k1, (s ← last s2; b_said (bs_result s)) with Ok (f2, _), Some (Ok H0), Some k =>
            ex_simple s1 && ex_simple s2 && bool_decide (b_said Bf = Some k1) && bool_decide (NoDup (map (fun s => b_said (bs_result s)) (H0 ++ s2))) && (length H0 =? 2)%nat
          | _, _, _ => false end
        | _, _ => false end
      | _ => false end
    | _, _ => false end
    | _ => false end = true) by (vm_compute; reflexivity).
  destruct (ex_ast None (mk_ast ex_first)) as [B1 s1|es|] eqn:EA1; try done.
  destruct (ex_build B1 s1 facade_new) as [[f1 B1']|e|] eqn:EB1; try done. destruct (b_said B1) as [k1|] eqn:Ek1; [|done].
  destruct (ex_fetch (fa_cache f1) k1) as [Bf|e|] eqn:EF; try done. destruct (load ord1 Bf) as [st|] eqn:EL; [|done].
  destruct (ex_ast (Some Bf) (mk_ast ex_second)) as [B2 s2|es|] eqn:EA2; try done. destruct (ex_build B2 s2 f1) as [[f2 B2']|e|] eqn:EB2; try done.
  destruct (ex_history 2 f1 k1) as [[H0|e|]|] eqn:EH; try done. destruct (s ← last s2; b_said (bs_result s)) as [k|] eqn:Ek; [|done].
  apply andb_true_iff in H as [H K5]. apply andb_true_iff in H as [H K4]. apply andb_true_iff in H as [H K3]. apply andb_true_iff in H as [K1 K2].
  apply bool_decide_eq_true in K3, K4. apply Nat.eqb_eq in K5.
  assert (B1' = B1) as -> by by apply build_effect in EB1 as [? _]. assert (B2' = B2) as -> by by apply build_effect in EB2 as [? _].
  assert (C : consistent ex_said_ok ascii_digits ex_lang_ok (fun _ => None) ex_of_text (fa_cache f1)).
  { eapply (C23_consistent ex_from1 ex_to1 ex_listing ex_said_ok ascii_digits ex_lang_ok (fun _ => None) ex_to_text ex_of_text ex_hash); [exact ex_text_ok|exact ascii_digits_class|exact EB1| |exact ex_new_consistent].
    intros s Hs. destruct (ex_simple_ok _ K1 s Hs) as [? ? _ [? _]]; done. }
  assert (Hb : base_of ord1 (Some Bf) (Some st)) by by constructor.
  exists f1, f2, B1, B2, s1, s2, Bf, (Some st), H0, k, k1. repeat (split; [done || exact ex_text_ok || exact ascii_digits_class || by apply ex_simple_ok|]).
  exact (C22_commands_replay ex_digest ex_from1 ex_to1 ex_listing ex_said_ok ascii_digits ex_lang_ok (fun _ => None) ex_to_text ex_of_text ex_hash (fun _ => ord1)
    (Some Bf) (mk_ast ex_second) (Some st) B2 s2 f1 f2 B2 H0 2 k ex_text_ok ascii_digits_class eq_refl Hb EA2 EB2 C (ex_simple_ok _ K2)
    ltac:(cbn; rewrite K3; exact EH) K4 Ek 4 (le_n _)).
Qed.
Print Assumptions C22_unchanged_step_refuted.
Print Assumptions C22_revisited_state_refuted.
