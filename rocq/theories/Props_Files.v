(** C50: the file store. *)
From Verif Require Import Base Spec_Files Spec_Disk Files_proofs Disk_proofs Condition_proofs Facade_proofs Crash_proofs Spec_Facade Spec_Relations Props_Storage Props_Bundle Props_BundleCodec Props_Codec BundleCodec Props_Build Spec_Bundle Props_Dag Text Props_History Props_Refs Props_VBuild Props_Crash Spec_Total Props_Total OcaFile Props_OcaFile.
Local Open Scope list_scope.

(** A value written under a key that is a file name is read back, until the key is written again. *)
Theorem C50_read_own : forall cwd d n k v t t', file_name k -> file_insert cwd (Some d) n k v t = Ok t' -> file_get cwd (Some d) n k t' = Ok (Some v).
Proof. intros cwd d n k v t t'. apply read_own. Qed.
Print Assumptions C50_read_own.
(** Writing one key changes no other. *)
Theorem C50_read_other : forall cwd d n k v t t' n' k', ".." ∉ comps d -> sane_disk t -> file_name k -> file_name k' -> (n', k') <> (n, k) ->
  file_insert cwd (Some d) n k v t = Ok t' -> file_get cwd (Some d) n' k' t' = file_get cwd (Some d) n' k' t.
Proof. intros cwd d n k v t t' n' k' Hp Hs Hk Hk2 Hne H. exact (read_other cwd d Hp t n k v t' n' k' Hs Hk Hk2 Hne H). Qed.
Print Assumptions C50_read_other.
(** On the whole disk, one insert changes the file of its key, below the directory of the store, and otherwise only makes the
    missing directories on the way. *)
Theorem C50_confined : forall cwd l n k v t t', l <> [] -> Forall file_name l -> file_name k -> file_insert cwd (Some (path_of l)) n k v t = Ok t' ->
  t' !! (k :: ns_name n :: rev l) = Some (Some v) /\
  forall q, q <> k :: ns_name n :: rev l -> t' !! q = t !! q \/ (t !! q = None /\ t' !! q = Some None /\ q `suffix_of` ns_name n :: rev l).
Proof.
  intros cwd l n k v t t' Hl Hn Hk H. destruct (insert_changes cwd _ (d_plain l Hl Hn) _ _ _ _ _ Hk H) as (b & Hb & C).
  rewrite (usable_at cwd l Hl Hn _ _ Hb) in C. split.
  - destruct (insert_spec _ _ _ _ _ _ _ Hk H) as (Hd & t1 & b1 & Ha & Hn1 & Hf & -> & _). rewrite (usable_at cwd l Hl Hn _ _ Ha). apply lookup_insert.
  - intros q Hq. destruct (C q) as [E|[E|E]]; [by left|done|by right].
Qed.
Print Assumptions C50_confined.

Lemma run_usable cwd l : l <> [] -> Forall file_name l -> forall ws t, usable l t -> Forall (fun w : Spec_Storage.write => file_name w.1.2) ws ->
  exists t', run_files cwd (path_of l) ws t = Ok t' /\ usable l t'.
Proof.
  intros Hl Hn. unfold run_files. induction ws as [|[[n k] v] ws IH]; intros t U H; [by exists t|]. apply Forall_cons in H as [Hk H]. cbn [fold_left obind fst snd] in *.
  destruct (usable_insert cwd l Hl Hn t n k v U Hk) as (t1 & E & U1). rewrite E. by apply IH.
Qed.
Lemma run_snoc cwd d ws w t : run_files cwd d (ws ++ [w]) t = let! t1 := run_files cwd d ws t in file_insert cwd (Some d) w.1.1 w.1.2 w.2 t1.
Proof. unfold run_files. rewrite fold_left_app. done. Qed.
Lemma fresh_none cwd l t n k : l <> [] -> Forall file_name l -> fresh_dir t l -> sane_disk t -> file_name k -> file_get cwd (Some (path_of l)) n k t = Ok None.
Proof.
  intros Hl Hn Hf Hs Hk. rewrite get_spec by (try done; by apply path_nul). pose proof (fresh_usable l t Hs Hf) as U.
  destruct (walk t (start cwd (path_of l)) (comps (path_of l))) as [b|p v|p| |] eqn:E; [|exfalso|done|done|exfalso].
  - rewrite (usable_at cwd l Hl Hn _ _ E). destruct Hf as [_ _ _ He]. pose proof (He (ns_name n) []) as G. cbn [app] in G. by rewrite G.
  - destruct (usable_insert cwd l Hl Hn t n k "" U Hk) as (t' & Ht & _). unfold file_insert, path_exists in Ht. rewrite locate_ns in Ht by (by apply path_nul). rewrite E in Ht. discriminate Ht.
  - destruct (usable_insert cwd l Hl Hn t n k "" U Hk) as (t' & Ht & _). unfold file_insert, path_exists in Ht. rewrite locate_ns in Ht by (by apply path_nul). rewrite E in Ht. discriminate Ht.
Qed.
(** From a fresh directory, any sequence of inserts with keys that are file names succeeds, and every key then reads as the
    last value written to it, or as absent. *)
Theorem C50_contract : forall cwd l ws t, fresh_dir t l -> sane_disk t -> Forall (fun w : Spec_Storage.write => file_name w.1.2) ws ->
  exists t', run_files cwd (path_of l) ws t = Ok t' /\
    forall n k, file_name k -> (exists v, file_get cwd (Some (path_of l)) n k t' = Ok (Some v) /\ last_written ws n k v) \/
                               (file_get cwd (Some (path_of l)) n k t' = Ok None /\ forall v, (n, k, v) ∉ ws).
Proof.
  intros cwd l ws t Hf Hs. pose proof (fd_some _ _ Hf) as Hl. pose proof (fd_names _ _ Hf) as Hn. induction ws as [|[[n0 k0] v0] ws IH] using rev_ind; intros H.
  - exists t. split; [done|]. intros n k Hk. right. split; [by apply fresh_none|]. intros v F. by apply elem_of_nil in F.
  - apply Forall_app in H as [H Hw]. pose proof (Forall_inv Hw) as Hw1. clear Hw. rename Hw1 into Hw. cbn [fst snd] in Hw. destruct (IH H) as (t1 & E1 & G1).
    destruct (run_usable cwd l Hl Hn ws t (fresh_usable l t Hs Hf) H) as (t1' & E1' & U). rewrite E1 in E1'. injection E1' as <-.
    destruct (usable_insert cwd l Hl Hn t1 n0 k0 v0 U Hw) as (t2 & E2 & U2). exists t2. rewrite run_snoc, E1. cbn [obind fst snd]. split; [done|]. intros n k Hk.
    destruct (decide ((n, k) = (n0, k0))) as [E|E].
    + injection E as -> ->. left. exists v0. split; [by eapply read_own|]. exists ws, []. split; [done|]. intros v' F. by apply elem_of_nil in F.
    + rewrite (read_other cwd _ (d_plain l Hl Hn) t1 n0 k0 v0 t2 n k) by (try done; by destruct U). destruct (G1 n k Hk) as [(v & Gv & (pre & post & -> & Hp))|(Gv & Hno)].
      * left. exists v. split; [done|]. exists pre, (post ++ [(n0, k0, v0)]). split; [by rewrite <- app_assoc|]. intros v' F. apply elem_of_app in F as [F|F]; [by apply (Hp v')|].
        apply elem_of_list_singleton in F. congruence.
      * right. split; [done|]. intros v F. apply elem_of_app in F as [F|F]; [by apply (Hno v)|]. apply elem_of_list_singleton in F. congruence.
Qed.
Print Assumptions C50_contract.

(** A facade whose database and cache are file stores in two fresh directories, neither inside the other: after any history of
    validations and builds of files whose names fit, complete or cut off at any write, the two directories answer every request
    for a key that is a file name as the stores of the facade do. *)
Theorem C50_history_on_files : forall digest from1 to1 listing said_ok digits lang_ok standard_read to_text of_text hash cwd l1 l2 t ws f,
  (forall j, id_text (digest j)) -> (forall s, id_text (hash s)) ->
  Spec_Disk.written digest from1 to1 listing said_ok digits lang_ok standard_read to_text of_text hash ws f ->
  sane_disk t -> fresh_dir t l1 -> fresh_dir t l2 -> ~ l1 `prefix_of` l2 -> ~ l2 `prefix_of` l1 ->
  exists t', on_disk cwd (path_of l1) (path_of l2) ws t = Ok t' /\ sane_disk t' /\
    answers_as cwd (path_of l1) t' (fa_db f) /\ answers_as cwd (path_of l2) t' (fa_cache f).
Proof.
  intros digest from1 to1 listing said_ok digits lang_ok standard_read to_text of_text hash cwd l1 l2 t ws f Hd Hh W Hs F1 F2 A1 A2.
  destruct (written_fits _ _ _ _ _ _ _ _ _ _ _ Hd Hh _ _ W) as [Hw ->].
  destruct (on_disk_all cwd l1 l2 t F1 F2 Hs) with (ws := ws) as (t' & E & U1 & _ & S1 & S2); [| |done|].
  - intros F. apply A1. apply prefix_suffix_reverse. unfold reverse. by rewrite <- !rev_alt.
  - intros F. apply A2. apply prefix_suffix_reverse. unfold reverse. by rewrite <- !rev_alt.
  - exists t'. split; [done|]. split; [by destruct U1|]. split; [exact S1|exact S2].
Qed.
Print Assumptions C50_history_on_files.

(** ** The hypotheses can be met *)
Lemma pos_text_id p : (p < 1073741824)%positive -> id_text (pos_text p).
Proof.
  intros H. split; [by destruct p| |].
  - clear. induction p as [p IH|p IH|]; intros [|i] c E; cbn in E; try discriminate E; try (injection E as <-; done); by eapply IH.
  - rewrite pos_text_length. assert (G : forall n q, (q < 2 ^ Pos.of_succ_nat n)%positive -> Pos.size_nat q <= S n).
    { clear. induction n as [|n IH]; intros q Hq; [destruct q; [cbn in Hq; lia..|cbn; lia]|]. destruct q as [q|q|]; cbn [Pos.size_nat]; [..|lia].
      all: apply le_n_S, IH; cbn [Pos.of_succ_nat] in Hq |- *; rewrite Pos.pow_succ_r in Hq; lia. }
    specialize (G 29 p). change (2 ^ Pos.of_succ_nat 29)%positive with 1073741824%positive in G. specialize (G H). eapply Nat.le_trans; [exact G|apply Nat.leb_le; reflexivity].
Qed.
Lemma ex_hash_id s : id_text (ex_hash s).
Proof. apply pos_text_id. assert (H : (hash_n s 7 < 1000000007)%N) by by apply hash_n_small. set (n := hash_n s 7) in *. clearbody n. destruct n; cbn; lia. Qed.
Definition ex_written := Spec_Disk.written ex_digest ex_from1 ex_to1 ex_listing ex_said_ok ascii_digits ex_lang_ok (fun _ => None) ex_to_text ex_of_text ex_hash.
Lemma fresh_empty l : l <> [] -> Forall file_name l -> fresh_dir ∅ l. Proof. intros Hl Hn. by split. Qed.
Lemma named_file k : Forall (fun c => safe_char c = true) (list_ascii_of_string k) -> 3 <= String.length k <= 255 -> file_name k. Proof. apply long_name. Qed.
Lemma ex_sane : sane_disk ∅. Proof. intros c p x H. by rewrite lookup_empty in H. Qed.
Notation ex_attempt := (t_build_ast ex_digest ex_from1 ex_to1 ex_listing ex_said_ok ascii_digits ex_lang_ok (fun _ => None) ex_to_text ex_of_text ex_hash (fun _ => ord1)).
(** A history with a complete build of a named file and one that stops after three writes. *)
Example C50_hypotheses_met : (exists ws f, ex_written ws f /\ 10 <= length ws /\ exists s, entry (fa_db f) NsReferences "first" = Some s) /\
  (forall j, id_text (ex_digest j)) /\ (forall s, id_text (ex_hash s)) /\ sane_disk ∅ /\ fresh_dir ∅ ["store"; "db"] /\ fresh_dir ∅ ["store"; "cache"] /\
  ~ ["store"; "db"] `prefix_of` ["store"; "cache"] /\ ~ ["store"; "cache"] `prefix_of` ["store"; "db"].
Proof.
  split; [|split; [intros j; apply ex_hash_id|split; [apply ex_hash_id|split; [apply ex_sane|]]]].
  - assert (H : match ex_build_one (fun _ => ord1) ex_first_named facade_new with Ok (f, B) =>
      Nat.leb 10 (length ((ex_attempt ex_first_named facade_new).1 ++ take 3 (ex_attempt ex_first_named f).1)) &&
      match entry (fa_db (puts (take 3 (ex_attempt ex_first_named f).1) f)) NsReferences "first" with Some _ => true | None => false end | _ => false end = true) by (vm_compute; reflexivity).
    destruct (ex_build_one (fun _ => ord1) ex_first_named facade_new) as [[f B]| |] eqn:E; [|discriminate H|discriminate H]. apply andb_prop in H as [H1 H2]. apply Nat.leb_le in H1.
    assert (Hn : name_fits ex_first_named). { intros n En. cbn in En. assert (n = "first") as -> by (vm_compute in En; congruence). apply named_file; [by repeat constructor|cbn; lia]. }
    eexists _, _. split; [eapply written_part; [eapply (written_build _ _ _ _ _ _ _ _ _ _ _ []); [apply written_none|exact Hn|exact E]|exact Hn]|]. split; [exact H1|].
    destruct (entry _ _ _) as [s|]; [by exists s|discriminate H2].
  - assert (N : forall c, c ∈ ["store"; "db"; "cache"] -> file_name c).
    { intros c Hc. repeat (apply elem_of_cons in Hc as [ -> |Hc]); [..|by apply elem_of_nil in Hc]; apply safe_name; try done; try (by repeat constructor); cbn; lia. }
    split; [apply fresh_empty; [done|]; repeat (apply Forall_cons; split; [apply N; set_solver|]); by constructor|].
    split; [apply fresh_empty; [done|]; repeat (apply Forall_cons; split; [apply N; set_solver|]); by constructor|].
    split; intros [q Hq]; cbn in Hq; discriminate Hq.
Qed.

(** ** What does not hold *)
Definition with_name (n : string) : string := ("-- name=" +:+ n +:+ NL +:+ "ADD ATTRIBUTE a=Text" +:+ NL)%string.
(** A name is written where it says: an absolute one anywhere on the disk. *)
Theorem C50_absolute_name_escapes_refuted : exists a n t t',
  parse_ocafile no_wide any_said (with_name "/etc/profile") = Ok a /\ ast_meta a !! "name" = Some n /\
  sane_disk t /\ t !! ["profile"; "etc"] = Some (Some "old") /\ file_insert [] (Some "/store") NsReferences n "new" t = Ok t' /\
  t' !! ["profile"; "etc"] = Some (Some "new").
Proof.
  eexists _, "/etc/profile", {[ ["etc"] := None; ["profile"; "etc"] := Some "old" ]}, _. split; [vm_compute; reflexivity|]. split; [vm_compute; reflexivity|].
  split; [|split; [vm_compute; reflexivity|split; vm_compute; reflexivity]].
  intros c p x H. destruct p as [|d p]; [by left|]. right. destruct (decide (c :: d :: p = ["profile"; "etc"])) as [E|E]; [by injection E as _ -> ->|].
  exfalso. rewrite insert_union_singleton_l in H.
  apply lookup_union_Some_raw in H as [H|[_ H]]; apply lookup_singleton_Some in H as [H _]; congruence.
Qed.
(** One with ".." replaces a record of another kind: here the history of a bundle. *)
Theorem C50_dotted_name_overwrites_refuted : exists a n t t',
  parse_ocafile no_wide any_said (with_name "../oca/oca.EX.operation") = Ok a /\ ast_meta a !! "name" = Some n /\
  file_insert [] (Some "/store") NsOCA "oca.EX.operation" "record" ∅ = Ok t /\ file_insert [] (Some "/store") NsReferences n "new" t = Ok t' /\
  file_get [] (Some "/store") NsOCA "oca.EX.operation" t = Ok (Some "record") /\ file_get [] (Some "/store") NsOCA "oca.EX.operation" t' = Ok (Some "new").
Proof. eexists _, "../oca/oca.EX.operation", _, _. repeat (split; [vm_compute; reflexivity|]). vm_compute. reflexivity. Qed.
(** In memory, that name is a key like any other. *)
Example C50_dotted_name_in_memory : forall m v, exists m', mem_insert NsReferences "../oca/oca.EX.operation" v m = Ok m' /\
  mem_get NsOCA "oca.EX.operation" m' = mem_get NsOCA "oca.EX.operation" m.
Proof. intros m v. rewrite mem_ins2. eexists. split; [done|]. rewrite !mem_get2, get2_ins2. case_bool_decide as E; [by destruct E|done]. Qed.
(** If the directory is given with "..", an insert can make other keys appear. *)
Theorem C50_dotted_directory_refuted : exists t t', sane_disk t /\ file_get [] (Some "/a/..") NsOCA "k" t = Ok None /\
  file_insert [] (Some "/a/..") NsOCA "other" "v" t = Ok t' /\ file_get [] (Some "/a/..") NsOCA "k" t' = Ok (Some "old").
Proof.
  exists {[ ["oca"] := None; ["k"; "oca"] := Some "old" ]}. eexists. split; [|split; [vm_compute; reflexivity|split; vm_compute; reflexivity]].
  intros c p x H. destruct p as [|d p]; [by left|]. right. destruct (decide (c :: d :: p = ["k"; "oca"])) as [E|E]; [by injection E as _ -> ->|].
  exfalso. rewrite insert_union_singleton_l in H.
  apply lookup_union_Some_raw in H as [H|[_ H]]; apply lookup_singleton_Some in H as [H _]; congruence.
Qed.
(** A name of more than 255 bytes is an error here, though every other store takes it. *)
Theorem C50_long_name_refuted : exists a n, parse_ocafile no_wide any_said (with_name (String.concat "" (repeat "abcd" 64))) = Ok a /\ ast_meta a !! "name" = Some n /\
  is_err (file_insert [] (Some "/store") NsReferences n "v" ∅) = true /\ is_ok (mem_insert NsReferences n "v" ∅) = true.
Proof. eexists _, _. split; [vm_compute; reflexivity|]. split; [vm_compute; reflexivity|]. split; vm_compute; reflexivity. Qed.
Print Assumptions C50_absolute_name_escapes_refuted.
Print Assumptions C50_dotted_name_overwrites_refuted.
Print Assumptions C50_dotted_directory_refuted.
Print Assumptions C50_long_name_refuted.
