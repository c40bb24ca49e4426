(** C27-C29: storage contract, pagination, cache inserts. *)
From Verif Require Import Spec_Storage Sort_proofs Upd_proofs.
From Coq Require Import Lia.

(** ** C27 *)
#[global] Instance ns_eq : EqDecision namespace. Proof. solve_decision. Defined.
Definition get2 (d : mem) (n : namespace) (k : string) : option string := d !! ns_name n ≫= fun s => s !! k.
Lemma ns_inj n n' : ns_name n = ns_name n' -> n = n'. Proof. by destruct n, n'. Qed.
Lemma mem_get2 n k d : mem_get n k d = Ok (get2 d n k).
Proof. unfold mem_get, get2. destruct (d !! ns_name n) as [s|]; cbn; [by destruct (s !! k)|done]. Qed.
Lemma sled_get2 n k d : sled_get n k (Some d) = Ok (get2 d n k).
Proof. unfold sled_get, get2. by destruct (d !! ns_name n). Qed.
Lemma fs_get2 n k d : fs_get n k (Some d) = Ok (get2 d n k).
Proof. unfold fs_get, get2. by destruct (d !! ns_name n). Qed.
Definition ins2 (n : namespace) (k v : string) (d : mem) : mem := <[ns_name n := <[k := v]> (unwrap_or ∅ (d !! ns_name n))]> d.
Lemma mem_ins2 n k v d : mem_insert n k v d = Ok (ins2 n k v d). Proof. unfold mem_insert, ins2. by destruct (d !! ns_name n). Qed.
Lemma sled_ins2 n k v d : sled_insert n k v (Some d) = Ok (Some (ins2 n k v d)). Proof. done. Qed.
Lemma fs_ins2 n k v d : fs_insert n k v (Some d) = Ok (Some (ins2 n k v d)).
Proof.
  unfold fs_insert, ins2. destruct (d !! ns_name n) as [s|] eqn:E; cbv zeta; [by rewrite E|].
  rewrite lookup_insert. cbn [unwrap_or]. by rewrite insert_insert.
Qed.
Lemma get2_ins2 n k v d n' k' : get2 (ins2 n k v d) n' k' = if bool_decide (n = n' /\ k = k') then Some v else get2 d n' k'.
Proof.
  unfold get2, ins2. case_bool_decide as E.
  - destruct E as [<- <-]. rewrite lookup_insert. cbn. by rewrite lookup_insert.
  - destruct (decide (n = n')) as [<-|Hn].
    + rewrite lookup_insert. cbn. rewrite lookup_insert_ne by naive_solver. destruct (d !! ns_name n); cbn; [done|]. by rewrite lookup_empty.
    + rewrite lookup_insert_ne; [done|]. intros H. by apply ns_inj in H.
Qed.
Definition run2 (ws : list write) (d : mem) : mem := fold_left (fun d w => ins2 w.1.1 w.1.2 w.2 d) ws d.
Lemma run2_spec ws : forall n k,
  (exists v, get2 (run2 ws ∅) n k = Some v /\ last_written ws n k v) \/ (get2 (run2 ws ∅) n k = None /\ forall v, (n, k, v) ∉ ws).
Proof.
  induction ws as [|w ws IH] using rev_ind; intros n k.
  - right. split; [done|]. intros v H. by apply elem_of_nil in H.
  - unfold run2. rewrite fold_left_app. cbn [fold_left]. destruct w as [[n0 k0] v0]. cbn [fst snd]. fold (run2 ws ∅). rewrite get2_ins2.
    case_bool_decide as E.
    + destruct E as [-> ->]. left. exists v0. split; [done|]. exists ws, []. split; [done|]. intros v' H. by apply elem_of_nil in H.
    + destruct (IH n k) as [(v & Hg & pre & post & -> & Hp)|[Hg Hn]].
      * left. exists v. split; [done|]. exists pre, (post ++ [(n0, k0, v0)]). split; [by rewrite <- app_assoc|].
        intros v' H. apply elem_of_app in H as [H|H]; [by eapply Hp|]. apply elem_of_list_singleton in H. naive_solver.
      * right. split; [done|]. intros v H. apply elem_of_app in H as [H|H]; [by eapply Hn|]. apply elem_of_list_singleton in H. naive_solver.
Qed.
Lemma contract {S} (new : S) get insert (wrap : mem -> S) : wrap ∅ = new -> (forall n k d, get n k (wrap d) = Ok (get2 d n k)) ->
  (forall n k v d, insert n k v (wrap d) = Ok (wrap (ins2 n k v d))) ->
  (forall ws, fold_left (fun acc w => let! d := acc in insert w.1.1 w.1.2 w.2 d) ws (Ok new) = Ok (wrap (run2 ws ∅))) /\ store_contract new get insert.
Proof.
  intros Hw Hg Hi.
  assert (R : forall ws d, fold_left (fun (acc : outcome S) (w : write) => let! d := acc in insert w.1.1 w.1.2 w.2 d) ws (Ok (wrap d)) = Ok (wrap (run2 ws d))).
  { induction ws as [|w ws IH]; intros d; [done|]. cbn [fold_left obind]. rewrite Hi. apply IH. }
  rewrite <- Hw. split; [intros ws; apply R|]. split. intros ws. exists (wrap (run2 ws ∅)). split; [apply R|]. intros n k.
  rewrite Hg. destruct (run2_spec ws n k) as [(v & -> & H)|[-> H]]; [left; by exists v|by right].
Qed.
Theorem C27_memory : store_contract mem_new mem_get mem_insert /\ lists_all mem_new mem_get mem_insert mem_get_all.
Proof.
  destruct (contract mem_new mem_get mem_insert id eq_refl mem_get2 mem_ins2) as [R C]. split; [done|].
  intros ws d E n. rewrite R in E. injection E as <-. unfold mem_get_all, mem_get, id. destruct (_ !! ns_name n) as [s|]; [exists s|exists ∅]; (split; [done|]); intros k.
  - by destruct (s !! k).
  - by rewrite lookup_empty.
Qed.
Print Assumptions C27_memory.
(** The opened sled store and the configured file store satisfy the same contract. *)
Theorem C27_sled : store_contract (Some ∅) sled_get sled_insert /\ lists_all (Some ∅) sled_get sled_insert sled_get_all.
Proof.
  destruct (contract (Some ∅ : sled) sled_get sled_insert Some eq_refl sled_get2 sled_ins2) as [R C]. split; [done|].
  intros ws d E n. rewrite R in E. injection E as <-. eexists. split; [done|]. intros k. done.
Qed.
Print Assumptions C27_sled.
Theorem C27_files : store_contract (Some ∅) fs_get fs_insert.
Proof. exact (proj2 (contract (Some ∅ : fsys) fs_get fs_insert Some eq_refl fs_get2 fs_ins2)). Qed.
Print Assumptions C27_files.
(** Without configuration every operation of these two fails; the file store cannot list. *)
Theorem C27_unopened : forall n k v, is_err (sled_get n k sled_new) = true /\ is_err (sled_get_all n sled_new) = true /\ is_err (sled_insert n k v sled_new) = true /\
  is_err (fs_get n k fs_new) = true /\ is_err (fs_insert n k v fs_new) = true.
Proof. done. Qed.
Theorem C27_files_listing_refuted : forall n d, exists e, fs_get_all n d = Err e.
Proof. intros. by eexists. Qed.
Theorem C27_namespaces : forall n n', ns_name n = ns_name n' -> n = n'. Proof. exact ns_inj. Qed.
Example C27_example :
  match mem_insert NsOCA "k" "1" mem_new with
  | Ok d1 => match mem_insert NsCore "k" "2" d1 with
    | Ok d2 => match mem_insert NsOCA "k" "3" d2 with
      | Ok d3 => match mem_get NsOCA "k" d3, mem_get NsCore "k" d3, mem_get NsBundles "k" d3 with Ok (Some "3"), Ok (Some "2"), Ok None => true | _, _, _ => false end
      | _ => false end | _ => false end | _ => false end = true.
Proof. vm_compute. reflexivity. Qed.

(** ** C28 *)
Lemma parse_rows_ok {A} (parse : string -> outcome A) (val : string -> A) what (p : table) total : (forall s x, (s, x) ∈ p -> parse x = Ok (val x)) ->
  forall recs t0, (t0 = 0 \/ t0 = total) ->
  parse_rows parse what (map (fun r => (Some r, total)) p) recs t0 [] =
    Ok (recs ++ map (fun r => val r.2) p, match p with [] => t0 | _ => total end, []).
Proof.
  induction p as [|[s x] p IH]; intros H recs t0 Ht; [cbn; by rewrite app_nil_r|]. cbn [map parse_rows]. rewrite (H s x) by left.
  rewrite IH; [|intros s' x' Hin; apply (H s'); by right|].
  - rewrite <- app_assoc. cbn. do 3 f_equal. destruct p; [|done]. destruct Ht as [-> | ->]; [done|]. destruct total; done.
  - right. destruct Ht as [-> | ->]; [done|]. destruct total; done.
Qed.
Lemma rows_ok {A} (parse : string -> outcome A) (val : string -> A) what limit p t :
  (forall s x, (s, x) ∈ t -> parse x = Ok (val x)) ->
  fetch_all parse what limit (S p) t = Ok (map (fun r => val r.2) (sort_by fst (take limit (drop (p * limit) t))), length t).
Proof.
  intros H. unfold fetch_all, table_fetch, table_rows. cbn [obind]. destruct t as [|r t]; [by rewrite drop_nil, take_nil|]. set (T := r :: t) in *.
  assert (HP : forall s x, (s, x) ∈ sort_by fst (take limit (drop (p * limit) T)) -> parse x = Ok (val x)).
  { intros s x Hin. rewrite sort_by_perm in Hin. apply (H s). eapply elem_of_list_lookup in Hin as [i Hi]. apply lookup_take_Some in Hi as [Hi _].
    rewrite lookup_drop in Hi. by eapply elem_of_list_lookup_2. }
  destruct (take limit (drop (p * limit) T)) as [|r0 l0] eqn:E; [done|]. rewrite (parse_rows_ok _ val) by (try done; by left). cbn [obind].
  destruct (sort_by fst (r0 :: l0)) eqn:F; [|done]. pose proof (sort_by_perm fst (r0 :: l0)) as P. rewrite F in P. by apply Permutation_nil_l in P.
Qed.
(** Page [p] holds exactly the rows stored at positions (p-1)*limit .. p*limit-1, sorted by identifier, and the total. *)
Theorem C28_page : forall A (parse : string -> outcome A) (val : string -> A) what limit p (t : table),
  (forall s x, (s, x) ∈ t -> parse x = Ok (val x)) -> 1 <= p ->
  exists rows, fetch_all parse what limit p t = Ok (map (fun r => val r.2) rows, length t) /\
    rows ≡ₚ take limit (drop ((p - 1) * limit) t) /\
    (forall r, r ∈ rows <-> exists i, on_page limit p i /\ t !! i = Some r) /\
    (forall i j r r', i < j -> rows !! i = Some r -> rows !! j = Some r' -> str_le r.1 r'.1).
Proof.
  intros A parse val what limit [|p] t H Hp; [lia|]. eexists. split; [by apply rows_ok|]. rewrite Nat.sub_succ, Nat.sub_0_r.
  split; [apply sort_by_perm|]. split.
  - intros r. rewrite sort_by_perm. rewrite elem_of_list_lookup. setoid_rewrite lookup_take_Some. setoid_rewrite lookup_drop. unfold on_page. split.
    + intros (i & Hi & Hl). exists (p * limit + i). split; [|done]. cbn. rewrite Nat.sub_0_r. lia.
    + intros (i & Hi & Hl). cbn in Hi. rewrite Nat.sub_0_r in Hi. exists (i - p * limit). split; [|lia]. by replace (p * limit + (i - p * limit)) with i by lia.
  - assert (S : sorted_k fst (sort_by fst (take limit (drop (p * limit) t)))) by apply sort_by_sorted. revert S. generalize (sort_by fst (take limit (drop (p * limit) t))) as l.
    induction l as [|x l IH]; intros Hs i j r r' Hij Hi Hj; [done|]. cbn in Hs. destruct Hs as [Hx Hs]. destruct j as [|j]; [lia|]. destruct i as [|i]; cbn in *.
    + injection Hi as <-. apply Hx. by eapply elem_of_list_lookup_2.
    + apply (IH Hs i j); [lia|done|done].
Qed.
Print Assumptions C28_page.
(** Walking the pages visits every record exactly once, and then nothing. *)
Theorem C28_walk : forall A (parse : string -> outcome A) (val : string -> A) what limit (t : table),
  (forall s x, (s, x) ∈ t -> parse x = Ok (val x)) -> 1 <= limit ->
  exists pages : nat -> list A,
    (forall p, 1 <= p -> fetch_all parse what limit p t = Ok (pages p, length t)) /\
    (forall n, length t <= n * limit -> concat (map pages (seq 1 n)) ≡ₚ map (fun r => val r.2) t) /\
    (forall p, 1 <= p -> length t <= (p - 1) * limit -> pages p = []).
Proof.
  intros A parse val what limit t H Hl. exists (fun p => map (fun r => val r.2) (sort_by fst (take limit (drop ((p - 1) * limit) t)))). split; [|split].
  - intros [|p] Hp; [lia|]. rewrite (rows_ok _ val) by done. by rewrite Nat.sub_succ, Nat.sub_0_r.
  - assert (W : forall n k, concat (map (fun p => map (fun r : string * string => val r.2) (sort_by fst (take limit (drop ((p - 1) * limit) t)))) (seq (S k) n)) ≡ₚ
        map (fun r => val r.2) (take (n * limit) (drop (k * limit) t))).
    { induction n as [|n IH]; intros k; [done|]. cbn [seq map concat]. rewrite IH. rewrite Nat.sub_succ, Nat.sub_0_r.
      replace (S n * limit) with (limit + n * limit) by lia. rewrite <- take_take_drop, map_app, drop_drop. apply Permutation_app.
      - apply Permutation_map. apply sort_by_perm.
      - replace (k * limit + limit) with (S k * limit) by lia. done. }
    intros n Hn. rewrite (W n 0). cbn. rewrite drop_0. by rewrite take_ge.
  - intros p Hp Hd. rewrite drop_ge by done. by rewrite take_nil.
Qed.
Print Assumptions C28_walk.
(** Finding: page 0 aborts the program. *)
Theorem C28_page_zero_refuted : forall A (parse : string -> outcome A) what limit t, fetch_all parse what limit 0 t = Panic.
Proof. done. Qed.
Example C28_example : let t := [("b", "1"); ("a", "2"); ("c", "3")] in
  fetch_all Ok "x" 2 1 t = Ok (["2"; "1"], 3) /\ fetch_all Ok "x" 2 2 t = Ok (["3"], 3) /\ fetch_all Ok "x" 2 3 t = Ok ([], 3).
Proof. done. Qed.

(** ** C29 *)
Definition inserts (ws : list (string * string)) (t : table) : table := fold_left (fun t w => table_insert w.1 w.2 t) ws t.
Lemma imap_mem_spec (k : string) (t : table) : imap_mem k t = true <-> k ∈ map fst t.
Proof.
  unfold imap_mem. rewrite existsb_exists. split.
  - intros ([k' v] & Hin & E). cbn in E. apply String.eqb_eq in E as ->. apply elem_of_list_In, in_map_iff. by exists (k', v).
  - intros Hin. apply elem_of_list_In, in_map_iff in Hin as ([k' v] & <- & Hin). exists (k', v). split; [done|]. apply String.eqb_refl.
Qed.
Theorem C29_insert : forall s x t,
  (s ∈ map fst t -> table_insert s x t = t) /\ (s ∉ map fst t -> table_insert s x t = t ++ [(s, x)]).
Proof.
  intros s x t. unfold table_insert. pose proof (imap_mem_spec s t) as M. destruct (imap_mem s t); split; intros H; try done.
  - exfalso. by apply H, M.
  - apply M in H. done.
Qed.
Print Assumptions C29_insert.
Theorem C29_never_changes : forall ws t, exists new, inserts ws t = t ++ new.
Proof.
  induction ws as [|[s x] ws IH]; intros t; cbn; [exists []; by rewrite app_nil_r|]. destruct (IH (table_insert s x t)) as [new E]. unfold inserts in E. rewrite E.
  unfold table_insert. destruct (imap_mem s t); [by exists new|]. exists ((s, x) :: new). by rewrite <- app_assoc.
Qed.
Print Assumptions C29_never_changes.
Theorem C29_contents : forall ws, NoDup (map fst (inserts ws [])) /\ forall k v, (k, v) ∈ inserts ws [] <-> first_written ws k v.
Proof.
  intros ws. induction ws as [|[s x] ws [IH1 IH2]] using rev_ind.
  - split; [apply NoDup_nil_2|]. intros k v. split; [intros H; by apply elem_of_nil in H|]. intros (pre & post & E & _). by destruct pre.
  - assert (EE : inserts (ws ++ [(s, x)]) [] = table_insert s x (inserts ws [])) by (unfold inserts; by rewrite fold_left_app). rewrite EE. set (t := inserts ws []) in *.
    destruct (C29_insert s x t) as [I1 I2]. destruct (decide (s ∈ map fst t)) as [Hs|Hs].
    + rewrite I1 by done. split; [done|]. intros k v. rewrite IH2. split.
      * intros (pre & post & -> & Hp). exists pre, (post ++ [(s, x)]). split; [by rewrite <- app_assoc|done].
      * intros (pre & post & E & Hp). destruct post as [|y post _] using rev_ind.
        -- apply app_inj_tail in E as [-> [= -> ->]]. exfalso. apply elem_of_list_fmap in Hs as ([k' v'] & E & Hin). cbn in E. subst k'.
           apply IH2 in Hin as (pre' & post' & -> & _). apply (Hp v'). apply elem_of_app. right. left.
        -- rewrite app_comm_cons, app_assoc in E. apply app_inj_tail in E as [-> _]. by exists pre, post.
    + rewrite I2 by done. split.
      * rewrite map_app. apply NoDup_app. split; [done|]. split; [|apply NoDup_singleton]. intros k Hk Hin. apply elem_of_list_singleton in Hin. cbn in Hin. by subst k.
      * intros k v. rewrite elem_of_app, IH2, elem_of_list_singleton. split.
        -- intros [(pre & post & -> & Hp)|[= -> ->]]; [exists pre, (post ++ [(s, x)]); split; [by rewrite <- app_assoc|done]|].
           exists ws, []. split; [done|]. intros v' Hin. apply Hs.
           (* some write of s came first *)
           assert (F : exists v0, first_written ws s v0).
           { clear - Hin. induction ws as [|[s' x'] ws IHw]; [by apply elem_of_nil in Hin|]. destruct (decide (s' = s)) as [->|Hne].
             - exists x', [], ws. split; [done|]. intros v0 H0. by apply elem_of_nil in H0.
             - apply elem_of_cons in Hin as [[= <- <-]|Hin]; [done|]. destruct (IHw Hin) as (v0 & pre & post & -> & Hp). exists v0, ((s', x') :: pre), post. split; [done|].
               intros v1 H1. apply elem_of_cons in H1 as [[= -> _]|H1]; [done|]. by apply (Hp v1). }
           destruct F as [v0 F]. apply IH2 in F. apply elem_of_list_fmap. by exists (s, v0).
        -- intros (pre & post & E & Hp). destruct post as [|y post _] using rev_ind.
           ++ apply app_inj_tail in E as [-> [= -> ->]]. by right.
           ++ left. rewrite app_comm_cons, app_assoc in E. apply app_inj_tail in E as [-> _]. by exists pre, post.
Qed.
Print Assumptions C29_contents.
(** The search index keeps one row per bundle and language, the first. *)
Theorem C29_search_index : forall r t, (exists new, fts_insert r t = t ++ new) /\
  (NoDup (map (fun x => (ft_said x, ft_lang x)) t) -> NoDup (map (fun x => (ft_said x, ft_lang x)) (fts_insert r t))) /\
  ((ft_said r, ft_lang r) ∈ map (fun x => (ft_said x, ft_lang x)) (fts_insert r t)).
Proof.
  intros r t. unfold fts_insert. destruct (existsb _ t) eqn:E.
  - split; [exists []; by rewrite app_nil_r|]. split; [done|]. apply existsb_exists in E as (x & Hin & E). apply andb_true_iff in E as [E1 E2].
    apply String.eqb_eq in E1, E2. rewrite <- E1, <- E2. apply elem_of_list_In. by apply (in_map (fun x => (ft_said x, ft_lang x))).
  - split; [by exists [r]|]. split.
    + intros N. rewrite map_app. apply NoDup_app. split; [done|]. split; [|apply NoDup_singleton]. intros k Hk Hr. apply elem_of_list_singleton in Hr. cbn in Hr. subst k.
      apply elem_of_list_In, in_map_iff in Hk as (x & Ex & Hin). assert (X : existsb (fun x => String.eqb (ft_said x) (ft_said r) && String.eqb (ft_lang x) (ft_lang r)) t = true).
      { apply existsb_exists. exists x. split; [done|]. injection Ex as -> ->. by rewrite !String.eqb_refl. } congruence.
    + rewrite map_app. apply elem_of_app. right. left.
Qed.
Print Assumptions C29_search_index.
Example C29_example : inserts [("a", "1"); ("b", "2"); ("a", "3")] [] = [("a", "1"); ("b", "2")].
Proof. done. Qed.
Print Assumptions C27_unopened.
Print Assumptions C27_files_listing_refuted.
Print Assumptions C27_namespaces.
Print Assumptions C28_page_zero_refuted.
