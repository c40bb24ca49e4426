(** Paths, walks and the laws of the file store. *)
From Verif Require Import Base Spec_Files Condition_proofs Facade_proofs.

(** ** Paths *)
Lemma comps_nonempty s : comps s <> [].
Proof. induction s as [|c s IH]; [done|]. cbn. destruct (Ascii.eqb c slash); [done|]. by destruct (comps s). Qed.
Lemma comps_slash a b : comps (a +:+ String slash b) = comps a ++ comps b.
Proof.
  induction a as [|c a IH]; [done|]. cbn [String.append comps]. rewrite IH. destruct (Ascii.eqb c slash); [done|].
  pose proof (comps_nonempty a). by destruct (comps a).
Qed.
Lemma comps_plain s : (forall i, String.get i s <> Some "/"%char) -> comps s = [s].
Proof.
  induction s as [|c s IH]; intros H; [done|]. cbn [comps]. destruct (Ascii.eqb c slash) eqn:E.
  - apply Ascii.eqb_eq in E. specialize (H 0). cbn in H. by subst c.
  - rewrite IH; [done|]. intros i. exact (H (S i)).
Qed.
Lemma absolute_plain s : (forall i, String.get i s <> Some "/"%char) -> absolute s = false.
Proof. destruct s as [|c s]; intros H; [done|]. cbn. destruct (Ascii.eqb c slash) eqn:E; [|done]. apply Ascii.eqb_eq in E. subst c. by specialize (H 0). Qed.
Lemma nul_plain s : (forall i, String.get i s <> Some zero) -> has_nul s = false.
Proof.
  induction s as [|c s IH]; intros H; [done|]. cbn [has_nul]. rewrite (IH (fun i => H (S i))), orb_false_r. apply Nat.eqb_neq. intros E.
  apply (H 0). cbn. f_equal. rewrite <- (ascii_nat_embedding c), E. done.
Qed.
Lemma nul_app a b : has_nul (a +:+ b) = has_nul a || has_nul b.
Proof. induction a as [|c a IH]; [done|]. cbn [String.append has_nul]. by rewrite IH, orb_assoc. Qed.
Lemma ends_slash_split s : ends_slash s = true -> exists a, s = (a +:+ String slash "")%string.
Proof.
  induction s as [|c s IH]; [done|]. cbn [ends_slash]. destruct s as [|c' s].
  - intros E. apply Ascii.eqb_eq in E. subst c. by exists "".
  - intros E. destruct (IH E) as [a ->]. by exists (String c a).
Qed.
(** The names of a path below a directory: an empty name may be dropped. *)
Lemma push_absolute p k : absolute k = false -> absolute (push_path p k) = absolute p.
Proof. intros Hk. unfold push_path. rewrite Hk. destruct p as [|c p]; [done|]. by destruct (String.eqb _ _ || _). Qed.
Lemma push_nul p k : absolute k = false -> has_nul (push_path p k) = has_nul p || has_nul k.
Proof.
  intros Hk. unfold push_path. rewrite Hk. destruct (String.eqb p "" || ends_slash p); [apply nul_app|]. by rewrite !nul_app.
Qed.
Lemma push_some p k : absolute k = false -> k <> "" -> push_path p k <> "".
Proof. intros Hk Hp. unfold push_path. rewrite Hk. destruct p as [|c p]; [done|]. by destruct (String.eqb _ _ || _). Qed.

(** ** Walks *)
Definition skip (c : string) : bool := String.eqb c "" || String.eqb c ".".
Lemma walk_app t l1 l2 : forall p, l2 <> [] -> walk t p (l1 ++ l2) =
  match walk t p l1 with AtDir q => walk t q l2 | AtFile _ _ => Wrong | Free _ => NoEntry | NoEntry => NoEntry | Wrong => Wrong end.
Proof.
  induction l1 as [|c l1 IH]; intros p H2; [done|]. cbn [app walk]. destruct (String.eqb c "" || String.eqb c "."); [by apply IH|].
  destruct (String.eqb c ".."); [by apply IH|]. destruct (Nat.ltb name_max (String.length c)); [done|].
  destruct (t !! (c :: p)) as [[v|]|]; [|by apply IH|].
  - destruct l1 as [|d l1]; [by destruct l2|]. done.
  - destruct l1 as [|d l1]; [by destruct l2|]. done.
Qed.
Lemma walk_push t st p k : absolute k = false -> k <> "" -> comps k = [k] ->
  walk t st (comps (push_path p k)) = match walk t st (comps p) with AtDir q => walk t q [k] | AtFile _ _ => Wrong | Free _ => NoEntry | NoEntry => NoEntry | Wrong => Wrong end.
Proof.
  intros Hk Hk0 Hc. unfold push_path. rewrite Hk. destruct p as [|c0 p0]; [change (walk t st (comps k) = walk t st [k]); by rewrite Hc|]. set (p := String c0 p0) in *. cbn [String.eqb orb].
  replace (String.eqb p "") with false by done. cbn [orb]. destruct (ends_slash p) eqn:E.
  - apply ends_slash_split in E as [a Ea]. rewrite Ea. rewrite append_assoc. cbn [String.append]. rewrite !comps_slash, Hc.
    rewrite walk_app by done. rewrite (walk_app t (comps a) (comps "")) by done. cbn [comps]. destruct (walk t st (comps a)); done.
  - change (("/" +:+ k)%string) with (String slash k). rewrite comps_slash, Hc. by rewrite walk_app.
Qed.
Lemma ns_plain n : comps (ns_name n) = [ns_name n] /\ absolute (ns_name n) = false /\ has_nul (ns_name n) = false /\ ns_name n <> "".
Proof. destruct n; by vm_compute. Qed.
Lemma ns_walk t p n : walk t p [ns_name n] = match t !! (ns_name n :: p) with Some None => AtDir (ns_name n :: p) | Some (Some v) => AtFile (ns_name n :: p) v | None => Free (ns_name n :: p) end.
Proof. destruct n; reflexivity. Qed.
Lemma name_walk t p k : file_name k -> walk t p [k] = match t !! (k :: p) with Some None => AtDir (k :: p) | Some (Some v) => AtFile (k :: p) v | None => Free (k :: p) end.
Proof.
  intros [H1 H2 H3 _ _ H4]. cbn [walk]. apply String.eqb_neq in H1, H2, H3. rewrite H1, H2, H3. cbn [orb].
  replace (Nat.ltb name_max (String.length k)) with false by (symmetry; apply Nat.ltb_ge; exact H4). done.
Qed.

(** ** Creating directories *)
Lemma make_dirs_keeps l : forall t p t', make_dirs t p l = Some t' -> (forall q x, t !! q = Some x -> t' !! q = Some x) /\
  (forall q, t !! q = None -> t' !! q = None \/ t' !! q = Some None).
Proof.
  induction l as [|c l IH]; intros t p t' H; cbn [make_dirs] in H; [injection H as <-; split; [done|intros; by left]|].
  destruct (String.eqb c "" || String.eqb c "."); [by eapply IH|]. destruct (String.eqb c ".."); [by eapply IH|].
  destruct (Nat.ltb name_max (String.length c)); [done|]. destruct (t !! (c :: p)) as [[v|]|] eqn:E; [done|by eapply IH|].
  apply IH in H as [H1 H2]. split.
  - intros q x Hq. apply H1. destruct (decide (q = c :: p)) as [-> |Hn]; [congruence|]. by rewrite lookup_insert_ne.
  - intros q Hq. destruct (decide (q = c :: p)) as [-> |Hn]; [right; apply H1, lookup_insert|]. apply H2. by rewrite lookup_insert_ne.
Qed.
Lemma make_dirs_walk l : forall t p t', make_dirs t p l = Some t' -> exists q, walk t' p l = AtDir q.
Proof.
  induction l as [|c l IH]; intros t p t' H; cbn [make_dirs walk] in H |- *; [by eexists|].
  destruct (String.eqb c "" || String.eqb c "."); [by eapply IH|]. destruct (String.eqb c ".."); [by eapply IH|].
  destruct (Nat.ltb name_max (String.length c)); [done|]. destruct (t !! (c :: p)) as [[v|]|] eqn:E; [done| |].
  - destruct (make_dirs_keeps _ _ _ _ H) as [H1 _]. rewrite (H1 _ _ E). by eapply IH.
  - destruct (make_dirs_keeps _ _ _ _ H) as [H1 _]. rewrite (H1 (c :: p) None) by apply lookup_insert. by eapply IH.
Qed.
Lemma make_dirs_sane l : forall t p t', is_dir t p -> sane_disk t -> make_dirs t p l = Some t' -> sane_disk t'.
Proof.
  induction l as [|c l IH]; intros t p t' Hp Hs H; cbn [make_dirs] in H; [by injection H as <-|].
  destruct (String.eqb c "" || String.eqb c "."); [by eapply IH|]. destruct (String.eqb c "..").
  { eapply IH; [|exact Hs|exact H]. destruct p as [|x p]; [by left|]. destruct Hp as [Hp|Hp]; [done|]. by apply Hs in Hp. }
  destruct (Nat.ltb name_max (String.length c)); [done|]. destruct (t !! (c :: p)) as [[v|]|] eqn:E; [done| |].
  - eapply IH; [|exact Hs|exact H]. by right.
  - eapply IH; [| |exact H].
    + right. apply lookup_insert.
    + intros c' q x Hq. destruct (decide (c' :: q = c :: p)) as [Heq|Hne].
      * injection Heq as -> ->. destruct Hp as [-> |Hp]; [by left|]. right. rewrite lookup_insert_ne; [done|]. intros F. apply (f_equal (@List.length string)) in F. cbn in F. lia.
      * rewrite lookup_insert_ne in Hq by congruence. destruct (Hs _ _ _ Hq) as [-> |Hd]; [by left|]. right.
        destruct (decide (q = c :: p)) as [-> |Hn]; [apply lookup_insert|]. by rewrite lookup_insert_ne.
Qed.

(** ** The laws *)
Section Laws.
Variable cwd : list string.
Variable d : string.
Notation at_dir t := (walk t (start cwd d) (comps d)).
Lemma name_plain k : file_name k -> comps k = [k] /\ absolute k = false /\ has_nul k = false /\ k <> "".
Proof. intros [H1 H2 H3 H4 H5 _]. split; [by apply comps_plain|]. split; [by apply absolute_plain|]. split; [by apply nul_plain|done]. Qed.
Lemma locate_ns t n : has_nul d = false -> locate cwd t (push_path d (ns_name n)) =
  match at_dir t with AtDir q => walk t q [ns_name n] | AtFile _ _ => Wrong | Free _ => NoEntry | NoEntry => NoEntry | Wrong => Wrong end.
Proof.
  intros Hd. destruct (ns_plain n) as (H1 & H2 & H3 & H4). unfold locate. rewrite push_nul, Hd, H3 by done. cbn [orb].
  replace (String.eqb _ "") with false by (symmetry; apply String.eqb_neq, push_some; done). unfold start at 1. rewrite push_absolute by done. by apply walk_push.
Qed.
Lemma locate_key t n k : has_nul d = false -> file_name k -> locate cwd t (push_path (push_path d (ns_name n)) k) =
  match locate cwd t (push_path d (ns_name n)) with AtDir q => walk t q [k] | AtFile _ _ => Wrong | Free _ => NoEntry | NoEntry => NoEntry | Wrong => Wrong end.
Proof.
  intros Hd Hk. destruct (name_plain k Hk) as (H1 & H2 & H3 & H4). destruct (ns_plain n) as (N1 & N2 & N3 & N4). unfold locate.
  rewrite !push_nul, Hd, N3, H3 by done. cbn [orb].
  replace (String.eqb (push_path (push_path d (ns_name n)) k) "") with false by (symmetry; apply String.eqb_neq, push_some; done).
  replace (String.eqb (push_path d (ns_name n)) "") with false by (symmetry; apply String.eqb_neq, push_some; done).
  unfold start. rewrite !push_absolute by done. by apply walk_push.
Qed.
(** What reading a key does. *)
Lemma get_spec t n k : has_nul d = false -> file_name k -> file_get cwd (Some d) n k t =
  match at_dir t with
  | AtDir b => match t !! (ns_name n :: b) with Some None => Ok match t !! (k :: ns_name n :: b) with Some x => x | None => None end | _ => Ok None end
  | Free _ | NoEntry => Ok None
  | _ => Panic
  end.
Proof.
  intros Hd Hk. unfold file_get, path_exists, read_path. cbv zeta. rewrite locate_key by done. rewrite locate_ns by done.
  destruct (at_dir t) as [b| | | |]; try done. rewrite ns_walk. destruct (t !! (ns_name n :: b)) as [[v|]|] eqn:E; try done.
  rewrite name_walk by done. cbn [obind]. by destruct (t !! (k :: ns_name n :: b)) as [[v|]|].
Qed.
Lemma get_nul t n k : has_nul d = true -> file_get cwd (Some d) n k t = Panic.
Proof.
  intros Hd. destruct (ns_plain n) as (N1 & N2 & N3 & N4). unfold file_get, path_exists, locate. rewrite push_nul, Hd by done. done.
Qed.
Lemma insert_nul t n k v : has_nul d = true -> file_insert cwd (Some d) n k v t = Panic.
Proof.
  intros Hd. destruct (ns_plain n) as (N1 & N2 & N3 & N4). unfold file_insert, path_exists, locate. rewrite push_nul, Hd by done. done.
Qed.
(** What writing a key does: the directory is there, perhaps newly made, and the file is set. *)
Lemma insert_spec t n k v t' : file_name k -> file_insert cwd (Some d) n k v t = Ok t' ->
  has_nul d = false /\ exists t1 b, at_dir t1 = AtDir b /\ t1 !! (ns_name n :: b) = Some None /\ t1 !! (k :: ns_name n :: b) <> Some None /\
    t' = <[k :: ns_name n :: b := Some v]> t1 /\ (t1 = t \/ make_dirs t (start cwd d) (comps (push_path d (ns_name n))) = Some t1).
Proof.
  intros Hk H. destruct (has_nul d) eqn:Hd; [by rewrite insert_nul in H|]. split; [done|]. unfold file_insert in H. cbv zeta in H.
  apply obind_ok in H as (e & He & H). apply obind_ok in H as (t1 & H1 & H). unfold write_path in H. rewrite locate_key in H by done.
  assert (X : exists q, locate cwd t1 (push_path d (ns_name n)) = AtDir q) by (destruct (locate cwd t1 (push_path d (ns_name n))); try done; by eexists).
  destruct X as [q Hq]. rewrite Hq in H. rewrite locate_ns in Hq by done. destruct (at_dir t1) as [b| | | |] eqn:Ea; try done. rewrite ns_walk in Hq.
  destruct (t1 !! (ns_name n :: b)) as [[w|]|] eqn:En; try done. injection Hq as <-. rewrite name_walk in H by done.
  exists t1, b. split; [done|]. split; [done|]. destruct e.
  - injection H1 as <-. destruct (t !! (k :: ns_name n :: b)) as [[w|]|] eqn:Ek; try done; injection H as <-; eauto.
  - unfold create_dirs in H1. destruct (ns_plain n) as (N1 & N2 & N3 & N4). rewrite push_nul, Hd, N3 in H1 by done. cbn [orb] in H1.
    unfold start in H1 at 1. rewrite push_absolute in H1 by done. fold (start cwd d) in H1. destruct (make_dirs _ _ _) as [t2|] eqn:Em; [|done]. injection H1 as <-.
    destruct (t2 !! (k :: ns_name n :: b)) as [[w|]|] eqn:Ek; try done; injection H as <-; eauto 10.
Qed.
(** A new file does not change where the directory is. *)
Lemma walk_insert_file l : forall t p q v b, t !! q <> Some None -> walk t p l = AtDir b -> walk (<[q := Some v]> t) p l = AtDir b.
Proof.
  induction l as [|c l IH]; intros t p q v b Hq H; cbn [walk] in *; [done|].
  destruct (String.eqb c "" || String.eqb c "."); [by apply IH|]. destruct (String.eqb c ".."); [by apply IH|].
  destruct (Nat.ltb name_max (String.length c)); [done|]. destruct (t !! (c :: p)) as [[w|]|] eqn:E; [by destruct l| |by destruct l].
  rewrite lookup_insert_ne by congruence. rewrite E. by apply IH.
Qed.
Lemma read_own t n k v t' : file_name k -> file_insert cwd (Some d) n k v t = Ok t' -> file_get cwd (Some d) n k t' = Ok (Some v).
Proof.
  intros Hk H. destruct (insert_spec _ _ _ _ _ Hk H) as (Hd & t1 & b & Ha & Hn & Hf & -> & _). rewrite get_spec by done.
  rewrite (walk_insert_file _ _ _ _ _ b) by done. rewrite lookup_insert_ne; [|intros F; apply (f_equal (@List.length string)) in F; cbn in F; lia].
  rewrite Hn. by rewrite lookup_insert.
Qed.
(** Directories only appear: a walk that leads to a directory still does. *)
Lemma walk_more l : forall t t' p b, (forall q x, t !! q = Some x -> t' !! q = Some x) -> walk t p l = AtDir b -> walk t' p l = AtDir b.
Proof.
  induction l as [|c l IH]; intros t t' p b Hq H; cbn [walk] in *; [done|].
  destruct (String.eqb c "" || String.eqb c "."); [by eapply IH|]. destruct (String.eqb c ".."); [by eapply IH|].
  destruct (Nat.ltb name_max (String.length c)); [done|]. destruct (t !! (c :: p)) as [[w|]|] eqn:E; [by destruct l| |by destruct l].
  rewrite (Hq _ _ E). by eapply IH.
Qed.
(** A walk that can be made passable does not meet a file or a bad name. *)
Lemma walk_makable l : forall t p t', make_dirs t p l = Some t' -> match walk t p l with AtDir _ | Free _ | NoEntry => True | _ => False end.
Proof.
  induction l as [|c l IH]; intros t p t' H; cbn [make_dirs walk] in *; [done|].
  destruct (String.eqb c "" || String.eqb c "."); [by eapply IH|]. destruct (String.eqb c ".."); [by eapply IH|].
  destruct (Nat.ltb name_max (String.length c)); [done|]. destruct (t !! (c :: p)) as [[w|]|] eqn:E; [done|by eapply IH|by destruct l].
Qed.
Lemma make_dirs_app l1 l2 : forall t p t', make_dirs t p (l1 ++ l2) = Some t' -> exists t1, make_dirs t p l1 = Some t1 /\ exists q, walk t1 p l1 = AtDir q /\ make_dirs t1 q l2 = Some t'.
Proof.
  induction l1 as [|c l1 IH]; intros t p t' H; cbn [app make_dirs walk] in *; [by exists t; split; [|exists p]|].
  destruct (String.eqb c "" || String.eqb c "."); [by apply IH|]. destruct (String.eqb c ".."); [by apply IH|].
  destruct (Nat.ltb name_max (String.length c)); [done|]. destruct (t !! (c :: p)) as [[w|]|] eqn:E; [done| |].
  - destruct (IH _ _ _ H) as (t1 & H1 & q & Hq & H2). exists t1. split; [done|]. exists q. destruct (make_dirs_keeps _ _ _ _ H1) as [K _]. by rewrite (K _ _ E).
  - destruct (IH _ _ _ H) as (t1 & H1 & q & Hq & H2). exists t1. split; [done|]. exists q. destruct (make_dirs_keeps _ _ _ _ H1) as [K _].
    by rewrite (K (c :: p) None) by apply lookup_insert.
Qed.
End Laws.

(** ** Without ".." *)
Lemma walk_suffix l : forall t p b, ".." ∉ l -> walk t p l = AtDir b -> p `suffix_of` b.
Proof.
  induction l as [|c l IH]; intros t p b Hl H; cbn [walk] in *; [by injection H as <-|]. apply not_elem_of_cons in Hl as [Hc Hl].
  destruct (String.eqb c "" || String.eqb c "."); [by eapply IH|]. destruct (String.eqb_spec c ".."); [congruence|].
  destruct (Nat.ltb name_max (String.length c)); [done|]. destruct (t !! (c :: p)) as [[w|]|] eqn:E; [by destruct l| |by destruct l].
  apply IH in H; [|done]. destruct H as [x ->]. exists (x ++ [c]). by rewrite <- app_assoc.
Qed.
Lemma walk_back l : forall t t1 p b, ".." ∉ l -> walk t1 p l = AtDir b -> (forall q, q `suffix_of` b -> q <> [] -> t !! q = Some None) -> walk t p l = AtDir b.
Proof.
  induction l as [|c l IH]; intros t t1 p b Hl H Hq; cbn [walk] in *; [done|]. apply not_elem_of_cons in Hl as [Hc Hl].
  destruct (String.eqb c "" || String.eqb c "."); [by eapply IH|]. destruct (String.eqb_spec c ".."); [congruence|].
  destruct (Nat.ltb name_max (String.length c)); [done|]. destruct (t1 !! (c :: p)) as [[w|]|] eqn:E; [by destruct l| |by destruct l].
  rewrite (Hq (c :: p)); [|by eapply walk_suffix|done]. by eapply IH.
Qed.
Lemma sane_suffix t : sane_disk t -> forall b, t !! b = Some None -> forall q, q `suffix_of` b -> q <> [] -> t !! q = Some None.
Proof.
  intros Hs. induction b as [|c b IH]; intros Hb q Hq Hn; destruct q as [|x q]; [done..|by apply suffix_cons_nil_inv in Hq|done|].
  apply suffix_cons_inv in Hq as [Hq|Hq]; [by rewrite Hq|]. destruct (Hs _ _ _ Hb) as [-> |Hb']; [by apply suffix_cons_nil_inv in Hq|]. by apply IH.
Qed.
(** The directories made are those on the way. *)
Lemma make_dirs_new l : forall t p t' b, ".." ∉ l -> make_dirs t p l = Some t' -> walk t' p l = AtDir b -> forall q, t !! q = None -> t' !! q <> None -> q `suffix_of` b.
Proof.
  induction l as [|c l IH]; intros t p t' b Hl H Hw q Hq Hq'; cbn [walk make_dirs] in *; [congruence|]. apply not_elem_of_cons in Hl as [Hc Hl].
  destruct (String.eqb c "" || String.eqb c "."); [by eapply IH|]. destruct (String.eqb_spec c ".."); [congruence|].
  destruct (Nat.ltb name_max (String.length c)); [done|]. destruct (t !! (c :: p)) as [[w|]|] eqn:E; [done| |].
  - destruct (make_dirs_keeps _ _ _ _ H) as [K _]. rewrite (K _ _ E) in Hw. by eapply IH.
  - destruct (make_dirs_keeps _ _ _ _ H) as [K _]. rewrite (K (c :: p) None) in Hw by apply lookup_insert.
    destruct (decide (q = c :: p)) as [-> |Hn]; [by eapply walk_suffix|]. eapply IH; [done|exact H|exact Hw| |done]. by rewrite lookup_insert_ne.
Qed.
Lemma make_dirs_ok l : forall t p, Forall (fun c => c <> ".." /\ String.length c <= 255) l -> (forall q x, q `suffix_of` (rev (List.filter (fun c => negb (skip c)) l) ++ p) -> t !! q = Some x -> x = None) ->
  exists t', make_dirs t p l = Some t'.
Proof.
  induction l as [|c l IH]; intros t p Hl Hq; cbn [make_dirs]; [by eexists|]. apply Forall_cons in Hl as [[Hc Hs] Hl]. cbn [List.filter] in Hq. unfold skip at 1 in Hq.
  destruct (String.eqb c "" || String.eqb c "."); cbn [negb] in Hq; [by apply IH|]. destruct (String.eqb_spec c ".."); [done|].
  replace (Nat.ltb name_max (String.length c)) with false by (symmetry; apply Nat.ltb_ge; exact Hs). cbn [rev] in Hq. rewrite <- app_assoc in Hq. cbn [app] in Hq.
  destruct (t !! (c :: p)) as [[w|]|] eqn:E; [|by apply IH|].
  - assert (Some w = None); [|done]. apply (Hq (c :: p)); [by eexists|done].
  - apply IH; [done|]. intros q x Hx Hqx. destruct (decide (q = c :: p)) as [-> |Hn]; [rewrite lookup_insert in Hqx; congruence|].
    rewrite lookup_insert_ne in Hqx by done. by eapply Hq.
Qed.
Lemma walk_names l : forall t p b, ".." ∉ l -> walk t p l = AtDir b -> b = rev (List.filter (fun c => negb (skip c)) l) ++ p.
Proof.
  induction l as [|c l IH]; intros t p b Hl H; cbn [walk List.filter] in *; [by injection H as <-|]. apply not_elem_of_cons in Hl as [Hc Hl]. unfold skip at 1.
  destruct (String.eqb c "" || String.eqb c "."); cbn [negb]; [by eapply IH|]. destruct (String.eqb_spec c ".."); [congruence|].
  destruct (Nat.ltb name_max (String.length c)); [done|]. destruct (t !! (c :: p)) as [[w|]|] eqn:E; [by destruct l| |by destruct l].
  apply IH in H; [|done]. cbn [rev]. rewrite <- app_assoc. exact H.
Qed.

Section Plain.
Variable cwd : list string.
Variable d : string.
Hypothesis plain : ".." ∉ comps d.
Notation at_dir t := (walk t (start cwd d) (comps d)).
Lemma plain_push n : ".." ∉ comps (push_path d (ns_name n)).
Proof.
  destruct (ns_plain n) as (H1 & H2 & _). unfold push_path. rewrite H2. destruct (String.eqb_spec d "") as [-> |Hd]; [cbn [orb]; destruct n; by apply (bool_decide_unpack _)|].
  cbn [orb]. destruct (ends_slash d) eqn:E.
  - apply ends_slash_split in E as [a Ea]. rewrite Ea in *. rewrite append_assoc. cbn [String.append]. rewrite comps_slash, H1. rewrite comps_slash in plain.
    rewrite elem_of_app in *. intros [F|F]; [by apply plain; left|]. destruct n; apply elem_of_list_singleton in F; discriminate.
  - change (("/" +:+ ns_name n)%string) with (String slash (ns_name n)). rewrite comps_slash, H1. rewrite elem_of_app. intros [F|F]; [done|]. destruct n; apply elem_of_list_singleton in F; discriminate.
Qed.
Lemma walk_ns t n b : walk t (start cwd d) (comps (push_path d (ns_name n))) = AtDir b -> exists b', at_dir t = AtDir b' /\ b = ns_name n :: b'.
Proof.
  destruct (ns_plain n) as (H1 & H2 & H3 & H4). rewrite walk_push by done. destruct (at_dir t) as [b'| | | |]; try done. rewrite ns_walk.
  destruct (t !! (ns_name n :: b')) as [[v|]|]; try done. intros [= <-]. eauto.
Qed.
(** What one insert changes. *)
Lemma insert_changes t n k v t' : file_name k -> file_insert cwd (Some d) n k v t = Ok t' ->
  exists b, at_dir t' = AtDir b /\ forall q, t' !! q = t !! q \/ q = k :: ns_name n :: b \/ (t !! q = None /\ t' !! q = Some None /\ q `suffix_of` ns_name n :: b).
Proof.
  intros Hk H. destruct (insert_spec _ _ _ _ _ _ _ Hk H) as (Hd & t1 & b & Ha & Hn & Hf & -> & Hm). exists b. split; [by apply walk_insert_file|]. intros q.
  destruct (decide (q = k :: ns_name n :: b)) as [-> |Hq]; [right; by left|]. rewrite lookup_insert_ne by done. destruct Hm as [-> |Hm]; [by left|].
  destruct (make_dirs_keeps _ _ _ _ Hm) as [K1 K2]. destruct (t !! q) as [x|] eqn:E; [left; by apply K1|]. destruct (K2 q E) as [F|F]; [left; congruence|].
  right; right. split; [done|]. split; [done|]. destruct (make_dirs_walk _ _ _ _ Hm) as [b1 Hb1]. destruct (walk_ns _ _ _ Hb1) as (b2 & Hb2 & ->).
  assert (b2 = b) as -> by congruence. eapply make_dirs_new; [apply plain_push|exact Hm|exact Hb1|done|congruence].
Qed.
Lemma insert_sane t n k v t' : file_name k -> is_dir t (start cwd d) -> sane_disk t -> file_insert cwd (Some d) n k v t = Ok t' -> sane_disk t'.
Proof.
  intros Hk Hc Hs H. destruct (insert_spec _ _ _ _ _ _ _ Hk H) as (Hd & t1 & b & Ha & Hn & Hf & -> & Hm).
  assert (S1 : sane_disk t1). { destruct Hm as [-> |Hm]; [done|]. by eapply make_dirs_sane. }
  intros c p x Hx. destruct (decide (c :: p = k :: ns_name n :: b)) as [E|E].
  - injection E as -> ->. right. rewrite lookup_insert_ne; [done|]. intros F. apply (f_equal (@List.length string)) in F. cbn in F. lia.
  - rewrite lookup_insert_ne in Hx by congruence. destruct (S1 _ _ _ Hx) as [-> |Hp]; [by left|]. right.
    destruct (decide (p = k :: ns_name n :: b)) as [-> |Hne]; [congruence|]. by rewrite lookup_insert_ne.
Qed.
Lemma ns_inj n n' : ns_name n = ns_name n' -> n = n'.
Proof. by destruct n, n'. Qed.
Lemma read_other t n k v t' n' k' : sane_disk t -> file_name k -> file_name k' -> (n', k') <> (n, k) -> file_insert cwd (Some d) n k v t = Ok t' ->
  file_get cwd (Some d) n' k' t' = file_get cwd (Some d) n' k' t.
Proof.
  intros Hs Hk Hk' Hne H. destruct (insert_spec _ _ _ _ _ _ _ Hk H) as (Hd & t1 & b & Ha & Hn & Hf & -> & Hm). rewrite !get_spec by done.
  rewrite (walk_insert_file _ _ _ _ _ b) by done. rewrite lookup_insert_ne; [|intros F; apply (f_equal (@List.length string)) in F; cbn in F; lia].
  rewrite lookup_insert_ne; [|intros F; apply Hne; injection F as F1 F2; apply ns_inj in F2; congruence].
  destruct Hm as [-> |Hm]; [by rewrite Ha|]. destruct (make_dirs_keeps _ _ _ _ Hm) as [K1 K2].
  assert (X : t1 !! (k' :: ns_name n' :: b) = t !! (k' :: ns_name n' :: b) \/ (t !! (k' :: ns_name n' :: b) = None /\ t1 !! (k' :: ns_name n' :: b) = Some None)).
  { destruct (t !! (k' :: ns_name n' :: b)) as [x|] eqn:E; [left; by apply K1|]. destruct (K2 _ E); auto. }
  destruct (at_dir t) as [b0|p0 v0|p0| |] eqn:E0.
  - assert (b0 = b) as -> by (apply (walk_more _ _ t1) in E0; [congruence|done]).
    destruct (t !! (ns_name n' :: b)) as [[w|]|] eqn:En.
    + by rewrite (K1 _ _ En).
    + rewrite (K1 _ _ En). destruct X as [-> |[-> ->]]; done.
    + assert (Y : t !! (k' :: ns_name n' :: b) = None). { destruct (t !! (k' :: ns_name n' :: b)) as [x|] eqn:F; [|done]. destruct (Hs _ _ _ F) as [?|?]; congruence. }
      rewrite Y in X. destruct (K2 _ En) as [-> | ->]; [done|]. destruct X as [-> |[_ ->]]; done.
  - exfalso. pose proof (walk_makable _ _ _ _ Hm) as W. destruct (ns_plain n) as (H1 & H2 & H3 & H4). rewrite walk_push in W by done. by rewrite E0 in W.
  - assert (Y : t !! (ns_name n' :: b) = None).
    { destruct (t !! (ns_name n' :: b)) as [x|] eqn:F; [|done]. exfalso. assert (D : forall q, q `suffix_of` b -> q <> [] -> t !! q = Some None).
      { destruct (Hs _ _ _ F) as [-> |Fb]; [|by apply sane_suffix]. intros q Hq Hn0. apply suffix_nil_inv in Hq. done. }
      rewrite (walk_back _ t t1 _ b) in E0; done. }
    assert (Z : t !! (k' :: ns_name n' :: b) = None). { destruct (t !! (k' :: ns_name n' :: b)) as [x|] eqn:F; [|done]. destruct (Hs _ _ _ F) as [?|?]; congruence. }
    rewrite Z in X. destruct (K2 _ Y) as [-> | ->]; [done|]. destruct X as [-> |[_ ->]]; done.
  - assert (Y : t !! (ns_name n' :: b) = None).
    { destruct (t !! (ns_name n' :: b)) as [x|] eqn:F; [|done]. exfalso. assert (D : forall q, q `suffix_of` b -> q <> [] -> t !! q = Some None).
      { destruct (Hs _ _ _ F) as [-> |Fb]; [|by apply sane_suffix]. intros q Hq Hn0. apply suffix_nil_inv in Hq. done. }
      rewrite (walk_back _ t t1 _ b) in E0; done. }
    assert (Z : t !! (k' :: ns_name n' :: b) = None). { destruct (t !! (k' :: ns_name n' :: b)) as [x|] eqn:F; [|done]. destruct (Hs _ _ _ F) as [?|?]; congruence. }
    rewrite Z in X. destruct (K2 _ Y) as [-> | ->]; [done|]. destruct X as [-> |[_ ->]]; done.
  - exfalso. pose proof (walk_makable _ _ _ _ Hm) as W. destruct (ns_plain n) as (H1 & H2 & H3 & H4). rewrite walk_push in W by done. by rewrite E0 in W.
Qed.
End Plain.

(** ** A fresh directory *)
Lemma path_comps l : Forall file_name l -> comps (path_of l) = match l with [] => [""] | _ => "" :: l end.
Proof.
  induction l as [|c l IH]; intros H; [done|]. apply Forall_cons in H as [Hc Hl]. destruct (name_plain c Hc) as (H1 & _). cbn [path_of String.append].
  change (comps (String "/" (c +:+ path_of l))) with ("" :: comps (c +:+ path_of l)). f_equal. specialize (IH Hl). destruct l as [|c' l]; [cbn [path_of]; by rewrite append_nil_r|].
  cbn [path_of String.append] in IH |- *. change (comps (String "/" (c' +:+ path_of l))) with ("" :: comps (c' +:+ path_of l)) in IH. injection IH as IH.
  change "/"%char with slash. rewrite comps_slash, H1, IH. done.
Qed.
Lemma path_nul l : Forall file_name l -> has_nul (path_of l) = false.
Proof.
  induction l as [|c l IH]; intros H; [done|]. apply Forall_cons in H as [Hc Hl]. destruct (name_plain c Hc) as (_ & _ & H3 & _). cbn [path_of String.append has_nul].
  rewrite nul_app, H3, (IH Hl). done.
Qed.
Lemma path_absolute l : l <> [] -> absolute (path_of l) = true. Proof. by destruct l. Qed.
Lemma names_skip l : Forall file_name l -> List.filter (fun c => negb (skip c)) l = l.
Proof.
  induction l as [|c l IH]; intros H; [done|]. apply Forall_cons in H as [[H1 H2 _ _ _ _] Hl]. cbn [List.filter]. unfold skip at 1.
  apply String.eqb_neq in H1, H2. rewrite H1, H2. cbn. by rewrite IH.
Qed.
Lemma push_ns_comps l n : l <> [] -> Forall file_name l -> comps (push_path (path_of l) (ns_name n)) = "" :: l ++ [ns_name n].
Proof.
  intros Hl H. destruct (ns_plain n) as (N1 & N2 & N3 & N4). pose proof (path_comps l H) as E. unfold push_path. rewrite N2. destruct (ends_slash (path_of l)) eqn:F.
  - apply ends_slash_split in F as [a Ea]. rewrite Ea in E. rewrite comps_slash in E. change (comps "") with [""] in E. exfalso. destruct l as [|c l]; [done|].
    assert (G : last ("" :: c :: l) = Some "") by (rewrite <- E, last_snoc; done). rewrite last_cons_cons in G. apply last_Some_elem_of in G. eapply Forall_forall in H; [|exact G]. by destruct H.
  - destruct l as [|c l]; [done|]. replace (String.eqb (path_of (c :: l)) "" || false) with false by done.
    change (("/" +:+ ns_name n)%string) with (String slash (ns_name n)). rewrite comps_slash, N1, E. done.
Qed.

Section Fresh.
Variable cwd : list string.
Variable l : list string.
Hypothesis Hl : l <> [].
Hypothesis Hn : Forall file_name l.
Notation d := (path_of l).
Notation B := (rev l).
Lemma d_plain : ".." ∉ comps d.
Proof.
  rewrite path_comps by done. destruct l as [|c l0]; [done|]. intros F. apply elem_of_cons in F as [F|F]; [done|]. eapply Forall_forall in Hn; [|exact F]. by destruct Hn.
Qed.
Lemma d_start : start cwd d = []. Proof. unfold start. by rewrite path_absolute. Qed.
(** A disk on which the store works. *)
Record usable (t : tree) : Prop := {
  us_sane : sane_disk t;
  us_way : forall p x, p `suffix_of` B -> t !! p = Some x -> x = None;
  us_ns : forall n x, t !! (ns_name n :: B) = Some x -> x = None;
  us_key : forall n k, t !! (k :: ns_name n :: B) <> Some None }.
Lemma fresh_usable t : sane_disk t -> fresh_dir t l -> usable t.
Proof.
  intros Hs [_ _ Hw He]. split; [done|done| |].
  - intros n x H. pose proof (He (ns_name n) []) as G. cbn [app] in G. congruence.
  - intros n k H. pose proof (He (ns_name n) [k]) as G. cbn [app] in G. congruence.
Qed.
Lemma usable_at t b : walk t (start cwd d) (comps d) = AtDir b -> b = B.
Proof.
  intros H. apply walk_names in H; [|apply d_plain]. rewrite d_start, app_nil_r, path_comps in H by done. destruct l as [|c l0]; [done|].
  cbn [List.filter] in H. replace (skip "") with true in H by done. cbn [negb] in H. by rewrite <- (names_skip (c :: l0) Hn).
Qed.
Lemma ns_good n : file_name (ns_name n).
Proof. destruct n; split; try done; try (intros i; do 20 (destruct i as [|i]; [done|]); done); cbn; lia. Qed.
Lemma usable_insert t n k v : usable t -> file_name k -> exists t', file_insert cwd (Some d) n k v t = Ok t' /\ usable t'.
Proof.
  intros [Us Uw Un Uk] Hk.
  assert (X : exists t', file_insert cwd (Some d) n k v t = Ok t').
  { unfold file_insert. cbv zeta. unfold path_exists. rewrite locate_ns by (by apply path_nul).
    assert (G : exists t1, make_dirs t [] ("" :: l ++ [ns_name n]) = Some t1).
    { apply make_dirs_ok.
      - constructor; [split; [done|cbn; lia]|]. apply Forall_app. split; [|apply Forall_singleton; split; [by destruct n|apply (fn_short _ (ns_good n))]].
        eapply Forall_impl; [exact Hn|]. intros c [? ? ? ? ? ?]. done.
      - rewrite app_nil_r. cbn [List.filter]. replace (skip "") with true by done. cbn [negb]. rewrite List.filter_app, names_skip by done.
        replace (List.filter (fun c => negb (skip c)) [ns_name n]) with [ns_name n] by (by destruct n). rewrite rev_app_distr. cbn [rev app].
        intros q x Hq Hx. destruct q as [|c q]; [apply (Uw [] x); [apply suffix_nil|done]|]. apply suffix_cons_inv in Hq as [Hq|Hq]; [rewrite Hq in Hx; by eapply Un|by eapply Uw]. }
    destruct G as [t1 G].
    assert (W1 : locate cwd t1 (push_path d (ns_name n)) = AtDir (ns_name n :: B)).
    { rewrite locate_ns by (by apply path_nul). destruct (make_dirs_walk _ _ _ _ G) as [b Hb]. rewrite <- push_ns_comps in Hb by done. rewrite <- d_start in Hb.
      destruct (walk_ns cwd d _ _ _ Hb) as (b' & Hb' & ->). rewrite Hb'. rewrite <- (usable_at _ _ Hb'). rewrite walk_push in Hb by (by destruct (ns_plain n) as (?&?&?&?)). by rewrite Hb' in Hb. }
    assert (fin : forall t2, locate cwd t2 (push_path d (ns_name n)) = AtDir (ns_name n :: B) -> t2 !! (k :: ns_name n :: B) <> Some None ->
      exists t', write_path cwd (push_path (push_path d (ns_name n)) k) v t2 = Ok t').
    { intros t2 L N. unfold write_path. rewrite locate_key by (try done; by apply path_nul). rewrite L. rewrite name_walk by done.
      destruct (t2 !! (k :: ns_name n :: B)) as [[w|]|]; [by eexists|done|by eexists]. }
    assert (made : exists t', (let! t2 := create_dirs cwd (push_path d (ns_name n)) t in write_path cwd (push_path (push_path d (ns_name n)) k) v t2) = Ok t').
    { unfold create_dirs. destruct (ns_plain n) as (N1 & N2 & N3 & N4). rewrite push_nul, path_nul, N3 by done. cbn [orb]. unfold start. rewrite push_absolute, path_absolute by done.
      rewrite push_ns_comps, G by done. cbn [obind]. apply fin; [done|]. intros F. destruct (make_dirs_keeps _ _ _ _ G) as [K1 K2].
      destruct (t !! (k :: ns_name n :: B)) as [x|] eqn:E; [rewrite (K1 _ _ E) in F; by apply (Uk n k); rewrite E|].
      assert (Y : (k :: ns_name n :: B) `suffix_of` (ns_name n :: B)).
      { destruct (make_dirs_walk _ _ _ _ G) as [b Hb]. assert (b = ns_name n :: B) as ->.
        { pose proof Hb as Hb2. rewrite <- push_ns_comps in Hb2 by done. rewrite <- d_start in Hb2. destruct (walk_ns cwd d _ _ _ Hb2) as (b' & Hb' & ->). by rewrite (usable_at _ _ Hb'). }
        eapply make_dirs_new; [|exact G|exact Hb|exact E|congruence]. rewrite <- push_ns_comps by done. apply plain_push, d_plain. }
      by apply suffix_cons_not in Y. }
    rewrite d_start. destruct (walk t [] (comps d)) as [b|p0 v0|p0| |] eqn:E0; cbn [obind]; [|exfalso|exact made|exact made|exfalso].
    - rewrite <- d_start in E0. pose proof (usable_at _ _ E0) as Eb. subst b. rewrite ns_walk. destruct (t !! (ns_name n :: B)) as [[w|]|] eqn:En; cbn [obind]; [by specialize (Un _ _ En)| |exact made].
      apply fin; [|apply Uk]. rewrite locate_ns by (by apply path_nul). rewrite E0, ns_walk, En. done.
    - pose proof (walk_makable _ _ _ _ G) as W. rewrite <- push_ns_comps in W by done. rewrite walk_push in W by (by destruct (ns_plain n) as (?&?&?&?)). by rewrite E0 in W.
    - pose proof (walk_makable _ _ _ _ G) as W. rewrite <- push_ns_comps in W by done. rewrite walk_push in W by (by destruct (ns_plain n) as (?&?&?&?)). by rewrite E0 in W. }
  destruct X as [t' X]. exists t'. split; [done|]. destruct (insert_changes cwd d d_plain _ _ _ _ _ Hk X) as (b & Hb & C). rewrite (usable_at _ _ Hb) in C. split.
  - eapply insert_sane; [exact Hk| |exact Us|exact X]. left. apply d_start.
  - intros p x Hp Hx. destruct (C p) as [E|[E|(_ & E & _)]]; [rewrite E in Hx; by eapply Uw| |congruence].
    subst p. exfalso. apply suffix_cons_l in Hp. by apply suffix_cons_not in Hp.
  - intros m x Hx. destruct (C (ns_name m :: B)) as [E|[E|(_ & E & _)]]; [rewrite E in Hx; by eapply Un| |congruence].
    exfalso. apply (f_equal (@List.length string)) in E. cbn in E. lia.
  - intros m k' Hx. destruct (C (k' :: ns_name m :: B)) as [E|[E|(_ & E & S)]].
    + rewrite E in Hx. by apply (Uk m k').
    + rewrite E in Hx. destruct (insert_spec _ _ _ _ _ _ _ Hk X) as (Hd & t1 & b1 & Ha & Hn1 & Hf & -> & _).
      assert (b1 = B) as ->. { apply (usable_at t1). exact Ha. } rewrite lookup_insert in Hx. done.
    + apply suffix_cons_inv in S as [S|S]; [apply (f_equal (@List.length string)) in S; cbn in S; lia|].
      apply suffix_length in S. cbn in S. lia.
Qed.
End Fresh.
