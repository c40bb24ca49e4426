(** The last word of a list of commands: whole runs. *)
From Verif Require Import Spec_Last Upd_proofs Effect_proofs Command_proofs Load_proofs Bundle_proofs Box_proofs Run_proofs Last_proofs.

Lemma snoc_split {A} (cs : list A) c before x later : cs ++ [c] = before ++ x :: later ->
  (later = [] /\ x = c /\ before = cs) \/ (exists l, later = l ++ [c] /\ cs = before ++ x :: l).
Proof.
  intros E. destruct later as [|y later'] using rev_ind.
  - left. apply app_inj_tail in E as [-> ->]. done.
  - right. exists later'. change (before ++ x :: later' ++ [y]) with (before ++ (x :: later') ++ [y]) in E. rewrite app_assoc in E.
    apply app_inj_tail in E as [-> ->]. done.
Qed.
Lemma cons_split {A} (cs : list A) c before x later : c :: cs = before ++ x :: later ->
  (before = [] /\ x = c /\ later = cs) \/ (exists l, before = c :: l /\ cs = l ++ x :: later).
Proof. destruct before as [|y b]; cbn; intros [= -> E]; [left; done|right; eauto]. Qed.

Section LR.
Variable from1 : string -> option string.
Notation says_c := (command_says from1).
Notation Bx st := (unwrap_or box_new st).

(** proof device *)
Definition ordinary (s : slot) : Prop := s <> SPlain KAttributeMapping /\ ~ first_wins s /\ ~ is_frame s.
Lemma written_ordinary c s n old d : ordinary s -> says_c c s n d -> written s old None d = d.
Proof.
  intros (H1 & H2 & H3) H. destruct H as [t ct n v s d _ _ H|t ct l key x _ _ _ _]; [|by destruct old].
  destruct H; try (by destruct old); try (destruct H2; first [by left|by right]). destruct H3. by eexists.
Qed.

Lemma one_step st c cs : plain (Bx st) -> Forall command_ok (c :: cs) -> Forall (fun r => is_ok r = true) (outcomes from1 st (c :: cs)) ->
  exists b', apply_command from1 (Some (Bx st)) c = Ok b' /\ after st (apply_command from1 st c) = Some b' /\ plain b' /\
    Forall command_ok cs /\ Forall (fun r => is_ok r = true) (outcomes from1 (Some b') cs) /\
    state_after from1 st (c :: cs) = state_after from1 (Some b') cs.
Proof.
  intros Hp Hc Ho. apply Forall_cons in Hc as [Hc Hcs]. cbn in Ho. apply Forall_cons in Ho as [Ho Hos].
  assert (E : apply_command from1 (Some (Bx st)) c = apply_command from1 st c) by by destruct st.
  destruct (apply_command from1 st c) as [b'|es|] eqn:A; [|done|done]. cbn in Hos. exists b'. split; [done|]. split; [done|].
  split; [by eapply one_command; [exact Hp|exact Hc|rewrite E]|]. split; [done|]. split; [done|].
  change (state_after from1 st (c :: cs)) with (state_after from1 (after st (apply_command from1 st c)) cs). by rewrite A.
Qed.

Lemma run_plain cs : forall st, plain (Bx st) -> Forall command_ok cs -> Forall (fun r => is_ok r = true) (outcomes from1 st cs) ->
  plain (Bx (state_after from1 st cs)).
Proof.
  induction cs as [|c cs IH]; intros st Hp Hc Ho; [done|].
  destruct (one_step st c cs Hp Hc Ho) as (b' & _ & _ & Hp' & Hc' & Ho' & ->). by apply (IH (Some b')).
Qed.

Lemma run_last cs : forall st, plain (Bx st) -> Forall command_ok cs -> Forall (fun r => is_ok r = true) (outcomes from1 st cs) ->
  forall s n, ordinary s -> forall d, box_datum (Bx (state_after from1 st cs)) s n = Some d <->
    last_word from1 cs s n d \/ (silent from1 cs s n /\ box_datum (Bx st) s n = Some d).
Proof.
  induction cs as [|c cs IH]; intros st Hp Hc Ho s n Hs d.
  - cbn. split; [intros H; right; split; [intros c X; by apply not_elem_of_nil in X|done]|].
    intros [(be & c & la & E & _)|[_ H]]; [by destruct be|done].
  - assert (Hc0 : command_ok c) by by apply Forall_cons in Hc as [? _].
    destruct (one_step st c cs Hp Hc Ho) as (b' & A & _ & Hp' & Hc' & Ho' & ->).
    rewrite (IH (Some b') Hp' Hc' Ho' s n Hs d). cbn [unwrap_or].
    destruct (one_command from1 (Bx st) c b' Hp Hc0 A) as [_ Step]. destruct (Step s n (proj1 Hs)) as (S1 & S2 & S3).
    split.
    + intros [(be & x & la & -> & Hx & Hq)|[Hq Hd]].
      { left. exists (c :: be), x, la. done. }
      destruct S3 as [W|[[d' Hd']|(Hnw & Hns & Hsame)]].
      * rewrite (S1 W) in Hd. done.
      * destruct (S2 d' Hd') as [_ E]. rewrite E, (written_ordinary c s n _ d' Hs Hd') in Hd. injection Hd as <-.
        left. by exists [], c, cs.
      * right. rewrite Hsame in Hd. split; [|done]. intros x [->|Hx]%elem_of_cons; [done|by apply Hq].
    + intros [(be & x & la & E & Hx & Hq)|[Hq Hd]].
      * apply cons_split in E as [(-> & -> & ->)|(l & -> & ->)]; [|left; by exists l, x, la].
        right. split; [done|]. destruct (S2 d Hx) as [_ E]. by rewrite E, (written_ordinary c s n _ d Hs Hx).
      * right. split; [intros x Hx; apply Hq; by right|]. destruct (Hq c ltac:(left)) as [Hnw Hns].
        destruct S3 as [W|[[d' Hd']|(_ & _ & ->)]]; [done|by destruct (Hns d')|done].
Qed.

(** A command says one thing about one attribute in one slot. *)
Lemma says_fun c s n d d2 : command_ok c -> says_c c s n d -> says_c c s n d2 -> d = d2.
Proof.
  intros Hc H1 H2. inversion H1 as [t ct n' v s' d' Hin Hh X|t ct l key x K Hla Hne Hh]; subst;
    inversion H2 as [t2 ct2 n2 v2 s2 d2' Hin2 Hh2 X2|t2 ct2 l2 key2 x2 K2 Hla2 Hne2 Hh2]; subst;
    try (exfalso; eapply loops_not_meta; [eassumption|done]).
  - destruct Hc as [Ha Hpp]. destruct Hh as (l & El & Hg). destruct Hh2 as (l2 & El2 & Hg2).
    assert (E2 : v2 = v) by congruence. subst v2.
    assert (Hv : nvalue_ok v) by (by eapply (proj2 (Ha l El))).
    destruct (says_upd from1 _ _ _ _ _ Hv Hpp X) as (u & Eu & _ & E1). destruct (says_upd from1 _ _ _ _ _ Hv Hpp X2) as (u2 & Eu2 & _ & E2). congruence.
  - destruct Hh as (p & El & Hg). destruct Hh2 as (p2 & El2 & Hg2). congruence.
Qed.

(** Scopes of frames. *)
(** proof device *)
Definition scope_at (b : obox) (f n sc : string) : option fscope :=
  match box_datum b (SFrame f) n with Some (DFraming g) => g !! sc | _ => None end.
Lemma frame_framing c f n d : says_c c (SFrame f) n d -> exists m, d = DFraming m.
Proof. intros H. inversion H as [t ct n' v s' d' _ _ X|]; subst. inversion X; subst; eauto. Qed.
Lemma box_frame b f n : box_datum b (SFrame f) n = None \/ exists g, box_datum b (SFrame f) n = Some (DFraming g).
Proof. cbn. destruct (bx_attrs b !! n) as [a|]; [|by left]. cbn. destruct (lookup_opt f (at_frames a)) as [g|]; [right; by eexists|by left]. Qed.
Lemma run_scope cs : forall st, plain (Bx st) -> Forall command_ok cs -> Forall (fun r => is_ok r = true) (outcomes from1 st cs) ->
  forall f n sc x, scope_at (Bx (state_after from1 st cs)) f n sc = Some x <->
    last_scope from1 cs f n sc x \/
    ((forall c', c' ∈ cs -> ~ wipes c' (SFrame f) n /\ forall m', says_c c' (SFrame f) n (DFraming m') -> m' !! sc = None) /\
     scope_at (Bx st) f n sc = Some x).
Proof.
  induction cs as [|c cs IH]; intros st Hp Hc Ho f n sc x.
  - cbn [state_after fold_left]. split; [intros H; right; split; [intros c X; by apply not_elem_of_nil in X|done]|].
    intros [(be & c & la & m & E & _)|[_ H]]; [by destruct be|done].
  - assert (Hc0 : command_ok c) by by apply Forall_cons in Hc as [? _].
    destruct (one_step st c cs Hp Hc Ho) as (b' & A & _ & Hp' & Hc' & Ho' & ->).
    rewrite (IH (Some b') Hp' Hc' Ho' f n sc x). cbn [unwrap_or].
    destruct (one_command from1 (Bx st) c b' Hp Hc0 A) as [_ Step]. destruct (Step (SFrame f) n ltac:(done)) as (S1 & S2 & S3).
    assert (Hsaid : forall m, says_c c (SFrame f) n (DFraming m) ->
      scope_at b' f n sc = match m !! sc with Some y => Some y | None => scope_at (Bx st) f n sc end).
    { intros m Hm. destruct (S2 _ Hm) as [_ E]. unfold scope_at at 1. rewrite E. unfold scope_at.
      destruct (box_frame (Bx st) f n) as [-> |[g ->]]; cbn [written]; [by destruct (m !! sc)|].
      etrans; [apply (lookup_union (M := gmap string))|]. unfold framing in *. destruct (m !! sc) as [?|] eqn:E1, (g !! sc) as [?|] eqn:E2; cbn; rewrite ?E1, ?E2; cbn; try done. }
    split.
    + intros [(be & y & la & m & -> & Hy & Hq)|[Hq Hd]].
      { left. exists (c :: be), y, la, m. done. }
      destruct S3 as [W|[[d' Hd']|(Hnw & Hns & Hsame)]].
      * unfold scope_at in Hd. rewrite (S1 W) in Hd. done.
      * destruct (frame_framing c f n d' Hd') as [m ->]. rewrite (Hsaid m Hd') in Hd. destruct (m !! sc) as [y|] eqn:Em.
        -- injection Hd as ->. left. by exists [], c, cs, m.
        -- right. split; [|done]. intros c' [-> |Hx]%elem_of_cons; [|by apply Hq]. split; [apply (S2 _ Hd')|].
           intros m' Hm'. assert (E := says_fun c _ _ _ _ Hc0 Hd' Hm'). injection E as <-. exact Em.
      * right. split; [|by unfold scope_at in *; rewrite Hsame in Hd].
        intros c' [-> |Hx]%elem_of_cons; [|by apply Hq]. split; [done|]. intros m' Hm'. by destruct (Hns _ Hm').
    + intros [(be & y & la & m & E & Hy & Hmx & Hq)|[Hq Hd]].
      * apply cons_split in E as [(-> & -> & ->)|(l & -> & ->)]; [|left; by exists l, y, la, m].
        right. split; [done|]. rewrite (Hsaid m Hy). by rewrite Hmx.
      * right. split; [intros c' Hx; apply Hq; by right|]. destruct (Hq c ltac:(left)) as [Hnw Hns].
        destruct S3 as [W|[[d' Hd']|(_ & _ & Hsame)]]; [done| |by unfold scope_at in *; rewrite Hsame].
        destruct (frame_framing c f n d' Hd') as [m ->]. rewrite (Hsaid m Hd'). by rewrite (Hns m Hd').
Qed.

Lemma run_framed cs : forall st, plain (Bx st) -> Forall command_ok cs -> Forall (fun r => is_ok r = true) (outcomes from1 st cs) ->
  forall f n, box_datum (Bx (state_after from1 st cs)) (SFrame f) n <> None <->
    framed from1 cs f n \/ ((forall c', c' ∈ cs -> ~ wipes c' (SFrame f) n) /\ box_datum (Bx st) (SFrame f) n <> None).
Proof.
  induction cs as [|c cs IH]; intros st Hp Hc Ho f n.
  - cbn [state_after fold_left]. split; [intros H; right; split; [intros c X; by apply not_elem_of_nil in X|done]|].
    intros [(be & c & la & m & E & _)|[_ H]]; [by destruct be|done].
  - assert (Hc0 : command_ok c) by by apply Forall_cons in Hc as [? _].
    destruct (one_step st c cs Hp Hc Ho) as (b' & A & _ & Hp' & Hc' & Ho' & ->).
    rewrite (IH (Some b') Hp' Hc' Ho' f n). cbn [unwrap_or].
    destruct (one_command from1 (Bx st) c b' Hp Hc0 A) as [_ Step]. destruct (Step (SFrame f) n ltac:(done)) as (S1 & S2 & S3).
    split.
    + intros [(be & y & la & m & -> & H)|[Hq Hd]]; [left; by exists (c :: be), y, la, m|].
      destruct S3 as [W|[[d' Hd']|(Hnw & Hns & Hsame)]].
      * by rewrite (S1 W) in Hd.
      * destruct (frame_framing c f n d' Hd') as [m ->]. left. by exists [], c, cs, m.
      * right. rewrite <- Hsame. split; [|done]. intros c' [-> |Hx]%elem_of_cons; [done|by apply Hq].
    + intros [(be & y & la & m & E & Hy & Hq)|[Hq Hd]].
      * apply cons_split in E as [(-> & -> & ->)|(l & -> & ->)]; [|left; by exists l, y, la, m].
        right. split; [done|]. destruct (S2 _ Hy) as [_ E]. by rewrite E.
      * right. split; [intros x Hx; apply Hq; by right|].
        destruct S3 as [W|[[d' Hd']|(_ & _ & ->)]]; [by destruct (Hq c ltac:(left))| |done].
        destruct (S2 _ Hd') as [_ E]. by rewrite E.
Qed.

(** Slots whose first value stays. *)
Lemma state_snoc st cs c : state_after from1 st (cs ++ [c]) = after (state_after from1 st cs) (apply_command from1 (state_after from1 st cs) c).
Proof. unfold state_after. by rewrite fold_left_app. Qed.
Lemma outcomes_snoc cs c : forall st, outcomes from1 st (cs ++ [c]) = outcomes from1 st cs ++ [apply_command from1 (state_after from1 st cs) c].
Proof. induction cs as [|x cs IH]; intros st; [done|]. cbn. f_equal. apply IH. Qed.
(** proof device *)
Definition boundary (before : list command) (s : slot) (n : string) : Prop :=
  before = [] \/ exists b r, before = b ++ [r] /\ wipes r s n.
Lemma run_first s n cs : first_wins s -> Forall command_ok cs -> Forall (fun r => is_ok r = true) (outcomes from1 None cs) ->
  (forall d, box_datum (Bx (state_after from1 None cs)) s n = Some d <-> first_word from1 cs s n d) /\
  (box_datum (Bx (state_after from1 None cs)) s n = None <->
   exists before quiet, cs = before ++ quiet /\ boundary before s n /\ silent from1 quiet s n).
Proof.
  intros Hf. induction cs as [|c cs IH] using rev_ind; intros Hc Ho.
  - cbn. assert (E : box_datum box_new s n = None) by (destruct Hf as [->| ->]; cbn; by rewrite lookup_empty). rewrite E. split.
    + intros d. split; [done|]. intros (be & qu & x & la & E' & _). destruct be; [|done]. by destruct qu.
    + split; [|done]. intros _. exists [], []. split; [done|]. split; [by left|]. intros x X. by apply not_elem_of_nil in X.
  - apply Forall_app in Hc as [Hc Hc0%Forall_inv]. rewrite outcomes_snoc in Ho. apply Forall_app in Ho as [Ho Ho0%Forall_inv].
    destruct (IH Hc Ho) as [I1 I2]. rewrite state_snoc. set (st := state_after from1 None cs) in *.
    assert (Hp : plain (Bx st)) by (apply run_plain; [apply plain_new|done|done]).
    assert (A : apply_command from1 (Some (Bx st)) c = apply_command from1 st c) by by destruct st.
    destruct (apply_command from1 st c) as [b'|es|] eqn:Eb; [|done|done]. cbn [after unwrap_or].
    assert (Hs : s <> SPlain KAttributeMapping) by by destruct Hf as [->| ->].
    destruct (one_command from1 (Bx st) c b' Hp Hc0 A) as [_ Step]. destruct (Step s n Hs) as (S1 & S2 & S3).
    assert (Sp : forall be qu, cs ++ [c] = be ++ qu -> boundary be s n -> silent from1 qu s n ->
      (exists qu', qu = qu' ++ [c] /\ cs = be ++ qu') \/ (qu = [] /\ wipes c s n)).
    { intros be qu E Hb Hq. destruct qu as [|y qu'] using rev_ind.
      - rewrite app_nil_r in E. right. split; [done|]. destruct Hb as [-> |(b & r & -> & Hr)]; [by destruct cs|].
        by apply app_inj_tail in E as [_ ->].
      - rewrite app_assoc in E. apply app_inj_tail in E as [-> ->]. left. by exists qu'. }
    assert (Fs : forall d, first_word from1 (cs ++ [c]) s n d ->
      (says_c c s n d /\ box_datum (Bx st) s n = None) \/ (first_word from1 cs s n d /\ ~ wipes c s n)).
    { intros d (be & qu & x & la & E & Hb & Hq & Hx & Hl). rewrite app_assoc in E.
      apply snoc_split in E as [(-> & -> & E)|(l & -> & E)].
      - left. split; [done|]. apply I2. by exists be, qu.
      - right. split; [|apply Hl, elem_of_app; right; left]. exists be, qu, x, l. split; [by rewrite E, <- app_assoc|].
        split; [done|]. split; [done|]. split; [done|]. intros c' Hc'. apply Hl, elem_of_app. by left. }
    assert (Fx : forall d, first_word from1 cs s n d -> ~ wipes c s n -> first_word from1 (cs ++ [c]) s n d).
    { intros d (be & qu & x & la & -> & Hb & Hq & Hx & Hl) Hnw. exists be, qu, x, (la ++ [c]).
      split; [by rewrite <- !app_assoc|]. split; [done|]. split; [done|]. split; [done|].
      intros c' [Hc'|Hc']%elem_of_app; [by apply Hl|]. apply elem_of_list_singleton in Hc' as ->. done. }
    destruct S3 as [W|[[d0 Hd0]|(Hnw & Hns & Hsame)]].
    + rewrite (S1 W). split.
      * intros d. split; [done|]. intros [[Hx _]|[_ ?]]%Fs; [|done]. by destruct (S2 d Hx) as [? _].
      * split; [|done]. intros _. exists (cs ++ [c]), []. split; [by rewrite app_nil_r|]. split; [right; by exists cs, c|].
        intros x X. by apply not_elem_of_nil in X.
    + destruct (S2 d0 Hd0) as [Hnw E]. destruct (box_datum (Bx st) s n) as [x|] eqn:Ex.
      * assert (W : forall d, written s (Some x) None d = x) by (intros d; by destruct Hf as [->| ->]).
        rewrite W in E. rewrite E. split.
        -- intros d. split.
           ++ intros [= <-]. apply Fx; [by apply I1|done].
           ++ intros [[_ ?]|[H _]]%Fs; [done|]. apply I1 in H. congruence.
        -- split; [done|]. intros (be & qu & E' & Hb & Hq). exfalso. destruct (Sp be qu E' Hb Hq) as [(qu' & -> & _)|[_ ?]]; [|done].
           destruct (Hq c) as [_ X]; [apply elem_of_app; right; left|]. by destruct (X d0).
      * assert (W : forall d, written s None None d = d).
        { intros d. destruct Hf as [->| ->]; by destruct d. }
        rewrite W in E. rewrite E. split.
        -- intros d. split.
           ++ intros [= <-]. destruct (proj1 I2 eq_refl) as (be & qu & -> & Hb & Hq). exists be, qu, c, [].
              split; [by rewrite <- app_assoc|]. split; [done|]. split; [done|]. split; [done|]. intros c' X. by apply not_elem_of_nil in X.
           ++ intros [[Hx _]|[H _]]%Fs.
              ** destruct (S2 d Hx) as [_ E']. rewrite W in E'. congruence.
              ** apply I1 in H. congruence.
        -- split; [done|]. intros (be & qu & E' & Hb & Hq). exfalso. destruct (Sp be qu E' Hb Hq) as [(qu' & -> & _)|[_ ?]]; [|done].
           destruct (Hq c) as [_ X]; [apply elem_of_app; right; left|]. by destruct (X d0).
    + rewrite Hsame. split.
      * intros d. rewrite I1. split; [by intros; apply Fx|]. intros [[Hx _]|[H _]]%Fs; [by destruct (Hns d)|done].
      * rewrite I2. split.
        -- intros (be & qu & -> & Hb & Hq). exists be, (qu ++ [c]). split; [by rewrite app_assoc|]. split; [done|].
           intros c' [Hc'|Hc']%elem_of_app; [by apply Hq|]. apply elem_of_list_singleton in Hc' as ->. done.
        -- intros (be & qu & E' & Hb & Hq). destruct (Sp be qu E' Hb Hq) as [(qu' & -> & ->)|[_ ?]]; [|done].
           exists be, qu'. split; [done|]. split; [done|]. intros c' Hc'. apply Hq, elem_of_app. by left.
Qed.
End LR.

(** Attribute types and classification. *)
Lemma declares_replay n t c : declares n t c <-> exists cc, c = Command CAdd (OCaptureBase cc) /\ imap_get n (unwrap_or [] (cc_attrs cc)) = Some t.
Proof.
  split.
  - intros (cc & l & -> & E & H). exists cc. by rewrite E.
  - intros (cc & -> & H). destruct (cc_attrs cc) as [l|] eqn:E; [|done]. by exists cc, l.
Qed.
Lemma replay_one m c n t : replay_types m c !! n = Some t <->
  declares n t c \/ (~ removes n c /\ (forall t', ~ declares n t' c) /\ m !! n = Some t).
Proof.
  unfold replay_types. destruct c as [[] [cc|bc|ty ct]]; cbn [cmd_kind cmd_obj].
  all: try (split; [intros H; right; split; [by intros (? & ? & [=] & _)|split; [by intros t' (? & ? & [=] & _)|done]]|
    intros [(? & ? & [=] & _)|(_ & _ & H)]; exact H]).
  - rewrite lookup_union, <- imap_get_map. split.
    + destruct (imap_get n (unwrap_or [] (cc_attrs cc))) as [t0|] eqn:E; intros H.
      * left. apply declares_replay. exists cc. split; [done|]. destruct (m !! n); cbn in H; congruence.
      * right. split; [by intros (? & ? & [=] & _)|]. split; [|by destruct (m !! n)].
        intros t' (cc' & [= <-] & E')%declares_replay. congruence.
    + intros [(cc' & [= <-] & ->)%declares_replay|(_ & Hn & H)]; [by destruct (m !! n)|].
      destruct (imap_get n (unwrap_or [] (cc_attrs cc))) as [t0|] eqn:E; [|by rewrite H].
      exfalso. apply (Hn t0). apply declares_replay. by exists cc.
  - split.
    + intros H%map_filter_lookup_Some. destruct H as [H1 H2]. right. split; [|split; [by intros t' (? & ? & [=] & _)|done]].
      intros (cc' & l & [= <-] & E & Hin). apply H2. cbn. by rewrite E.
    + intros [(? & ? & [=] & _)|(Hn & _ & H)]. apply map_filter_lookup_Some. split; [done|]. cbn. intros Hin. apply Hn.
      destruct (cc_attrs cc) as [l|] eqn:E; [|by apply not_elem_of_nil in Hin]. by exists cc, l.
Qed.
Lemma replay_last cs n t : forall m, fold_left replay_types cs m !! n = Some t <->
  last_type cs n t \/ ((forall c', c' ∈ cs -> ~ removes n c' /\ forall t', ~ declares n t' c') /\ m !! n = Some t).
Proof.
  induction cs as [|c cs IH]; intros m.
  - cbn. split; [intros H; right; split; [intros c X; by apply not_elem_of_nil in X|done]|].
    intros [(be & c & la & E & _)|[_ H]]; [by destruct be|done].
  - cbn [fold_left]. rewrite IH, replay_one. split.
    + intros [(be & x & la & -> & H)|[Hq [H|(H1 & H2 & H3)]]].
      * left. by exists (c :: be), x, la.
      * left. by exists [], c, cs.
      * right. split; [|done]. intros x [-> |Hx]%elem_of_cons; [done|by apply Hq].
    + intros [(be & x & la & E & H)|[Hq H]].
      * apply cons_split in E as [(-> & -> & ->)|(l & -> & ->)]; [|left; by exists l, x, la].
        right. split; [apply H|]. left. apply H.
      * right. split; [intros x Hx; apply Hq; by right|]. right. destruct (Hq c ltac:(left)). done.
Qed.
Lemma class_one x y c : replay_class x c = y <->
  classifies y c \/ (y = "" /\ unclassifies c) \/ (~ unclassifies c /\ (forall z, ~ classifies z c) /\ x = y).
Proof.
  unfold replay_class. destruct c as [[] [cc|bc|ty ct]]; cbn [cmd_kind cmd_obj].
  all: try (split; [intros H; right; right; split; [by intros (? & ? & [=] & _)|split; [by intros t' (? & [=] & _)|done]]|
    intros [(? & [=] & _)|[[_ (? & ? & [=] & _)]|(_ & _ & H)]]; exact H]).
  - assert (P : forall z, classifies z (Command CAdd (OCaptureBase cc)) <-> imap_get "classification" (unwrap_or [] (cc_props cc)) = Some (VVal z)).
    { intros z. split.
      - intros (cc' & [= <-] & l & E & H). by rewrite E.
      - intros H. exists cc. split; [done|]. destruct (cc_props cc) as [l|] eqn:E; [|done]. by exists l. }
    assert (Q : ~ unclassifies (Command CAdd (OCaptureBase cc))) by (by intros (? & ? & [=] & _)).
    split.
    + destruct (imap_get "classification" _) as [[r|s|o|vs]|] eqn:E; intros <-;
        try (right; right; split; [done|]; split; [by intros z Hz%P|done]). left. by apply P.
    + intros [H%P|[[_ H]|(_ & H & ->)]]; [by rewrite H|done|].
      destruct (imap_get "classification" _) as [[r|s|o|vs]|] eqn:E; try done. exfalso. apply (H s). by apply P.
  - assert (P : unclassifies (Command CRemove (OCaptureBase cc)) <-> imap_mem "classification" (unwrap_or [] (cc_props cc)) = true).
    { assert (M : forall (l : imap nvalue), imap_mem "classification" l = true <-> exists v, imap_get "classification" l = Some v).
      { clear. induction l as [|[k v] l IH]; cbn; [split; [done|by intros (? & ?)]|]. destruct (String.eqb "classification" k); cbn; [split; eauto|exact IH]. }
      rewrite M. split.
      - intros (cc' & v & [= <-] & l & E & H). rewrite E. by exists v.
      - intros (v & H). destruct (cc_props cc) as [l|] eqn:E; [|done]. exists cc, v. split; [done|]. by exists l. }
    assert (Q : forall z, ~ classifies z (Command CRemove (OCaptureBase cc))) by (by intros z (? & [=] & _)).
    split.
    + destruct (imap_mem _ _) eqn:E; intros <-; [right; left; split; [done|by apply P]|right; right; split; [|done]]. intros H%P. congruence.
    + intros [H|[[-> H%P]|(H & _ & ->)]]; [by destruct (Q y)|by rewrite H|]. destruct (imap_mem _ _) eqn:E; [|done]. by destruct H; apply P.
Qed.
Lemma class_last cs : forall x0,
  (forall x, last_class cs x -> fold_left replay_class cs x0 = x) /\
  ((forall x, ~ last_class cs x) ->
   fold_left replay_class cs x0 = "" \/ ((forall c', c' ∈ cs -> ~ unclassifies c' /\ forall z, ~ classifies z c') /\ fold_left replay_class cs x0 = x0)).
Proof.
  assert (K : forall l x0, (forall c', c' ∈ l -> ~ unclassifies c' /\ forall z, ~ classifies z c') -> fold_left replay_class l x0 = x0).
  { induction l as [|c l IH]; intros x0 Hq; [done|]. cbn. rewrite IH by (intros c' Hc'; apply Hq; by right).
    apply class_one. right; right. destruct (Hq c ltac:(left)). done. }
  induction cs as [|c cs IH]; intros x0.
  - split; [intros x (be & c & la & E & _); by destruct be|]. intros _. right. split; [|done]. intros c' X. by apply not_elem_of_nil in X.
  - cbn [fold_left]. destruct (IH (replay_class x0 c)) as [I1 I2]. split.
    + intros x (be & y & la & E & Hy & Hq). apply cons_split in E as [(-> & -> & ->)|(l & -> & ->)].
      * rewrite K by done. apply class_one. by left.
      * apply I1. by exists l, y, la.
    + intros Hn. destruct I2 as [I2|[Hq I2]].
      * intros x (be & y & la & -> & H). apply (Hn x). by exists (c :: be), y, la.
      * by left.
      * destruct (proj1 (class_one x0 _ c) eq_refl) as [Hc|[[Hc _]|(Hc1 & Hc2 & Hc3)]].
        -- exfalso. eapply Hn. by exists [], c, cs.
        -- left. by rewrite I2.
        -- right. split; [|by rewrite I2, <- Hc3]. intros c' [-> |Hx]%elem_of_cons; [done|by apply Hq].
Qed.
Lemma class_some cs : (exists x, last_class cs x) \/ (forall x, ~ last_class cs x).
Proof.
  induction cs as [|c cs IH].
  - right. intros x (be & c & la & E & _). by destruct be.
  - destruct IH as [[x (be & y & la & -> & H)]|Hn]; [left; exists x, (c :: be), y, la; done|].
    assert (D : (exists x, classifies x c) \/ (forall x, ~ classifies x c)).
    { destruct (proj1 (class_one "" _ c) eq_refl) as [H|[[_ (cc & v & -> & _)]|(_ & H & _)]]; [left; by eexists| |by right].
      right. by intros x (? & [=] & _). }
    assert (Q : (forall c', c' ∈ cs -> ~ unclassifies c' /\ forall z, ~ classifies z c') \/ ~ (forall c', c' ∈ cs -> ~ unclassifies c' /\ forall z, ~ classifies z c')).
    { destruct (class_last cs "x") as [_ K]. destruct (class_last cs "y") as [_ K']. destruct (K Hn) as [E|[H _]]; [|by left].
      right. intros H. assert (X : fold_left replay_class cs "x" = "x"); [|congruence].
      clear -H. revert H. generalize "x"%string as x. induction cs as [|c cs IH]; intros x H; [done|]. cbn.
      replace (replay_class x c) with x; [apply IH; intros c' Hc'; apply H; by right|].
      symmetry. apply class_one. right; right. destruct (H c ltac:(left)). done. }
    destruct D as [[x Hx]|Hc]; [|right; intros x (be & y & la & E & Hy & Hq); apply cons_split in E as [(-> & -> & ->)|(l & -> & ->)]; [by destruct (Hc x)|by apply (Hn x); exists l, y, la]].
    destruct Q as [Hq|Hq]; [left; by exists x, [], c, cs|].
    right. intros z (be & y & la & E & Hy & Hq'). apply cons_split in E as [(-> & -> & ->)|(l & -> & ->)]; [done|by apply (Hn z); exists l, y, la].
Qed.
