(** Independent specification of the versioned build. *)
From Verif Require Export VBuild Spec_Facade.

(** The working state when a rejected command throws everything away. *)
Definition restart (r : outcome obox) : option obox := match r with Ok b => Some b | _ => Some box_new end.
Section States.
Variable from1 : string -> option string.
Definition state_restarting (st : option obox) (cs : list command) : option obox :=
  fold_left (fun st c => restart (apply_command from1 st c)) cs st.
Fixpoint outcomes_restarting (st : option obox) (cs : list command) : list (outcome obox) :=
  match cs with
  | [] => []
  | c :: r => let x := apply_command from1 st c in x :: outcomes_restarting (restart x) r
  end.
End States.
Definition no_from (cs : list command) : Prop := forall c, c ∈ cs -> cmd_kind c <> CFrom.
(** A text with its length in front, in one byte. *)
Definition counted (s : string) : bytes := String (ascii_of_nat (String.length s)) s.
(** The SAIDs of a digest function fit in a record and do not end in ".operation". *)
Definition plain_saids (digest : json -> string) : Prop :=
  (forall j, (String.length (digest j) <= 255)%nat) /\ forall j j', digest j <> (digest j' +:+ ".operation")%string.
(** The step [s] is the last of [l] whose bundle has the SAID [k]. *)
Definition last_with (k : string) (l : list bstep) (s : bstep) : Prop :=
  exists pre post, l = pre ++ s :: post /\ b_said (bs_result s) = Some k /\ forall s', s' ∈ post -> b_said (bs_result s') <> Some k.
(** [m'] is [m] plus, for every SAID among the steps, the operation record and the bundle of the last step with it. *)
Record recorded (to_text : json -> string) (m m' : gmap string bytes) (l : list bstep) : Prop := {
  rc_op : forall k s, last_with k l s ->
    m' !! ("oca." +:+ k +:+ ".operation")%string = Some (counted (unwrap_or "" (bs_parent s)) +:+ counted (to_text (command_json (bs_cmd s))))%string;
  rc_bundle : forall k s, last_with k l s -> m' !! ("oca." +:+ k)%string = Some (to_text (bundle_json (bs_result s)));
  rc_rest : forall key, (forall s k, s ∈ l -> b_said (bs_result s) = Some k -> key <> ("oca." +:+ k +:+ ".operation")%string /\ key <> ("oca." +:+ k)%string) ->
    m' !! key = m !! key }.

(** The bundles generated in a run over [cs] into a fresh state: after each command, and at the end. *)
Definition run_bundle (digest : json -> string) (from1 : string -> option string) (os : nat -> nat -> order) (cs : list command) (B : bundle) : Prop :=
  exists i n b, state_restarting from1 None (take i cs) = Some b /\ generate_bundle digest (os n 0) b = Some B.
(** Among those the digest has no collisions. *)
Definition run_injective (digest : json -> string) (from1 : string -> option string) (os : nat -> nat -> order) (cs : list command) : Prop :=
  forall B B', run_bundle digest from1 os cs B -> run_bundle digest from1 os cs B' ->
    digest (bundle_json_d (JStr dummy_said) B) = digest (bundle_json_d (JStr dummy_said) B') -> bundle_json_d (JStr dummy_said) B = bundle_json_d (JStr dummy_said) B'.
(** FROM. *)
Definition from_command (r : ref_value) : command := Command CFrom (OBundle (BundleContent r)).
