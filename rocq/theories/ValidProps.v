(* C46: every accepted MachineDeployment can be rolled out. *)
Require Import Coq.ZArith.ZArith Coq.Lists.List Coq.Strings.String Coq.Bool.Bool Coq.micromega.Lia.
From Verif Require Import Types RolloutModel RolloutSpec RolloutProofs RolloutProps RolloutRun RecreateModel ScaleModel MetaModel MetaSpec TmplModel TmplSpec ValidModel ValidSpec ValidProofs.
Import ListNotations.
Open Scope string_scope.
Open Scope list_scope.
Open Scope Z_scope.

(* C46: what is accepted, exactly. *)
Theorem C46_accepted_exactly : forall v, validateMachineDeployment v = Some [] <->
  exists sel, v_selector v = Some sel /\ 0 <= v_replicas v /\ GoodStrategy (v_strategy v) (v_replicas v) /\
    (forall k x, In (k, x) sel -> read k (v_labels v) = x) /\ v_kind v <> "" /\ v_class v <> "".
Proof. exact accepted_spec. Qed.
Print Assumptions C46_accepted_exactly.

(* C46: the controller panics exactly on a nil selector. *)
Theorem C46_panics_exactly : forall v, validateMachineDeployment v = None <-> v_selector v = None.
Proof. intro v. unfold validateMachineDeployment. destruct (v_selector v); split; congruence. Qed.
Print Assumptions C46_panics_exactly.

(* C46: what is rolled out, exactly, and what is turned down: nothing that validation rejects
   is ever rolled out. *)
Theorem C46_rolled_exactly : forall v s, reconcileRollout v = VRollout s <->
  (exists sel, v_selector v = Some sel /\ 0 <= v_replicas v /\ GoodStrategy (v_strategy v) (v_replicas v) /\
    (forall k x, In (k, x) sel -> read k (v_labels v) = x) /\ v_kind v <> "" /\ v_class v <> "") /\
  ((vs_type (v_strategy v) = "Recreate" /\ s = Recreate) \/
   (vs_type (v_strategy v) = "RollingUpdate" /\ exists a b, vs_rolling (v_strategy v) = Some (a, b) /\ s = RollingUpdate a b)).
Proof.
  intros v s. rewrite <- accepted_spec. unfold reconcileRollout. destruct (validateMachineDeployment v) as [[|e l]|] eqn:V.
  - assert (G := proj1 (accepted_spec v) V). destruct G as [sel [_ [_ [G _]]]]. unfold chooseRollout.
    destruct G as [T|[[T [a [b [R _]]]]|[T _]]]; rewrite T; cbn.
    + split; [intro E; injection E as <-; split; [reflexivity|left; now split]|].
      intros [_ [[_ ->]|[X _]]]; [reflexivity|discriminate X].
    + rewrite R. split.
      * intro E. injection E as <-. split; [reflexivity|]. right. split; [reflexivity|]. now exists a, b.
      * intros [_ [[X _]|[_ [a' [b' [X ->]]]]]]; [discriminate X|]. now injection X as <- <-.
    + split; [discriminate|]. intros [_ [[X _]|[X _]]]; discriminate X.
  - split; [discriminate|]. intros [X _]. discriminate X.
  - split; [discriminate|]. intros [X _]. discriminate X.
Qed.
Print Assumptions C46_rolled_exactly.
Example C46_rolled_exactly_case :
  reconcileRollout (mkV 3 (mkVS "RollingUpdate" (Some (Some (IOSInt 1), Some (IOSInt 0))) None) (Some [("pool", "a")]) [("pool", "a")] "MachineClass" "c") =
    VRollout (RollingUpdate (Some (IOSInt 1)) (Some (IOSInt 0))) /\
  reconcileRollout (mkV 3 (mkVS "RollingUpdate" (Some (Some (IOSInt 1), Some (IOSInt 0))) None) (Some [("pool", "a")]) [("pool", "b")] "MachineClass" "c") = VRejected.
Proof. split; reflexivity. Qed.

(* C46: the MachineSet made for an accepted MachineDeployment is accepted too, and so are the
   machines made for it. *)
Theorem C46_set_accepted : forall v d hash n uid now sel, validateMachineDeployment v = Some [] ->
  v_selector v = Some sel -> isMap sel -> d_selector d = sel -> t_labels (d_template d) = v_labels v ->
  t_kind (d_template d) = v_kind v -> t_class (d_template d) = v_class v -> 0 <= n ->
  let s := newSet hash d n uid now in
  validateMachineSet (s_replicas s) (Some (s_selector s)) (t_labels (s_template s)) (t_kind (s_template s)) (t_class (s_template s)) = Some [] /\
  validateMachine (t_kind (s_template s)) (t_class (s_template s)) = [].
Proof.
  intros v d hash n uid now sel A E M D L K C N s. apply accepted_spec in A. destruct A as [sel' [E' [_ [_ [S [NK NC]]]]]].
  rewrite E in E'. injection E' as <-. rewrite <- L in S. rewrite <- K in NK. rewrite <- C in NC. split.
  - now apply newSet_accepted with sel.
  - apply class_spec. unfold s, newSet. cbn. split; assumption.
Qed.
Print Assumptions C46_set_accepted.

(* C46: an accepted rolling update finishes. Partial: for a budget that is not negative, some
   replicas, and sets that settle between the reconciles. *)
Theorem C46_rolling_partial : forall v a b, validateMachineDeployment v = Some [] -> vs_type (v_strategy v) = "RollingUpdate" ->
  vs_rolling (v_strategy v) = Some (a, b) -> good_budget a -> good_budget b -> 0 < v_replicas v ->
  reconcileRollout v = VRollout (RollingUpdate a b) /\
  forall newIS olds h st, settled newIS -> Forall settled olds -> exists k, forall j, (k <= j)%nat ->
    let r := rounds j (mkMD (v_replicas v) (RollingUpdate a b) h st) (newIS, olds) in
    ms_spec (fst r) = v_replicas v /\ Forall (fun s => ms_spec s = 0) (snd r).
Proof.
  intros v a b A T R GA GB N. split.
  - unfold reconcileRollout, chooseRollout. rewrite A, T, R. reflexivity.
  - intros newIS olds h st SN SO. remember (mkMD (v_replicas v) (RollingUpdate a b) h st) as d.
    assert (B : is_budget a b (md_replicas d) (MaxSurge d) (MaxUnavailable d)).
    { apply (C01_budget d a b); subst d; try reflexivity; assumption. }
    exists (Datatypes.S (Z.to_nat (Z.abs (md_replicas d - ms_spec newIS) + requested olds))). intros j J.
    destruct (C05_rollout_finishes d a b _ _ newIS olds ltac:(subst d; reflexivity) GA GB ltac:(subst d; exact N) B SN SO j) as [_ [_ F]].
    cbv zeta. replace (v_replicas v) with (md_replicas d) by (subst d; reflexivity). apply F. lia.
Qed.
Print Assumptions C46_rolling_partial.

(* C46: an accepted Recreate update finishes, in two rounds. Partial: for sets that settle
   between the reconciles, and no change of the size meanwhile (C51). *)
Theorem C46_recreate_partial : forall v, validateMachineDeployment v = Some [] -> vs_type (v_strategy v) = "Recreate" ->
  reconcileRollout v = VRollout Recreate /\
  forall newIS olds h st j, Forall settled olds -> (forall s, In s olds -> ms_name s <> ms_name newIS) -> (2 <= j)%nat ->
    let r := rrounds j (mkMD (v_replicas v) Recreate h st) (newIS, olds) in
    ms_spec (fst r) = v_replicas v /\ Forall (fun s => ms_spec s = 0) (snd r).
Proof.
  intros v A T. split.
  - unfold reconcileRollout, chooseRollout. rewrite A, T. reflexivity.
  - intros newIS olds h st j S D J. apply (rrounds_done (mkMD (v_replicas v) Recreate h st)); assumption.
Qed.
Print Assumptions C46_recreate_partial.

Definition vspec (n : Z) (ty : string) (r : option (option IntOrString * option IntOrString)) (i : option (option IntOrString * option IntOrString * string)) : VSpec :=
  mkV n (mkVS ty r i) (Some [("pool", "a")]) [("pool", "a"); ("os", "x")] "MachineClass" "c".
Example C46_case :
  validateMachineDeployment (vspec 3 "RollingUpdate" (Some (Some (IOSPercent 30), Some (IOSInt 0))) None) = Some [] /\
  validateMachineDeployment (vspec (-1) "Rolling" None None) = Some [EReplicas; EType] /\
  validateMachineDeployment (vspec 3 "RollingUpdate" (Some (None, Some IOSBad)) None) = Some [EUnavailable; ESurge] /\
  validateMachineDeployment (vspec 3 "InPlaceUpdate" None (Some (Some (IOSInt 1), Some (IOSInt 3000000000), "auto"))) = Some [EUnavailable; EOrch] /\
  validateMachineDeployment (vspec 3 "Recreate" None None) = Some [] /\
  ms_spec (fst (rrounds 2 (mkMD 3 Recreate None 0) (ex_ms "new" 2 0 0 0, [ex_ms "old" 1 3 3 3]))) = 3.
Proof. repeat split. Qed.

(* What C46 claims in full: no accepted MachineDeployment is left without a rollout. *)
Definition AcceptedRolls : Prop := forall v, validateMachineDeployment v = Some [] -> exists s, reconcileRollout v = VRollout s.

(* Finding: in-place updates are accepted and then always refused as unexpected. *)
Theorem C46_in_place_refuted : ~ AcceptedRolls.
Proof.
  intro H. destruct (H (vspec 3 "InPlaceUpdate" None (Some (Some (IOSInt 1), Some (IOSInt 1), "Auto"))) eq_refl) as [s E]. discriminate.
Qed.
Print Assumptions C46_in_place_refuted.
Theorem C46_in_place_always : forall v, validateMachineDeployment v = Some [] -> vs_type (v_strategy v) = "InPlaceUpdate" ->
  reconcileRollout v = VUnexpected.
Proof. intros v A T. unfold reconcileRollout, chooseRollout. rewrite A, T. reflexivity. Qed.
Print Assumptions C46_in_place_always.

(* Finding: a negative surge is accepted, and the rollout never starts. *)
Theorem C46_negative_surge_refuted : exists v newIS olds, validateMachineDeployment v = Some [] /\
  reconcileRollout v = VRollout (RollingUpdate (Some (IOSInt (-1))) (Some (IOSInt 0))) /\ settled newIS /\ Forall settled olds /\
  forall j, ms_spec (fst (rounds j (mkMD (v_replicas v) (RollingUpdate (Some (IOSInt (-1))) (Some (IOSInt 0))) None 3) (newIS, olds))) = 0.
Proof.
  exists (vspec 3 "RollingUpdate" (Some (Some (IOSInt (-1)), Some (IOSInt 0))) None), (ex_ms "new" 2 0 0 0), [ex_ms "old" 1 3 3 3].
  split; [reflexivity|]. split; [reflexivity|]. split; [repeat split; discriminate|]. split; [repeat constructor; discriminate|].
  intro j. assert (E : rounds j (mkMD 3 (RollingUpdate (Some (IOSInt (-1))) (Some (IOSInt 0))) None 3) (ex_ms "new" 2 0 0 0, [ex_ms "old" 1 3 3 3]) =
    (ex_ms "new" 2 0 0 0, [ex_ms "old" 1 3 3 3])).
  { induction j as [|j IH]; [reflexivity|]. cbn [rounds]. rewrite IH. vm_compute. reflexivity. }
  cbn [v_replicas vspec]. rewrite E. reflexivity.
Qed.
Print Assumptions C46_negative_surge_refuted.

(* Finding: so is a negative unavailability. *)
Theorem C46_negative_unavailable_refuted : exists v newIS olds, validateMachineDeployment v = Some [] /\ settled newIS /\ Forall settled olds /\
  forall j, ms_spec (fst (rounds j (mkMD (v_replicas v) (RollingUpdate (Some (IOSInt 0)) (Some (IOSInt (-1)))) None 3) (newIS, olds))) = 0.
Proof.
  exists (vspec 3 "RollingUpdate" (Some (Some (IOSInt 0), Some (IOSInt (-1)))) None), (ex_ms "new" 2 0 0 0), [ex_ms "old" 1 3 3 3].
  split; [reflexivity|]. split; [repeat split; discriminate|]. split; [repeat constructor; discriminate|].
  intro j. assert (E : rounds j (mkMD 3 (RollingUpdate (Some (IOSInt 0)) (Some (IOSInt (-1)))) None 3) (ex_ms "new" 2 0 0 0, [ex_ms "old" 1 3 3 3]) =
    (ex_ms "new" 2 0 0 0, [ex_ms "old" 1 3 3 3])).
  { induction j as [|j IH]; [reflexivity|]. cbn [rounds]. rewrite IH. vm_compute. reflexivity. }
  cbn [v_replicas vspec]. rewrite E. reflexivity.
Qed.
Print Assumptions C46_negative_unavailable_refuted.

(* Finding: a selector on an empty value is accepted for a template without that label, which
   it does not select. *)
Theorem C46_selector_refuted : ~ (forall v sel, validateMachineDeployment v = Some [] -> v_selector v = Some sel -> Matches sel (v_labels v)).
Proof.
  intro H. specialize (H (mkV 3 (mkVS "Recreate" None None) (Some [("spot", "")]) [("pool", "a")] "MachineClass" "c") [("spot", "")] eq_refl eq_refl "spot" "" (or_introl eq_refl)).
  discriminate.
Qed.
Print Assumptions C46_selector_refuted.
