(** Properties C08 and C51: Recreate strategy; a size change is handled once. *)
Require Import Coq.ZArith.ZArith Coq.Lists.List Coq.Strings.String Coq.Bool.Bool.
Require Import Coq.Sorting.Permutation.
From Verif Require Import Types Sort RolloutModel RolloutSpec ScaleModel ScaleSpec RecreateModel RecreateSpec RecreateProofs.
Import ListNotations.
Open Scope Z_scope.
Open Scope string_scope.

(** C08 for one rollout step: it creates or resizes the new set only if no old
    set requests or reports a machine and no other set has one in the cache. *)
Theorem C08_rollout_step : forall complete d newIS olds mm calls c,
  Forall (fun s => 0 <= ms_spec s /\ 0 <= ms_status s) olds ->
  rolloutRecreate complete d newIS olds mm = Some calls -> In c calls ->
  (exists n, c = CreateSet n) \/ (exists s n, newIS = Some s /\ c = Resize s n) ->
  (forall s, newIS = Some s -> ~ In s olds) ->
  Forall (fun s => ms_spec s = 0 /\ ms_status s = 0) olds /\
  Forall (fun p => (exists n, newIS = Some n /\ ms_name n = fst p) \/ snd p <= 0) mm.
Proof. exact recreate_up_safe. Qed.
Print Assumptions C08_rollout_step.

Definition rc_ms (name : string) (t spec status : Z) := mkMS name t false 1 1 spec status status status (AnnInt 4) (AnnInt 4).

Example C08_rollout_case :
  rolloutRecreate false (mkMD 4 Recreate None 0) None [rc_ms "a" 1 0 0; rc_ms "b" 2 0 0] [("a", 0); ("b", 0)] = Some [CreateSet 4] /\
  rolloutRecreate false (mkMD 4 Recreate None 0) None [rc_ms "a" 1 0 0; rc_ms "b" 2 0 0] [("a", 0); ("b", 1)] = Some [].
Proof. vm_compute. split; reflexivity. Qed.

(** C08 for whole histories in which the user only switches to templates no
    existing MachineSet has: of any two sets one requests and has no machine, and
    every set but the current template's is idle as soon as the latter exists.
    Missing: switching back to an old template; refuted below. *)
Theorem C08_recreate_no_overlap_partial : forall w l, fresh_world w -> new_templates_only w l ->
  let w' := run w l in
  forall x y, In x (w_sets w') -> In y (w_sets w') -> r_name x <> r_name y ->
    (idle x \/ idle y) /\ (r_template x = w_template w' -> idle y).
Proof. exact c08_lemma. Qed.
Print Assumptions C08_recreate_no_overlap_partial.

Definition rc_world := mkWorld 1 2 None [].
Definition rc_to_b : list Event :=
  [Reconcile false "a" 1 9; MachineUp "a"; MachineUp "a"; Report "a" 1 1 2 2;
   SetTemplate 2%nat; Reconcile false "b" 2 9; MachineDown "a"; Reconcile false "b" 2 9; MachineDown "a"; Report "a" 1 1 0 0;
   Reconcile false "b" 3 9; MachineUp "b"; MachineUp "b"; Report "b" 1 1 2 2].

Example C08_case : new_templates_only rc_world rc_to_b /\ fresh_world rc_world /\
  map (fun x => (r_name x, ms_spec (r_ms x), r_machines x)) (w_sets (run rc_world rc_to_b)) = [("a", 0, 0); ("b", 2, 2)].
Proof. vm_compute. repeat split; try congruence; intuition congruence. Qed.

(** C08 fails when the user switches back: the first reconcile scales the running
    set to zero; the second takes the absence of requesting sets for a scale-out
    and gives the old template its machines while the others still run. *)
Theorem C08_recreate_no_overlap_refuted : exists w l x y,
  fresh_world w /\ let w' := run w l in
  In x (w_sets w') /\ In y (w_sets w') /\ r_name x <> r_name y /\ r_template x = w_template w' /\
  0 < r_machines x /\ 0 < r_machines y.
Proof.
  set (l := (rc_to_b ++ [SetTemplate 1%nat; Reconcile false "c" 4 9; Reconcile false "c" 4 9; MachineUp "a"])%list).
  exists rc_world, l, (nth 0 (w_sets (run rc_world l)) (mkRSet 0 (rc_ms "" 0 0 0) 0)), (nth 1 (w_sets (run rc_world l)) (mkRSet 0 (rc_ms "" 0 0 0) 0)).
  vm_compute. repeat split; try congruence; auto.
Qed.
Print Assumptions C08_recreate_no_overlap_refuted.

(** C51: once every write of a scaling reconcile succeeded, the next reconcile no
    longer takes the unchanged size for a change and the rollout can go on; the
    only exception is that several requesting sets were all scaled to zero.
    Partial: that exception is refuted for Recreate (C51_recreate_stuck_refuted). *)
Theorem C51_size_change_handled_once_partial : forall d n olds maxr plan,
  NoDup (map ms_name (all_sets (Some n) olds)) ->
  (exists s u, md_strategy d = RollingUpdate s u) \/ (List.length (active_sets (Some n) olds) <= 1)%nat \/ saturated d (Some n) ->
  scale d (Some n) olds = Some plan ->
  let f := after_plan d maxr plan in
  isScalingEvent d (Some (f n)) (map f olds) = true ->
  (2 <= List.length (active_sets (Some n) olds))%nat /\ 0 < md_replicas d /\ Forall (fun s => ms_spec s <= 0) (f n :: map f olds).
Proof. exact c51_event. Qed.
Print Assumptions C51_size_change_handled_once_partial.

Example C51_case :
  let d := mkMD 8 (RollingUpdate (Some (IOSInt 3)) (Some (IOSInt 1))) None 0 in
  let n := rc_ms "new" 2 5 5 in let o := rc_ms "old" 1 8 8 in
  isScalingEvent d (Some n) [o] = true /\
  exists plan, scale d (Some n) [o] = Some plan /\
    isScalingEvent d (Some (after_plan d 11 plan n)) (map (after_plan d 11 plan) [o]) = false.
Proof. split; [reflexivity|]. eexists. split; vm_compute; reflexivity. Qed.

(** C51 fails for Recreate with two requesting sets (a rolling update whose
    strategy is then changed): scaling does nothing, so every later reconcile is
    a scaling event again and the rollout never continues. *)
Theorem C51_recreate_stuck_refuted : exists d n olds,
  md_strategy d = Recreate /\ isScalingEvent d (Some n) olds = true /\
  (forall complete mm, reconcileRecreate complete d (Some n) olds mm = Some []) /\
  Exists (fun s => 0 < ms_spec s) olds.
Proof.
  exists (mkMD 8 Recreate None 0), (rc_ms "new" 2 5 5), [rc_ms "old" 1 8 8].
  split; [reflexivity|]. split; [reflexivity|]. split; [intros; vm_compute; reflexivity|].
  constructor. reflexivity.
Qed.
Print Assumptions C51_recreate_stuck_refuted.
