(** Properties C01-C05: rolling update. *)
Require Import Coq.ZArith.ZArith Coq.Lists.List Coq.Strings.String Coq.Bool.Bool Coq.micromega.Lia.
From Verif Require Import Types Sort RolloutModel RolloutSpec RolloutRun RolloutProofs.
Import ListNotations.
Open Scope Z_scope.

(** C01: the resolved budget is the one the configuration means, and never zero. *)
Theorem C01_budget : forall d s u,
  md_strategy d = RollingUpdate s u -> good_budget s -> good_budget u -> 0 < md_replicas d ->
  is_budget s u (md_replicas d) (MaxSurge d) (MaxUnavailable d) /\
  0 <= MaxSurge d /\ 0 <= MaxUnavailable d <= md_replicas d /\ 0 < MaxSurge d + MaxUnavailable d.
Proof. exact budget_props. Qed.
Print Assumptions C01_budget.

(** Non-vacuity: 2 replicas, 0% surge, 1% unavailable round to (0,0) and resolve to (0,1). *)
Example C01_case : let d := mkMD 2 (RollingUpdate (Some (IOSPercent 0)) (Some (IOSPercent 1))) None 2 in
  MaxSurge d = 0 /\ MaxUnavailable d = 1.
Proof. vm_compute. split; reflexivity. Qed.

Theorem C01_budget_monotone : forall d1 d2 s1 u1 s2 u2,
  md_strategy d1 = RollingUpdate s1 u1 -> md_strategy d2 = RollingUpdate s2 u2 ->
  md_replicas d1 = md_replicas d2 -> 0 < md_replicas d1 ->
  good_budget s1 -> good_budget u1 -> good_budget s2 -> good_budget u2 ->
  (budget_le s1 s2 -> MaxSurge d1 <= MaxSurge d2) /\
  (s1 = s2 -> budget_le u1 u2 -> MaxUnavailable d1 <= MaxUnavailable d2).
Proof. exact budget_mono. Qed.
Print Assumptions C01_budget_monotone.

(** C01: the number of machines that must stay available is what the budget leaves. *)
Theorem C01_min_available : forall d s u surge unavail,
  md_strategy d = RollingUpdate s u -> good_budget s -> good_budget u -> 0 < md_replicas d ->
  is_budget s u (md_replicas d) surge unavail ->
  MinAvailable d = md_replicas d - unavail /\ 0 <= MinAvailable d <= md_replicas d.
Proof.
  intros d s u surge unavail Hd Hs Hu Hn HB. destruct (is_budget_fun _ _ _ _ _ Hd Hs Hu Hn HB) as (_ & ->).
  destruct (budget_props d s u Hd Hs Hu Hn) as (_ & _ & B & _). unfold MinAvailable. rewrite Hd. split; [reflexivity|]. split; lia.
Qed.
Print Assumptions C01_min_available.

(** C01: without a rolling update no number of machines is reserved. *)
Theorem C01_min_available_other : forall d, (forall s u, md_strategy d <> RollingUpdate s u) -> MinAvailable d = 0.
Proof. intros d H. unfold MinAvailable. destruct (md_strategy d) as [|s u|s u|s]; try reflexivity. now destruct (H s u). Qed.
Print Assumptions C01_min_available_other.

Example C01_min_available_case : MinAvailable (mkMD 7 (RollingUpdate (Some (IOSInt 1)) (Some (IOSPercent 30))) None 7) = 5.
Proof. reflexivity. Qed.

(** C01, without a rolling update: no machine beyond the wanted number, and none missing. *)
Theorem C01_no_budget : forall d, (forall s u, md_strategy d <> RollingUpdate s u) ->
  MaxSurge d = 0 /\ MaxUnavailable d = 0.
Proof.
  intros d H. unfold MaxSurge, MaxUnavailable. destruct (md_strategy d) as [|s u|s u|s] eqn:E; try (split; reflexivity). exfalso; exact (H s u eq_refl).
Qed.
Print Assumptions C01_no_budget.

Example C01_no_budget_case : let d := mkMD 2 Recreate None 2 in
  (forall s u, md_strategy d <> RollingUpdate s u) /\ MaxSurge d = 0 /\ MaxUnavailable d = 0.
Proof. split; [discriminate|split; reflexivity]. Qed.

(** C01, a budget of which one half is missing or cannot be read counts as nothing, the
    other half with it: no surge and none missing. *)
Theorem C01_unreadable_budget : forall d s u, md_strategy d = RollingUpdate s u -> 0 <= md_replicas d ->
  s = None \/ s = Some IOSBad \/ u = None \/ u = Some IOSBad -> MaxSurge d = 0 /\ MaxUnavailable d = 0.
Proof.
  intros d s u E N H. unfold MaxSurge, MaxUnavailable. rewrite E.
  assert (R : ResolveFenceposts s u (md_replicas d) = None).
  { unfold ResolveFenceposts. destruct H as [->|[->|[->| ->]]]; try reflexivity; destruct (GetValueFromIntOrPercent s (md_replicas d) true); reflexivity. }
  rewrite R. split; [reflexivity|]. destruct (md_replicas d =? 0) eqn:Z; [reflexivity|]. cbv zeta.
  destruct (0 >? md_replicas d) eqn:G; [|reflexivity]. apply Z.gtb_lt in G. lia.
Qed.
Print Assumptions C01_unreadable_budget.

Example C01_unreadable_budget_case : let d := mkMD 10 (RollingUpdate (Some (IOSInt 3)) (Some IOSBad)) None 10 in
  MaxSurge d = 0 /\ MaxUnavailable d = 0.
Proof. split; reflexivity. Qed.

Definition ex_md := mkMD 10 (RollingUpdate (Some (IOSInt 3)) (Some (IOSInt 2))) None 10.
Definition ex_ms (name : string) (t spec status avail : Z) :=
  mkMS name t false 1 1 spec status avail avail (AnnInt 10) (AnnInt 13).

(** C02, for sets whose reported count has reached the requested one. Missing for
    the full claim: see the refutation below. *)
Theorem C02_surge_limit_partial : forall api d s u surge newIS olds newIS' olds',
  md_strategy d = RollingUpdate s u -> is_surge s (md_replicas d) surge ->
  Forall (fun s => 0 <= ms_spec s /\ 0 <= ms_avail s) olds ->
  Forall (fun x => ms_spec x <= ms_status x) (newIS :: olds) ->
  rolloutRolling api d newIS olds = (newIS', olds') ->
  requested (newIS' :: olds') <= Z.max (requested (newIS :: olds)) (md_replicas d + surge).
Proof. exact rolling_surge. Qed.
Print Assumptions C02_surge_limit_partial.

Example C02_case : rolloutRolling allOk ex_md (ex_ms "new" 2 3 3 3) [ex_ms "old" 1 8 8 8]
  = (set_size 10 13 (ex_ms "new" 2 3 3 3) 5, [ex_ms "old" 1 8 8 8]).
Proof. vm_compute. reflexivity. Qed.

(** C02 for the creation of the new set alone: its size fits the surge. Missing: the
    same reconcile then grows it (see the refutation below). *)
Theorem C02_created_partial : forall d s u surge name now olds m,
  md_strategy d = RollingUpdate s u -> is_surge s (md_replicas d) surge -> 0 <= md_replicas d ->
  Forall (fun x => ms_spec x <= ms_status x) olds ->
  createdMS d name now olds = Some m ->
  0 <= ms_spec m <= md_replicas d /\
  requested (m :: olds) <= Z.max (requested olds) (md_replicas d + surge).
Proof. exact created_surge. Qed.
Print Assumptions C02_created_partial.

Example C02_created_case : option_map ms_spec (createdMS ex_md "new" 5 [ex_ms "old" 1 10 10 10]) = Some 3 /\
  option_map ms_spec (createdMS ex_md "new" 5 [ex_ms "old" 1 2 2 2]) = Some 10.
Proof. split; reflexivity. Qed.

(** C02 fails in the very reconcile that creates the new MachineSet, even though
    every report is truthful: the new set is created with the whole surge, and
    then grown by the whole surge again because its reported count is zero. *)
Theorem C02_surge_limit_refuted : exists d s u surge olds newIS' olds',
  md_strategy d = RollingUpdate s u /\ good_budget s /\ good_budget u /\ is_surge s (md_replicas d) surge /\
  Forall settled olds /\ requested olds <= md_replicas d + surge /\
  rolloutRollingFull allOk d "new" 5 None olds = Some (newIS', olds') /\
  md_replicas d + surge < requested (newIS' :: olds').
Proof.
  exists ex_md, (Some (IOSInt 3)), (Some (IOSInt 2)), 3, [ex_ms "old" 1 10 10 10].
  eexists _, _. repeat split; try (vm_compute; congruence).
  repeat constructor; vm_compute; congruence.
Qed.
Print Assumptions C02_surge_limit_refuted.

(** C03 *)
Theorem C03_new_set_bounded : forall ok d allISs newIS,
  (exists s u, md_strategy d = RollingUpdate s u) \/ md_strategy d = Recreate ->
  let n' := ms_spec (sr_ms (reconcileNewMachineSet ok d allISs newIS)) in
  (ms_spec newIS <= md_replicas d -> ms_spec newIS <= n' <= md_replicas d) /\
  (md_replicas d < ms_spec newIS -> n' = md_replicas d \/ (ok = false /\ n' = ms_spec newIS)).
Proof. exact reconcile_new_bounds. Qed.
Print Assumptions C03_new_set_bounded.

Example C03_case : ms_spec (sr_ms (reconcileNewMachineSet true ex_md [ex_ms "old" 1 4 4 4; ex_ms "new" 2 8 8 8] (ex_ms "new" 2 8 8 8))) = 9.
Proof. vm_compute. reflexivity. Qed.

(** C04, when no old set reports more available machines than it requests.
    Partial: otherwise refuted below. *)
Theorem C04_availability_floor_partial : forall api d s u surge unavail newIS olds newIS' olds',
  md_strategy d = RollingUpdate s u -> good_budget s -> good_budget u -> 0 < md_replicas d ->
  is_budget s u (md_replicas d) surge unavail ->
  Forall (fun s => 0 <= ms_avail s <= ms_spec s) olds ->
  rolloutRolling api d newIS olds = (newIS', olds') ->
  Z.min (md_replicas d - unavail) (available (newIS :: olds)) <= ms_avail newIS' + sum kept olds'.
Proof. exact c04_lemma. Qed.
Print Assumptions C04_availability_floor_partial.

(** Two old sets, one with 3 unavailable machines: 3 are cleaned up, 1 more removed, 8 stay. *)
Example C04_case :
  let '(n, o) := rolloutRolling allOk ex_md (ex_ms "new" 3 4 4 4) [ex_ms "a" 1 4 4 1; ex_ms "b" 2 5 5 5] in
  map ms_spec o = [0; 4] /\ sum kept o + ms_avail n = 8.
Proof. vm_compute. split; reflexivity. Qed.

(** C04 fails if one old set was just shrunk and its report lags (more available
    than requested) while another old set has enough unavailable machines to end
    the clean-up loop first: the check that would notice the lag is skipped. *)
Theorem C04_availability_floor_refuted : exists d s u surge unavail newIS olds newIS' olds',
  md_strategy d = RollingUpdate s u /\ good_budget s /\ good_budget u /\
  is_budget s u (md_replicas d) surge unavail /\
  Forall (fun s => 0 <= ms_avail s <= ms_status s /\ 0 <= ms_spec s <= ms_status s) (newIS :: olds) /\
  rolloutRolling allOk d newIS olds = (newIS', olds') /\
  ms_avail newIS' + sum kept olds' < Z.min (md_replicas d - unavail) (ms_avail newIS + sum kept olds).
Proof.
  exists (mkMD 6 (RollingUpdate (Some (IOSInt 4)) (Some (IOSInt 0))) None 10), (Some (IOSInt 4)), (Some (IOSInt 0)), 4, 0,
    (ex_ms "new" 3 0 0 0), [ex_ms "a" 1 5 5 0; ex_ms "b" 2 5 10 10].
  eexists _, _. split; [reflexivity|]. split; [vm_compute; congruence|]. split; [vm_compute; congruence|].
  split; [exists 0; vm_compute; repeat split|].
  split; [repeat constructor; vm_compute; congruence|].
  split; [vm_compute; reflexivity|]. vm_compute. reflexivity.
Qed.
Print Assumptions C04_availability_floor_refuted.

(** C69, when no old set reports more available machines than it requests: machines
    of the old sets are given up only down to what the available machines of the
    new set make up for.
    Partial: otherwise refuted below. *)
Theorem C69_give_up_as_new_available_partial : forall api d s u surge unavail newIS olds newIS' olds',
  md_strategy d = RollingUpdate s u -> good_budget s -> good_budget u -> 0 < md_replicas d ->
  is_budget s u (md_replicas d) surge unavail ->
  Forall (fun x => 0 <= ms_avail x <= ms_spec x) olds ->
  rolloutRolling api d newIS olds = (newIS', olds') ->
  Z.min (md_replicas d - unavail) (requested olds + ms_avail newIS) <= requested olds' + ms_avail newIS.
Proof. exact c69_lemma. Qed.
Print Assumptions C69_give_up_as_new_available_partial.

(** No old machine is available and 2 of 4 new ones are: 6 old ones stay. *)
Example C69_case :
  let '(n, o) := rolloutRolling allOk ex_md (ex_ms "new" 3 4 4 2) [ex_ms "a" 1 4 4 0; ex_ms "b" 2 5 5 0] in
  map ms_spec o = [1; 5] /\ ms_spec n = 4.
Proof. vm_compute. split; reflexivity. Qed.

(** C69 fails with a lagging report, as C04 does. *)
Theorem C69_give_up_as_new_available_refuted : exists d s u surge unavail newIS olds newIS' olds',
  md_strategy d = RollingUpdate s u /\ good_budget s /\ good_budget u /\
  is_budget s u (md_replicas d) surge unavail /\
  Forall (fun s => 0 <= ms_avail s <= ms_status s /\ 0 <= ms_spec s <= ms_status s) (newIS :: olds) /\
  rolloutRolling allOk d newIS olds = (newIS', olds') /\
  requested olds' + ms_avail newIS < Z.min (md_replicas d - unavail) (requested olds + ms_avail newIS).
Proof.
  exists (mkMD 6 (RollingUpdate (Some (IOSInt 4)) (Some (IOSInt 0))) None 10), (Some (IOSInt 4)), (Some (IOSInt 0)), 4, 0,
    (ex_ms "new" 3 0 0 0), [ex_ms "a" 1 5 5 0; ex_ms "b" 2 5 10 10].
  eexists _, _. split; [reflexivity|]. split; [vm_compute; congruence|]. split; [vm_compute; congruence|].
  split; [exists 0; vm_compute; repeat split|].
  split; [repeat constructor; vm_compute; congruence|].
  split; [vm_compute; reflexivity|]. vm_compute. reflexivity.
Qed.
Print Assumptions C69_give_up_as_new_available_refuted.

(** C05: with settling between reconciles, the rollout ends, within bounds all the way. *)
Theorem C05_rollout_finishes : forall d s u surge unavail newIS olds,
  md_strategy d = RollingUpdate s u -> good_budget s -> good_budget u -> 0 < md_replicas d ->
  is_budget s u (md_replicas d) surge unavail ->
  settled newIS -> Forall settled olds ->
  forall k, let st := rounds k d (newIS, olds) in
  requested (fst st :: snd st) <= Z.max (requested (newIS :: olds)) (md_replicas d + surge) /\
  Z.min (requested (newIS :: olds)) (md_replicas d - unavail) <= available (fst st :: snd st) /\
  (Z.abs (md_replicas d - ms_spec newIS) + requested olds < Z.of_nat k ->
     ms_spec (fst st) = md_replicas d /\ Forall (fun s => ms_spec s = 0) (snd st)).
Proof. exact c05_lemma. Qed.
Print Assumptions C05_rollout_finishes.

Example C05_case :
  let st k := rounds k ex_md (settle (ex_ms "new" 2 0 0 0), [settle (ex_ms "old" 1 10 10 10)]) in
  (ms_spec (fst (st 3%nat)), map ms_spec (snd (st 3%nat))) = (8, [5]) /\
  (ms_spec (fst (st 5%nat)), map ms_spec (snd (st 5%nat))) = (10, [0]).
Proof. vm_compute. split; reflexivity. Qed.

(** C05: what a pass reports about the old sets is what it did: it claims
    progress only when it gave machines up, and with every write accepted it
    never gives machines up silently. *)
Theorem C05_old_reported : forall okC okD d allISs olds newIS olds' b,
  nonneg_specs olds -> Forall (fun s => ms_avail s <= ms_spec s) olds ->
  reconcileOldMachineSets okC okD d allISs olds newIS = (olds', b) ->
  (b = true -> requested olds' < requested olds) /\
  ((forall s, okC s = true) -> (forall s, okD s = true) -> requested olds' < requested olds -> b = true).
Proof. exact old_reports. Qed.
Print Assumptions C05_old_reported.

Example C05_old_reported_case :
  let olds := [ex_ms "old" 1 8 8 8; ex_ms "older" 0 2 2 0] in
  let new := ex_ms "new" 2 3 3 3 in
  (let r := reconcileOldMachineSets (fun _ => true) (fun _ => true) ex_md (olds ++ [new]) olds new in
   (requested (fst r), snd r)) = (5, true) /\
  (let r := reconcileOldMachineSets (fun _ => true) (fun _ => false) ex_md (olds ++ [new]) olds new in
   (requested (fst r), snd r)) = (8, false).
Proof. vm_compute. split; reflexivity. Qed.

(** C03: what a pass reports about the new set is what it did: "scaled" exactly
    when the size changed, an error only with the set left alone and only when
    the write was refused or no size can be computed. *)
Theorem C03_new_reported : forall ok d allISs newIS,
  let r := reconcileNewMachineSet ok d allISs newIS in
  (sr_scaled r = true <-> ms_spec (sr_ms r) <> ms_spec newIS) /\
  (sr_err r = true -> sr_ms r = newIS /\ sr_scaled r = false /\
     (ok = false \/ ~ sizable d)) /\
  (ms_spec newIS < md_replicas d -> ~ sizable d -> sr_err r = true).
Proof. exact new_reports. Qed.
Print Assumptions C03_new_reported.

Example C03_new_reported_case :
  let new := ex_ms "new" 2 3 3 3 in
  let r ok := reconcileNewMachineSet ok ex_md [new; ex_ms "old" 1 5 5 5] new in
  (ms_spec (sr_ms (r true)), sr_scaled (r true), sr_err (r true)) = (8, true, false) /\
  (ms_spec (sr_ms (r false)), sr_scaled (r false), sr_err (r false)) = (3, false, true).
Proof. vm_compute. split; reflexivity. Qed.

(** C03: a set that is created for a new template starts within the requested size and without
    machines, is not being deleted, and has the sizes recorded by which a later scaling shares. *)
Theorem C03_created : forall d s u surge unavail name now olds m,
  md_strategy d = RollingUpdate s u -> good_budget s -> good_budget u -> 0 < md_replicas d ->
  is_budget s u (md_replicas d) surge unavail ->
  createdMS d name now olds = Some m ->
  ms_name m = name /\ ms_ctime m = now /\ ms_deleting m = false /\
  ms_status m = 0 /\ ms_ready m = 0 /\ ms_avail m = 0 /\ 0 <= ms_spec m <= md_replicas d /\
  ms_desired m = AnnInt (md_replicas d) /\ ms_max m = AnnInt (md_replicas d + surge).
Proof.
  intros d s u surge unavail name now olds m S GS GU P B C.
  destruct (is_budget_fun _ _ _ _ _ S GS GU P B) as (-> & _). unfold createdMS in C.
  destruct (NewISNewReplicas d _ 0) as [n|] eqn:N; [|discriminate]. injection C as <-. cbn.
  repeat (split; [reflexivity|]). split; [|split; reflexivity].
  unfold NewISNewReplicas in N. rewrite S in N. destruct (GetValueFromIntOrPercent s (md_replicas d) true); [|discriminate].
  cbv zeta in N. destruct (_ <=? _) eqn:E in N; injection N as <-; lia.
Qed.
Print Assumptions C03_created.

Example C03_created_case : createdMS ex_md "new" 5 [ex_ms "old" 1 10 10 10] = Some (mkMS "new" 5 false 1 0 3 0 0 0 (AnnInt 10) (AnnInt 13)).
Proof. vm_compute. reflexivity. Qed.
