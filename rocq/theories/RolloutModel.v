(** Rolling update of a MachineDeployment.
    Models pkg/controller/deployment_util.go and deployment_rolling.go.
    Simplifications: int32 sums are unbounded integers (sizes are far below
    2^31); node taints and annotations set on the way are not modelled here. *)
Require Import Coq.ZArith.ZArith Coq.Lists.List Coq.Strings.String Coq.Bool.Bool.
From Verif Require Import Types Sort.
Import ListNotations.
Open Scope Z_scope.

(** intstr.GetValueFromIntOrPercent (k8s.io/apimachinery, external; called at
    pkg/controller/deployment_util.go 1090, 1168, 1172). [None] is an error.
    math.Ceil / math.Floor of value*total/100 are exact for int32 operands. *)
Definition GetValueFromIntOrPercent (v : option IntOrString) (total : Z) (roundUp : bool) : option Z :=
  match v with
  | None => None
  | Some (IOSInt z) => Some z
  | Some (IOSPercent p) =>
      Some (if roundUp then - ((- (p * total)) / 100) else (p * total) / 100)
  | Some IOSBad => None
  end.

(** pkg/controller/deployment_util.go 1167-1185 ResolveFenceposts; the third Go
    result (the error) is [None]. *)
Definition ResolveFenceposts (maxSurge maxUnavailable : option IntOrString) (desired : Z) : option (Z * Z) :=
  match GetValueFromIntOrPercent maxSurge desired true with
  | None => None
  | Some surge =>
      match GetValueFromIntOrPercent maxUnavailable desired false with
      | None => None
      | Some unavailable =>
          if (surge =? 0) && (unavailable =? 0)
          then Some (surge, 1) else Some (surge, unavailable)
      end
  end.

(** pkg/controller/deployment_util.go 620-631 MaxUnavailable; on an error the Go
    code ignores it and works with the zero value. *)
Definition MaxUnavailable (d : MachineDeployment) : Z :=
  match md_strategy d with
  | RollingUpdate s u =>
      if md_replicas d =? 0 then 0
      else
        let mu := match ResolveFenceposts s u (md_replicas d) with
                  | Some (_, x) => x | None => 0 end in
        if mu >? md_replicas d then md_replicas d else mu
  | _ => 0
  end.

(** pkg/controller/deployment_util.go 633-639 MinAvailable. *)
Definition MinAvailable (d : MachineDeployment) : Z :=
  match md_strategy d with
  | RollingUpdate _ _ => md_replicas d - MaxUnavailable d
  | _ => 0
  end.

(** pkg/controller/deployment_util.go 641-649 MaxSurge. *)
Definition MaxSurge (d : MachineDeployment) : Z :=
  match md_strategy d with
  | RollingUpdate s u =>
      match ResolveFenceposts s u (md_replicas d) with
      | Some (x, _) => x | None => 0 end
  | _ => 0
  end.

(** pkg/controller/deployment_util.go 958-967 GetReplicaCountForMachineSets. *)
Fixpoint GetReplicaCountForMachineSets (l : list MachineSet) : Z :=
  match l with [] => 0 | s :: r => ms_spec s + GetReplicaCountForMachineSets r end.

(** pkg/controller/deployment_util.go 969-978 GetActualReplicaCountForMachineSets. *)
Fixpoint GetActualReplicaCountForMachineSets (l : list MachineSet) : Z :=
  match l with [] => 0 | s :: r => ms_status s + GetActualReplicaCountForMachineSets r end.

(** pkg/controller/deployment_util.go 991-1000 GetAvailableReplicaCountForMachineSets. *)
Fixpoint GetAvailableReplicaCountForMachineSets (l : list MachineSet) : Z :=
  match l with [] => 0 | s :: r => ms_avail s + GetAvailableReplicaCountForMachineSets r end.

(** pkg/controller/deployment_util.go 1081-1111 NewISNewReplicas; [None] is the
    error result. *)
Definition NewISNewReplicas (d : MachineDeployment) (allISs : list MachineSet) (newSpec : Z) : option Z :=
  match md_strategy d with
  | RollingUpdate s _ =>
      match GetValueFromIntOrPercent s (md_replicas d) true with
      | None => None
      | Some maxSurge =>
          let current := GetActualReplicaCountForMachineSets allISs in
          let maxTotal := md_replicas d + maxSurge in
          if maxTotal <=? current then Some newSpec
          else Some (newSpec + Z.min (maxTotal - current) (md_replicas d - newSpec))
      end
  | Recreate => Some (md_replicas d)
  | _ => None
  end.

(** pkg/controller/deployment_sync.go 530-565 scaleMachineSetAndRecordEvent and
    scaleMachineSet when the size differs: writes size and annotations. *)
Definition resize (d : MachineDeployment) (s : MachineSet) (n : Z) : MachineSet :=
  set_size (md_replicas d) (md_replicas d + MaxSurge d) s n.

(** Result of a scaling step: the object as it is afterwards, whether it was
    scaled, whether an error was returned.
    The results of pkg/controller/deployment_sync.go 530-565. *)
Record StepRes := mkStep { sr_ms : MachineSet; sr_scaled : bool; sr_err : bool }.

(** pkg/controller/deployment_sync.go 530-542 scaleMachineSetAndRecordEvent.
    [ok] is the outcome of the API update. *)
Definition scaleMachineSetAndRecordEvent (ok : bool) (d : MachineDeployment) (s : MachineSet) (n : Z) : StepRes :=
  if ms_spec s =? n then mkStep s false false
  else if ok then mkStep (resize d s n) true false
  else mkStep s false true.

(** pkg/controller/deployment_rolling.go 126-142 reconcileNewMachineSet. *)
Definition reconcileNewMachineSet (ok : bool) (d : MachineDeployment) (allISs : list MachineSet) (newIS : MachineSet) : StepRes :=
  if ms_spec newIS =? md_replicas d then mkStep newIS false false
  else if ms_spec newIS >? md_replicas d then
    scaleMachineSetAndRecordEvent ok d newIS (md_replicas d)
  else
    match NewISNewReplicas d allISs (ms_spec newIS) with
    | None => mkStep newIS false true
    | Some n => scaleMachineSetAndRecordEvent ok d newIS n
    end.

(** pkg/controller/controller_utils.go 807-818 MachineSetsByCreationTimestamp:
    earlier first, equal times by name. *)
Definition byCreation (a b : MachineSet) : bool :=
  (ms_ctime a <? ms_ctime b) || ((ms_ctime a =? ms_ctime b) && String.leb (ms_name a) (ms_name b)).

(** pkg/controller/controller_utils.go 848-854 FilterActiveMachineSets. *)
Definition FilterActiveMachineSets (l : list MachineSet) : list MachineSet :=
  filter (fun s => ms_spec s >? 0) l.

(** The complement of [FilterActiveMachineSets], the sets which
    reconcileOldMachineSets (pkg/controller/deployment_rolling.go 100) is not
    given. *)
Definition inactive (l : list MachineSet) : list MachineSet :=
  filter (fun s => negb (ms_spec s >? 0)) l.

(** pkg/controller/deployment_rolling.go 213-246, the loop of
    cleanupUnhealthyReplicas. [ok s] is the outcome of the API update of [s].
    Result: the sets afterwards, the count, the error flag. *)
Fixpoint cleanupLoop (ok : MachineSet -> bool) (d : MachineDeployment) (maxCleanup total : Z) (l : list MachineSet)
  : list MachineSet * Z * bool :=
  match l with
  | [] => ([], total, false)
  | t :: rest =>
      if maxCleanup <=? total then (l, total, false)
      else if ms_spec t =? 0 then
        let '(rest', c, e) := cleanupLoop ok d maxCleanup total rest in (t :: rest', c, e)
      else if ms_spec t =? ms_avail t then
        let '(rest', c, e) := cleanupLoop ok d maxCleanup total rest in (t :: rest', c, e)
      else
        let down := Z.min (maxCleanup - total) (ms_spec t - ms_avail t) in
        let n := ms_spec t - down in
        if n >? ms_spec t then (l, 0, true)
        else
          let r := scaleMachineSetAndRecordEvent (ok t) d t n in
          if sr_err r then (l, total, true)
          else
            let '(rest', c, e) := cleanupLoop ok d maxCleanup (total + down) rest in
            (sr_ms r :: rest', c, e)
  end.

(** pkg/controller/deployment_rolling.go 213-246 cleanupUnhealthyReplicas. *)
Definition cleanupUnhealthyReplicas (ok : MachineSet -> bool) (d : MachineDeployment) (l : list MachineSet) (maxCleanup : Z)
  : list MachineSet * Z * bool :=
  cleanupLoop ok d maxCleanup 0 (isort byCreation l).

(** pkg/controller/deployment_rolling.go 250-291, the loop of
    scaleDownOldMachineSetsForRollingUpdate. *)
Fixpoint scaleDownLoop (ok : MachineSet -> bool) (d : MachineDeployment) (budget total : Z) (l : list MachineSet)
  : list MachineSet * Z * bool :=
  match l with
  | [] => ([], total, false)
  | t :: rest =>
      if budget <=? total then (l, total, false)
      else if ms_spec t =? 0 then
        let '(rest', c, e) := scaleDownLoop ok d budget total rest in (t :: rest', c, e)
      else
        let down := Z.min (ms_spec t) (budget - total) in
        let n := ms_spec t - down in
        if n >? ms_spec t then (l, 0, true)
        else
          let r := scaleMachineSetAndRecordEvent (ok t) d t n in
          if sr_err r then (l, total, true)
          else
            let '(rest', c, e) := scaleDownLoop ok d budget (total + down) rest in
            (sr_ms r :: rest', c, e)
  end.

(** pkg/controller/deployment_rolling.go 250-291
    scaleDownOldMachineSetsForRollingUpdate; [allISs] is the old sets and the
    new one. *)
Definition scaleDownOld (ok : MachineSet -> bool) (d : MachineDeployment) (olds : list MachineSet) (newIS : MachineSet)
  : list MachineSet * Z * bool :=
  let minAvailable := md_replicas d - MaxUnavailable d in
  let available := GetAvailableReplicaCountForMachineSets (olds ++ [newIS]) in
  if available <=? minAvailable then (olds, 0, false)
  else scaleDownLoop ok d (available - minAvailable) 0 (isort byCreation olds).

(** pkg/controller/deployment_rolling.go 144-210 reconcileOldMachineSets.
    [olds] are the active old sets, [allISs] all sets. [okC], [okD]: outcomes of
    the API updates of the clean-up and of the scale-down. Result: the old sets
    afterwards and whether something was scaled down. *)
Definition reconcileOldMachineSets (okC okD : MachineSet -> bool) (d : MachineDeployment)
    (allISs olds : list MachineSet) (newIS : MachineSet) : list MachineSet * bool :=
  if GetReplicaCountForMachineSets olds =? 0 then (olds, false)
  else
    let minAvailable := md_replicas d - MaxUnavailable d in
    let newUnavailable := ms_spec newIS - ms_avail newIS in
    let maxScaledDown := GetReplicaCountForMachineSets allISs - minAvailable - newUnavailable in
    if maxScaledDown <=? 0 then (olds, false)
    else
      let '(olds1, c1, e1) := cleanupUnhealthyReplicas okC d olds maxScaledDown in
      if e1 then (olds1, false)
      else
        let '(olds2, c2, e2) := scaleDownOld okD d olds1 newIS in
        if e2 then (olds2, false)
        else (olds2, c1 + c2 >? 0).

(** API outcomes of one reconcile of the rolling update.
    External; calls at pkg/controller/deployment_sync.go 545-565. *)
Record Api := mkApi {
  api_new : bool;                  (* update of the new set *)
  api_clean : MachineSet -> bool;  (* updates by the clean-up *)
  api_down : MachineSet -> bool    (* updates by the scale-down *)
}.

(** pkg/controller/deployment_rolling.go 48-124 rolloutRolling from the point
    where the new and the old sets are known: the sizes it leaves behind. *)
Definition rolloutRolling (api : Api) (d : MachineDeployment) (newIS : MachineSet) (olds : list MachineSet)
  : MachineSet * list MachineSet :=
  let allISs := olds ++ [newIS] in
  let r := reconcileNewMachineSet (api_new api) d allISs newIS in
  if sr_err r then (newIS, olds)
  else if sr_scaled r then (sr_ms r, olds)
  else
    let '(olds', _) := reconcileOldMachineSets (api_clean api) (api_down api) d allISs
                         (FilterActiveMachineSets olds) newIS in
    (newIS, inactive olds ++ olds').

(** pkg/controller/deployment_sync.go 301-327: the MachineSet created for a new
    template; its status is empty. [None] when the size cannot be computed. *)
Definition createdMS (d : MachineDeployment) (name : string) (now : Z) (olds : list MachineSet) : option MachineSet :=
  let empty := mkMS name now false 1 0 0 0 0 0 AnnMissing AnnMissing in
  match NewISNewReplicas d (olds ++ [empty]) 0 with
  | None => None
  | Some n => Some (set_size (md_replicas d) (md_replicas d + MaxSurge d) empty n)
  end.

(** pkg/controller/deployment_rolling.go 48-124 with the creation of the new set
    (deployment_sync.go 235-400) when none matches the template. [None]: the
    reconcile ended early with an error. *)
Definition rolloutRollingFull (api : Api) (d : MachineDeployment) (name : string) (now : Z)
    (existing : option MachineSet) (olds : list MachineSet) : option (MachineSet * list MachineSet) :=
  match existing with
  | Some s => Some (rolloutRolling api d s olds)
  | None =>
      match createdMS d name now olds with
      | None => None
      | Some s => Some (rolloutRolling api d s olds)
      end
  end.
