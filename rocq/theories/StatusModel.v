(** Status of MachineDeployments and MachineSets: conditions, progress, counts.
    Models pkg/controller/deployment_util.go 152-231, 958-1079, 1188-1222,
    deployment_progress.go, deployment_sync.go 78-106 and 607-665,
    deployment_machineset_util.go 92-223.
    Simplification: int32 sums are unbounded integers. Times are nanoseconds. *)
Require Import Coq.ZArith.ZArith Coq.Lists.List Coq.Strings.String Coq.Bool.Bool.
From Verif Require Import Types RolloutModel.
Import ListNotations.
Open Scope string_scope.
Open Scope list_scope.
Open Scope Z_scope.

(** pkg/apis/machine/v1alpha1/machinedeployment_types.go 265-283; also
    MachineSetCondition, which has no update time. *)
Record Cond := mkCond {
  c_type : string; c_status : string; c_update : Z; c_trans : Z; c_reason : string; c_msg : string }.

(** metav1.Time is stored with the precision of a second (external:
    k8s.io/apimachinery/pkg/apis/meta/v1/time.go). *)
Definition second := 1000000000.
(** Effect of writing at pkg/controller/deployment_sync.go 607-618 (external). *)
Definition stored (t : Z) : Z := t / second * second.

(** pkg/controller/deployment_util.go 153-162 NewMachineDeploymentCondition, with
    the times as the API server stores them. *)
Definition NewMachineDeploymentCondition (now : Z) (ty st reason msg : string) : Cond :=
  mkCond ty st (stored now) (stored now) reason msg.

(** pkg/controller/deployment_util.go 165-173 GetMachineDeploymentCondition. *)
Definition GetMachineDeploymentCondition (l : list Cond) (ty : string) : option Cond :=
  find (fun c => String.eqb (c_type c) ty) l.

(** pkg/controller/deployment_util.go 209-218 filterOutDeploymentCondition. *)
Definition filterOutDeploymentCondition (l : list Cond) (ty : string) : list Cond :=
  filter (fun c => negb (String.eqb (c_type c) ty)) l.

(** pkg/controller/deployment_util.go 190-201 SetMachineDeploymentCondition. *)
Definition SetMachineDeploymentCondition (l : list Cond) (c : Cond) : list Cond :=
  match GetMachineDeploymentCondition l (c_type c) with
  | Some cur =>
      if String.eqb (c_status cur) (c_status c) && String.eqb (c_reason cur) (c_reason c) then l
      else
        let tr := if String.eqb (c_status cur) (c_status c) then c_trans cur else c_trans c in
        filterOutDeploymentCondition l (c_type c)
          ++ [mkCond (c_type c) (c_status c) (c_update c) tr (c_reason c) (c_msg c)]
  | None => filterOutDeploymentCondition l (c_type c) ++ [c]
  end.

(** pkg/controller/deployment_util.go 204-206 RemoveMachineDeploymentCondition. *)
Definition RemoveMachineDeploymentCondition (l : list Cond) (ty : string) : list Cond :=
  filterOutDeploymentCondition l ty.

(** pkg/controller/deployment_machineset_util.go 173-180 GetCondition. *)
Definition GetCondition (l : list Cond) (ty : string) : option Cond :=
  find (fun c => String.eqb (c_type c) ty) l.

(** pkg/controller/deployment_machineset_util.go 199-208. *)
Definition filterOutMachineSetCondition (l : list Cond) (ty : string) : list Cond :=
  filter (fun c => negb (String.eqb (c_type c) ty)) l.

(** pkg/controller/deployment_machineset_util.go 184-191 SetCondition. *)
Definition SetCondition (l : list Cond) (c : Cond) : list Cond :=
  match GetCondition l (c_type c) with
  | Some cur =>
      if String.eqb (c_status cur) (c_status c) && String.eqb (c_reason cur) (c_reason c) then l
      else filterOutMachineSetCondition l (c_type c) ++ [c]
  | None => filterOutMachineSetCondition l (c_type c) ++ [c]
  end.

(** pkg/controller/deployment_machineset_util.go 194-196 RemoveCondition. *)
Definition RemoveCondition (l : list Cond) (ty : string) : list Cond :=
  filterOutMachineSetCondition l ty.

(** pkg/apis/machine/v1alpha1/machineset_types.go MachineSummary: name, provider
    id, owner, and description and state of the last operation. *)
Record Summary := mkSum { su_name : string; su_pid : string; su_desc : string; su_state : string; su_owner : string }.

(** Machine as far as MachineSet status goes
    (pkg/apis/machine/v1alpha1/machine_types.go); [sm_owner]: controller owner. *)
Record SMachine := mkSM {
  sm_name : string; sm_labels : list (string * string); sm_phase : string;
  sm_pid : string; sm_desc : string; sm_state : string; sm_owner : option string }.

(** Lookup in a Go map given as an association list.
    As at pkg/controller/deployment_machineset_util.go 92-159. *)
Fixpoint lookup (k : string) (m : list (string * string)) : option string :=
  match m with [] => None | (a, v) :: r => if String.eqb a k then Some v else lookup k r end.

(** labels.Set(x).AsSelectorPreValidated().Matches(y) (k8s.io/apimachinery,
    external), used at pkg/controller/deployment_machineset_util.go 106-108. *)
Definition selectorMatches (sel labels : list (string * string)) : bool :=
  forallb (fun '(k, v) => match lookup k labels with Some x => String.eqb x v | None => false end) sel.

(** pkg/controller/deployment_machineset_util.go 210-218 isMachineAvailable. *)
Definition isMachineAvailable (m : SMachine) : bool :=
  String.eqb (sm_phase m) "Available" || String.eqb (sm_phase m) "Running".

(** pkg/controller/deployment_machineset_util.go 220-223 isMachineReady. *)
Definition isMachineReady (m : SMachine) : bool := String.eqb (sm_phase m) "Running".

(** pkg/apis/machine/v1alpha1/machineset_types.go MachineSetStatus. *)
Record SStatus := mkSStatus {
  st_replicas : Z; st_labeled : Z; st_ready : Z; st_avail : Z;
  st_failed : option (list Summary); st_conds : list Cond }.

(** The loop of calculateMachineSetStatus,
    pkg/controller/deployment_machineset_util.go 107-127: labeled, ready,
    available, failed. [sum_] is the reused variable machineSummary (104). *)
Fixpoint countMachines (sel : list (string * string)) (sum_ : Summary) (l : list SMachine) : Z * Z * Z * list Summary :=
  match l with
  | [] => (0, 0, 0, [])
  | m :: r =>
      let failed := String.eqb (sm_state m) "Failed" in
      let sum' := if failed
                  then mkSum (sm_name m) (sm_pid m) (sm_desc m) (sm_state m)
                             (match sm_owner m with Some o => o | None => su_owner sum_ end)
                  else sum_ in
      let '(lab, rdy, av, fl) := countMachines sel sum' r in
      ((if selectorMatches sel (sm_labels m) then lab + 1 else lab),
       (if isMachineAvailable m && isMachineReady m then rdy + 1 else rdy),
       (if isMachineAvailable m then av + 1 else av),
       (if failed then sum' :: fl else fl))
  end.

(** pkg/controller/deployment_machineset_util.go 92-159 calculateMachineSetStatus:
    [spec] is.Spec.Replicas, [err] the message of manageReplicasErr. *)
Definition calculateMachineSetStatus (now : Z) (sel : list (string * string)) (spec : Z) (old : SStatus)
    (l : list SMachine) (err : option string) : SStatus :=
  let '(lab, rdy, av, fl) := countMachines sel (mkSum "" "" "" "" "") l in
  let n := Z.of_nat (List.length l) in
  let failed := match fl with
                | _ :: _ => Some fl
                | [] => if rdy =? st_replicas old then None else st_failed old
                end in
  let conds := match err, GetCondition (st_conds old) "ReplicaFailure" with
               | Some msg, None =>
                   let reason := if n <? spec then "FailedCreate" else if spec <? n then "FailedDelete" else "" in
                   SetCondition (st_conds old) (mkCond "ReplicaFailure" "True" 0 (stored now) reason msg)
               | None, Some _ => RemoveCondition (st_conds old) "ReplicaFailure"
               | _, _ => st_conds old
               end in
  mkSStatus n lab rdy av failed conds.

(** pkg/apis/machine/v1alpha1/machinedeployment_types.go 190-231; collisionCount is
    carried over unchanged by the functions here and left out. *)
Record DStatus := mkDStatus {
  ds_obs : Z; ds_replicas : Z; ds_updated : Z; ds_ready : Z; ds_avail : Z; ds_unavail : Z;
  ds_conds : list Cond; ds_failed : list Summary }.

(** MachineSet as the MachineDeployment status sees it.
    pkg/controller/deployment_util.go 959-1000 reads it. *)
Record SSet := mkSSet { ss_ms : MachineSet; ss_st : SStatus }.

(** MachineDeployment: replicas and strategy, generation, progress deadline,
    status (pkg/apis/machine/v1alpha1/machinedeployment_types.go 46-124). *)
Record SDep := mkSDep { sd_md : MachineDeployment; sd_gen : Z; sd_deadline : option Z; sd_status : DStatus }.

(** pkg/controller/deployment_util.go 980-989 GetReadyReplicaCountForMachineSets. *)
Fixpoint GetReadyReplicaCountForMachineSets (l : list MachineSet) : Z :=
  match l with [] => 0 | s :: r => ms_ready s + GetReadyReplicaCountForMachineSets r end.

(** pkg/controller/deployment_sync.go 621-665 calculateDeploymentStatus. *)
Definition calculateDeploymentStatus (now : Z) (all : list SSet) (newIS : option SSet) (d : SDep) : DStatus :=
  let ms := map ss_ms all in
  let available := GetAvailableReplicaCountForMachineSets ms in
  let total := GetReplicaCountForMachineSets ms in
  let unavailable := total - available in
  let conds :=
    if available >=? md_replicas (sd_md d) - MaxUnavailable (sd_md d)
    then SetMachineDeploymentCondition (ds_conds (sd_status d))
           (NewMachineDeploymentCondition now "Available" "True" "MinimumReplicasAvailable" "Deployment has minimum availability.")
    else SetMachineDeploymentCondition (ds_conds (sd_status d))
           (NewMachineDeploymentCondition now "Available" "False" "MinimumReplicasUnavailable" "Deployment does not have minimum availability.") in
  mkDStatus (sd_gen d)
    (GetActualReplicaCountForMachineSets ms)
    (match newIS with Some s => GetActualReplicaCountForMachineSets [ss_ms s] | None => 0 end)
    (GetReadyReplicaCountForMachineSets ms)
    available
    (if unavailable <? 0 then 0 else unavailable)
    conds
    (flat_map (fun s => match st_failed (ss_st s) with Some f => f | None => [] end) all).

(** pkg/controller/deployment_util.go 1009-1014 MachineDeploymentComplete. *)
Definition MachineDeploymentComplete (d : SDep) (n : DStatus) : bool :=
  (ds_updated n =? md_replicas (sd_md d)) && (ds_replicas n =? md_replicas (sd_md d)) &&
  (ds_avail n =? md_replicas (sd_md d)) && (ds_obs n >=? sd_gen d).

(** pkg/controller/deployment_util.go 1020-1031 MachineDeploymentProgressing. *)
Definition MachineDeploymentProgressing (d : SDep) (n : DStatus) : bool :=
  let o := sd_status d in
  (ds_updated n >? ds_updated o) || (ds_replicas n - ds_updated n <? ds_replicas o - ds_updated o) ||
  (ds_ready n >? ds_ready o) || (ds_avail n >? ds_avail o).

(** pkg/controller/deployment_util.go 1039-1079 MachineDeploymentTimedOut. *)
Definition MachineDeploymentTimedOut (now : Z) (d : SDep) (n : DStatus) : bool :=
  match sd_deadline d with
  | None => false
  | Some s =>
      match GetMachineDeploymentCondition (ds_conds n) "Progressing" with
      | None => false
      | Some c =>
          if String.eqb (c_reason c) "NewMachineSetAvailable" then false
          else if String.eqb (c_reason c) "ProgressDeadlineExceeded" then true
          else c_update c + s * second <? now
      end
  end.

(** pkg/controller/deployment_util.go 222-231. *)
Definition MachineSetToMachineDeploymentCondition (c : Cond) : Cond :=
  mkCond (c_type c) (c_status c) (c_trans c) (c_trans c) (c_reason c) (c_msg c).

(** pkg/controller/deployment_progress.go 122-152 getReplicaFailures. *)
Definition getReplicaFailures (all : list SSet) (newIS : option SSet) : list Cond :=
  let fails s := map MachineSetToMachineDeploymentCondition
                   (filter (fun c => String.eqb (c_type c) "ReplicaFailure") (st_conds (ss_st s))) in
  match match newIS with Some s => fails s | None => [] end with
  | (_ :: _) as l => l
  | [] => flat_map fails all
  end.

(** pkg/controller/deployment_progress.go 46-96: the Progressing condition. The
    texts are shortened to the part that does not depend on names. *)
Definition progressConditions (now : Z) (d : SDep) (n : DStatus) : list Cond :=
  let cur := GetMachineDeploymentCondition (ds_conds (sd_status d)) "Progressing" in
  let isComplete := (ds_replicas n =? ds_updated n) &&
    match cur with Some c => String.eqb (c_reason c) "NewMachineSetAvailable" | None => false end in
  if isComplete then ds_conds n
  else if MachineDeploymentComplete d n then
    SetMachineDeploymentCondition (ds_conds n)
      (NewMachineDeploymentCondition now "Progressing" "True" "NewMachineSetAvailable" "has successfully progressed.")
  else if MachineDeploymentProgressing d n then
    let c := NewMachineDeploymentCondition now "Progressing" "True" "MachineSetUpdated" "is progressing." in
    match cur with
    | Some k =>
        let c' := if String.eqb (c_status k) "True"
                  then mkCond (c_type c) (c_status c) (c_update c) (c_trans k) (c_reason c) (c_msg c) else c in
        SetMachineDeploymentCondition (RemoveMachineDeploymentCondition (ds_conds n) "Progressing") c'
    | None => SetMachineDeploymentCondition (ds_conds n) c
    end
  else if MachineDeploymentTimedOut now d n then
    SetMachineDeploymentCondition (ds_conds n)
      (NewMachineDeploymentCondition now "Progressing" "False" "ProgressDeadlineExceeded" "has timed out progressing.")
  else ds_conds n.

(** pkg/controller/deployment_progress.go 40-105: the status to be written. *)
Definition rolloutStatus (now : Z) (all : list SSet) (newIS : option SSet) (d : SDep) : DStatus :=
  let n := calculateDeploymentStatus now all newIS d in
  let conds := progressConditions now d n in
  let conds' := match getReplicaFailures all newIS with
                | c :: _ => SetMachineDeploymentCondition conds c
                | [] => RemoveMachineDeploymentCondition conds "ReplicaFailure"
                end in
  mkDStatus (ds_obs n) (ds_replicas n) (ds_updated n) (ds_ready n) (ds_avail n) (ds_unavail n) conds' (ds_failed n).

(** reflect.DeepEqual on conditions (Go library, external).
    Called at pkg/controller/deployment_sync.go 610 and deployment_util.go 1197. *)
Definition cond_eqb (a b : Cond) : bool :=
  String.eqb (c_type a) (c_type b) && String.eqb (c_status a) (c_status b) && (c_update a =? c_update b) &&
  (c_trans a =? c_trans b) && String.eqb (c_reason a) (c_reason b) && String.eqb (c_msg a) (c_msg b).
(** Called at pkg/controller/deployment_sync.go 610 and deployment_util.go 1197. *)
Fixpoint conds_eqb (a b : list Cond) : bool :=
  match a, b with
  | [], [] => true
  | x :: r, y :: s => cond_eqb x y && conds_eqb r s
  | _, _ => false
  end.

(** pkg/controller/deployment_util.go 1188-1222 statusUpdateRequired. *)
Definition statusUpdateRequired (o n : DStatus) : bool :=
  if (ds_avail o =? ds_avail n) && Nat.eqb (List.length (ds_failed o)) (List.length (ds_failed n)) &&
     (ds_obs o =? ds_obs n) && (ds_ready o =? ds_ready n) && (ds_replicas o =? ds_replicas n) &&
     (ds_updated o =? ds_updated n) && (ds_unavail o =? ds_unavail n) && conds_eqb (ds_conds o) (ds_conds n)
  then existsb (fun m => negb (existsb (fun k => String.eqb (su_name k) (su_name m) && String.eqb (su_desc k) (su_desc m)) (ds_failed o))) (ds_failed n)
  else true.

(** pkg/controller/deployment_progress.go 40-118 syncRolloutStatus: the status
    stored afterwards; [ok]: the write succeeds. *)
Definition syncRolloutStatus (now : Z) (ok : bool) (all : list SSet) (newIS : option SSet) (d : SDep) : DStatus :=
  let n := rolloutStatus now all newIS d in
  if statusUpdateRequired (sd_status d) n && ok then n else sd_status d.

(** What requeueStuckMachineDeployment decides
    (pkg/controller/deployment_progress.go 161-200): nothing, a rate-limited
    retry, or a retry after a time. *)
Inductive Requeue := NoRequeue | RequeueNow | RequeueAfter (t : Z).
(** pkg/controller/deployment_progress.go 161-200. *)
Definition requeueStuckMachineDeployment (now : Z) (d : SDep) (n : DStatus) : Requeue :=
  match sd_deadline d, GetMachineDeploymentCondition (ds_conds (sd_status d)) "Progressing" with
  | Some s, Some c =>
      if MachineDeploymentComplete d n || String.eqb (c_reason c) "ProgressDeadlineExceeded" then NoRequeue
      else
        let after := c_update c + s * second - now in
        if after <? second then RequeueNow else RequeueAfter (after + second)
  | _, _ => NoRequeue
  end.

(** pkg/controller/deployment_sync.go 81-106 checkPausedConditions. *)
Definition checkPausedConditions (now : Z) (paused : bool) (l : list Cond) : list Cond :=
  let cond := GetMachineDeploymentCondition l "Progressing" in
  match cond with
  | Some c =>
      if String.eqb (c_reason c) "ProgressDeadlineExceeded" then l
      else
        let exists_ := String.eqb (c_reason c) "DeploymentPaused" in
        if paused && negb exists_ then
          SetMachineDeploymentCondition l (NewMachineDeploymentCondition now "Progressing" "Unknown" "DeploymentPaused" "Deployment is paused")
        else if negb paused && exists_ then
          SetMachineDeploymentCondition l (NewMachineDeploymentCondition now "Progressing" "Unknown" "DeploymentResumed" "Deployment is resumed")
        else l
  | None =>
      if paused then
        SetMachineDeploymentCondition l (NewMachineDeploymentCondition now "Progressing" "Unknown" "DeploymentPaused" "Deployment is paused")
      else l
  end.

(** Conditions set while the new MachineSet is looked up or created,
    pkg/controller/deployment_sync.go 263-270, 374-377 and 389-393. *)
Definition foundCondition (now : Z) (l : list Cond) : list Cond :=
  match GetMachineDeploymentCondition l "Progressing" with
  | None => SetMachineDeploymentCondition l (NewMachineDeploymentCondition now "Progressing" "True" "FoundNewMachineSet" "Found new machine set")
  | Some _ => l
  end.
(** pkg/controller/deployment_sync.go 235-400, after the creation. *)
Definition createdCondition (now : Z) (l : list Cond) : list Cond :=
  SetMachineDeploymentCondition l (NewMachineDeploymentCondition now "Progressing" "True" "NewMachineSetCreated" "Created new machine set").
(** pkg/controller/deployment_sync.go 235-400, on a failed creation. *)
Definition createFailedCondition (now : Z) (l : list Cond) : list Cond :=
  SetMachineDeploymentCondition l (NewMachineDeploymentCondition now "Progressing" "False" "MachineSetCreateError" "Failed to create new machine set").

(** The writers of a MachineDeployment's status, in the order they may happen
    (pkg/controller/deployment.go 414-551, repeated); the user edits spec
    meanwhile. *)
Inductive POp :=
| PSync (ok : bool) (all : list SSet) (newIS : option SSet)
| PCheckPaused (paused : bool)
| PFound | PCreated | PCreateFailed
| PSpec (md : MachineDeployment) (gen : Z) (deadline : option Z).

(** No counterpart: the write at pkg/controller/deployment_sync.go 607-618. *)
Definition with_conds (d : SDep) (l : list Cond) : SDep :=
  let s := sd_status d in
  mkSDep (sd_md d) (sd_gen d) (sd_deadline d)
    (mkDStatus (ds_obs s) (ds_replicas s) (ds_updated s) (ds_ready s) (ds_avail s) (ds_unavail s) l (ds_failed s)).

(** pkg/controller/deployment_progress.go 40-118, deployment_sync.go 81-106, 607-618. *)
Definition pstep (d : SDep) (e : Z * POp) : SDep :=
  let '(now, o) := e in
  match o with
  | PSync ok all newIS => mkSDep (sd_md d) (sd_gen d) (sd_deadline d) (syncRolloutStatus now ok all newIS d)
  | PCheckPaused p => with_conds d (checkPausedConditions now p (ds_conds (sd_status d)))
  | PFound => with_conds d (foundCondition now (ds_conds (sd_status d)))
  | PCreated => with_conds d (createdCondition now (ds_conds (sd_status d)))
  | PCreateFailed => with_conds d (createFailedCondition now (ds_conds (sd_status d)))
  | PSpec md gen dl => mkSDep md gen dl (sd_status d)
  end.

(** Repeated reconciles, pkg/controller/deployment.go 414-551. *)
Definition prun (d : SDep) (l : list (Z * POp)) : SDep := fold_left pstep l d.
