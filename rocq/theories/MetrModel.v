(** What the metrics endpoints show of MachineDeployments, MachineSets and machines.
    Models pkg/controller/metrics.go, pkg/util/provider/machinecontroller/metrics.go, the
    declarations in pkg/metrics/metrics.go and pkg/util/provider/metrics/metrics.go, and the counter
    at pkg/controller/machineset.go 687-691. *)
Require Import Coq.ZArith.ZArith Coq.Lists.List Coq.Strings.String Coq.Bool.Bool Coq.Arith.PeanoNat.
From Verif Require Import MetaModel MSetModel CopyModel.
Import ListNotations.
Open Scope string_scope.
Open Scope list_scope.
Open Scope Z_scope.

(** The label names with which a gauge is declared; pkg/metrics/metrics.go 36-252 and
    pkg/util/provider/metrics/metrics.go 26-50. Order as declared. *)
Definition declared (g : string) : list string :=
  if existsb (String.eqb g) ["MachineSetInfo"] then
    ["name"; "namespace"; "createdAt"; "spec_machine_class_api_group"; "spec_machine_class_kind"; "spec_machine_class_name"]
  else if existsb (String.eqb g) ["MachineSetStatusCondition"; "MachineDeploymentStatusCondition"; "MachineStatusCondition"] then ["name"; "namespace"; "condition"]
  else if existsb (String.eqb g) ["MachineSetStatusFailedMachines"; "MachineDeploymentStatusFailedMachines"] then
    ["name"; "namespace"; "failed_machine_name"; "failed_machine_provider_id"; "failed_machine_owner_ref";
     "failed_machine_last_operation_state"; "failed_machine_last_operation_machine_operation_type"]
  else if existsb (String.eqb g) ["MachineDeploymentInfo"] then ["name"; "namespace"; "createdAt"; "spec_strategy_type"]
  else if existsb (String.eqb g) ["MachineInfo"] then
    ["name"; "namespace"; "createdAt"; "spec_provider_id"; "spec_class_api_group"; "spec_class_kind"; "spec_class_name"]
  else ["name"; "namespace"].

(** A series: the gauge and the values of its labels as declared. prometheus (external), asked for at
    pkg/controller/metrics.go 100-297. *)
Definition Key := (string * list string)%type.
(** Used at pkg/controller/metrics.go 100-297. *)
Definition key_eqb (a b : Key) : bool := String.eqb (fst a) (fst b) && if list_eq_dec string_dec (snd a) (snd b) then true else false.
(** The gauges of the process. prometheus (external), asked for at pkg/controller/metrics.go 100-297. *)
Definition Reg := Key -> option Z.
(** GaugeVec.With (prometheus, external; called at pkg/controller/metrics.go 100-297): the series for these labels; panics ([None]) unless they
    are the declared ones. *)
Definition with_ (g : string) (l : Map) : option Key :=
  if Nat.eqb (List.length l) (List.length (declared g)) && forallb (fun k => match get k l with Some _ => true | None => false end) (declared g)
  then Some (g, map (fun k => match get k l with Some v => v | None => "" end) (declared g)) else None.

(** One call With(labels).Set(value). pkg/controller/metrics.go 100-297. Values are float64 of the
    number; rounding beyond 2^53 is not modelled. *)
Definition Call := (string * Map * Z)%type.
(** The calls in turn; [None]: panic. pkg/controller/metrics.go 100-297. *)
Fixpoint setAll (l : list Call) (r : Reg) : option Reg :=
  match l with
  | [] => Some r
  | (g, lab, v) :: l => match with_ g lab with Some k => setAll l (fun k' => if key_eqb k k' then Some v else r k') | None => None end
  end.

(** ObjectMeta as read here. pkg/controller/metrics.go 66, 87. *)
Record Meta := mkMeta { o_name : string; o_ns : string; o_created : Z }.
(** A failed machine in a status. pkg/apis/machine/v1alpha1/shared_types.go. Read at metrics.go 124-131. *)
Record FailedM := mkF { f_name : string; f_pid : string; f_state : string; f_type : string; f_owner : string }.
(** A MachineSet as read at pkg/controller/metrics.go 77-173; conditions: type and status. *)
Record SetO := mkSO {
  s_meta : Meta; s_group : string; s_kind : string; s_class : string; s_replicas : Z; s_minReady : Z;
  s_avail : Z; s_labelled : Z; s_ready : Z; s_stReplicas : Z; s_conds : list (string * string); s_failed : option (list FailedM) }.
(** intstr.IntOrString (k8s.io/apimachinery, external; read at pkg/controller/metrics.go 260-263). *)
Inductive IoS := INum (z : Z) | IText (s : string).
(** IntOrString.IntValue (external; metrics.go 260-263): a text that is no number counts as 0. A number
    beyond int64 in the text is not modelled. *)
Definition IntValue (v : IoS) : Z := match v with INum z => z | IText s => match Atoi s with Some n => n | None => 0 end end.
(** A MachineDeployment as read at pkg/controller/metrics.go 57-297; [d_rolling]: the block rollingUpdate
    with its two pointers. *)
Record DepO := mkDO {
  d_meta : Meta; d_paused : bool; d_replicas : Z; d_minReady : Z; d_type : string; d_rolling : option (option IoS * option IoS);
  d_history : option Z; d_deadline : option Z; d_rollback : option Z;
  d_avail : Z; d_unavail : Z; d_ready : Z; d_updated : Z; d_stReplicas : Z; d_collisions : option Z;
  d_conds : list (string * string); d_failed : list FailedM }.
(** A machine as read at pkg/util/provider/machinecontroller/metrics.go 31-124. *)
Record MacO := mkMcO { m_meta : Meta; m_pid : string; m_group : string; m_kind : string; m_class : string; m_phase : string; m_conds : list (string * string) }.

(** The two labels of most gauges. pkg/controller/metrics.go 100-103. *)
Definition two (m : Meta) : Map := [("name", o_name m); ("namespace", o_ns m)].

(** pkg/controller/metrics.go 138-146, 221-229 and machinecontroller/metrics.go 97-105. *)
Definition condValue (s : string) : Z := if String.eqb s "True" then 1 else if String.eqb s "False" then 0 else if String.eqb s "Unknown" then 2 else 0.
(** pkg/controller/metrics.go 136-154, 219-237 and machinecontroller/metrics.go 95-113. *)
Definition condCalls (g : string) (m : Meta) (l : list (string * string)) : list Call :=
  map (fun c => (g, two m ++ [("condition", fst c)], condValue (snd c))) l.
(** pkg/controller/metrics.go 121-134 and 203-217. *)
Definition failedCalls (g : string) (m : Meta) (l : list FailedM) : list Call :=
  map (fun f => (g, two m ++ [("failed_machine_name", f_name f); ("failed_machine_provider_id", f_pid f);
     ("failed_machine_last_operation_state", f_state f); ("failed_machine_last_operation_machine_operation_type", f_type f);
     ("failed_machine_owner_ref", f_owner f)], 1)) l.

(** pkg/controller/metrics.go 165-173 updateMachineSetInfoMetric. *)
Definition setInfoCalls (s : SetO) : list Call :=
  [("MachineSetInfo", two (s_meta s) ++ [("createdAt", FormatInt (o_created (s_meta s))); ("spec_machine_class_api_group", s_group s);
     ("spec_machine_class_kind", s_kind s); ("spec_machine_class_name", s_class s)], 1)].
(** pkg/controller/metrics.go 156-163 updateMachineSetSpecRelatedMetrics. *)
Definition setSpecCalls (s : SetO) : list Call :=
  [("MachineSetInfoSpecReplicas", two (s_meta s), s_replicas s); ("MachineSetInfoSpecMinReadySeconds", two (s_meta s), s_minReady s)].
(** pkg/controller/metrics.go 96-119 updateMachineSetStatusRelatedMetric; 118 sets the ready replicas. *)
Definition setStatusCalls (s : SetO) : list Call :=
  condCalls "MachineSetStatusCondition" (s_meta s) (s_conds s) ++
  match s_failed s with Some l => failedCalls "MachineSetStatusFailedMachines" (s_meta s) l | None => [] end ++
  [("MachineSetStatusAvailableReplicas", two (s_meta s), s_avail s); ("MachineSetStatusFullyLabelledReplicas", two (s_meta s), s_labelled s);
   ("MachineSetStatusReadyReplicas", two (s_meta s), s_ready s); ("MachineSetStatusReplicas", two (s_meta s), s_ready s)].
(** pkg/controller/metrics.go 86-93. *)
Definition setCalls (s : SetO) : list Call := setInfoCalls s ++ setSpecCalls s ++ setStatusCalls s.

(** pkg/controller/metrics.go 239-279 updateMachineDeploymentSpecRelatedMetrics; [None]: a nil pointer is
    dereferenced (260, 263). *)
Definition depSpecCalls (d : DepO) : option (list Call) :=
  let m := two (d_meta d) in
  let opt (g : string) (v : option Z) : list Call := match v with Some z => [(g, m, z)] | None => [] end in
  let first := [("MachineDeploymentInfoSpecPaused", m, if d_paused d then 1 else 0); ("MachineDeploymentInfoSpecReplicas", m, d_replicas d);
                ("MachineDeploymentInfoSpecMinReadySeconds", m, d_minReady d)] in
  let last := opt "MachineDeploymentInfoSpecRevisionHistoryLimit" (d_history d) ++ opt "MachineDeploymentInfoSpecProgressDeadlineSeconds" (d_deadline d) ++
              opt "MachineDeploymentInfoSpecRollbackToRevision" (d_rollback d) in
  if String.eqb (d_type d) "RollingUpdate" then
    match d_rolling d with
    | Some (Some surge, Some unavailable) =>
        Some (first ++ [("MachineDeploymentInfoSpecRollingUpdateMaxSurge", m, IntValue surge);
                        ("MachineDeploymentInfoSpecRollingUpdateMaxUnavailable", m, IntValue unavailable)] ++ last)
    | _ => None
    end
  else Some (first ++ last).
(** pkg/controller/metrics.go 281-288 updateMachineDeploymentInfoMetric. *)
Definition depInfoCalls (d : DepO) : list Call :=
  [("MachineDeploymentInfo", two (d_meta d) ++ [("createdAt", FormatInt (o_created (d_meta d))); ("spec_strategy_type", d_type d)], 1)].
(** pkg/controller/metrics.go 184-201 updateMachineDeploymentStatusRelatedMetrics. *)
Definition depStatusCalls (d : DepO) : list Call :=
  let m := two (d_meta d) in
  condCalls "MachineDeploymentStatusCondition" (d_meta d) (d_conds d) ++ failedCalls "MachineDeploymentStatusFailedMachines" (d_meta d) (d_failed d) ++
  [("MachineDeploymentStatusAvailableReplicas", m, d_avail d); ("MachineDeploymentStatusUnavailableReplicas", m, d_unavail d);
   ("MachineDeploymentStatusReadyReplicas", m, d_ready d); ("MachineDeploymentStatusUpdatedReplicas", m, d_updated d);
   ("MachineDeploymentStatusReplicas", m, d_stReplicas d)] ++
  match d_collisions d with Some z => [("MachineDeploymentStatusCollisionCount", m, z)] | None => [] end.
(** pkg/controller/metrics.go 64-72. *)
Definition depCalls (d : DepO) : option (list Call) := option_map (fun l => depInfoCalls d ++ l ++ depStatusCalls d) (depSpecCalls d).

(** machinecontroller/metrics.go 73-93 updateMachineCSPhaseMetric. *)
Definition phaseValue (p : string) : Z :=
  if String.eqb p "Terminating" then -4 else if String.eqb p "Failed" then -3 else if String.eqb p "CrashLoopBackOff" then -2
  else if String.eqb p "Unknown" then -1 else if String.eqb p "Pending" then 0 else if String.eqb p "Running" then 1 else 0.
(** machinecontroller/metrics.go 39-45, 115-124. *)
Definition macCalls (m : MacO) : list Call :=
  [("MachineInfo", two (m_meta m) ++ [("createdAt", FormatInt (o_created (m_meta m))); ("spec_provider_id", m_pid m);
     ("spec_class_api_group", m_group m); ("spec_class_kind", m_kind m); ("spec_class_name", m_class m)], 1)] ++
  condCalls "MachineStatusCondition" (m_meta m) (m_conds m) ++ [("MachineCSPhase", two (m_meta m), phaseValue (m_phase m))].

(** How a collection ends: a panic, or the gauges, the count sent (none after a failed list call) and
    whether the failure counter was raised. pkg/controller/metrics.go 57-94. *)
Inductive Scrape := Crash | Shown (r : Reg) (count : option Z) (failed : bool).

(** pkg/controller/metrics.go 77-94 CollectMachineSetMetrics; [l]: what the lister answers. *)
Definition collectSets (l : option (list SetO)) (r : Reg) : Scrape :=
  match l with
  | None => Shown r None true
  | Some l => match setAll (List.concat (map setCalls l)) r with Some r' => Shown r' (Some (Z.of_nat (List.length l))) false | None => Crash end
  end.
(** All or nothing: the calls for a list of deployments. pkg/controller/metrics.go 64-72. *)
Fixpoint allCalls (l : list DepO) : option (list Call) :=
  match l with
  | [] => Some []
  | d :: l => match depCalls d with Some c => option_map (fun c' => c ++ c') (allCalls l) | None => None end
  end.
(** pkg/controller/metrics.go 57-74 CollectMachineDeploymentMetrics. *)
Definition collectDeps (l : option (list DepO)) (r : Reg) : Scrape :=
  match l with
  | None => Shown r None true
  | Some l => match allCalls l with
              | Some c => match setAll c r with Some r' => Shown r' (Some (Z.of_nat (List.length l))) false | None => Crash end
              | None => Crash
              end
  end.
(** machinecontroller/metrics.go 31-48 CollectMachineMetrics. *)
Definition collectMachines (l : option (list MacO)) (r : Reg) : Scrape :=
  match l with
  | None => Shown r None true
  | Some l => match setAll (List.concat (map macCalls l)) r with Some r' => Shown r' (Some (Z.of_nat (List.length l))) false | None => Crash end
  end.

(** The counter of removed stale machines (pkg/controller/metrics.go 19-36, 52-54): an increment when a
    failed machine is deleted whose last operation was a health check (machineset.go 687-691), a scrape
    that adds the value to the exported counter and resets it. Both are atomic by the mutex. *)
Inductive COp := Deleted (ok : bool) (phase lastType : string) | ScrapeNow.
(** Pending value and exported counter. pkg/controller/metrics.go 19-54. *)
Definition cstep (s : Z * Z) (o : COp) : Z * Z :=
  match o with
  | Deleted ok phase t => if ok && (String.eqb phase "Failed" && String.eqb t "HealthCheck") then (fst s + 1, snd s) else s
  | ScrapeNow => (0, snd s + fst s)
  end.

(** The gauge of the freeze. machinecontroller/metrics.go 51-62. *)
Definition frozenValue (frozen : bool) : Z := if frozen then 1 else 0.
