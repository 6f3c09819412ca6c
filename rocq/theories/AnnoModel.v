(* Model of the edits of node annotations and conditions, of the annotation that
   keeps the cluster autoscaler away during a rollout, and of the list of machines
   that the autoscaler asks to have deleted.
   Source: pkg/util/annotations/annotations.go, pkg/util/nodeops/conditions.go,
   pkg/controller/deployment_rolling.go, pkg/controller/deployment.go. *)
Require Import List String Ascii Bool Arith.
From Verif Require Import Sort MetaModel TaintModel.
Import ListNotations.
Open Scope string_scope.
Open Scope list_scope.

(* ---- annotations ---- *)

(* The node's annotation map, [None] being nil. annotations.go 18-43 reads and makes it. *)
Definition AMap := option Map.

(* AddOrUpdateAnnotation (annotations.go 16-43): same loop as putAll; the new
   map is never nil. *)
Definition AddOrUpdateAnnotation (n : AMap) (anns : Map) : AMap * bool :=
  let '(r, u) := putAll anns (match n with None => [] | Some m => m end) false in
  (Some r, u).

(* DeleteAnnotation (annotations.go 62-74). *)
Fixpoint DeleteAnnotation (n anns : Map) : Map * bool :=
  match n with
  | [] => ([], false)
  | (k, v) :: n' =>
      let '(r, d) := DeleteAnnotation n' anns in
      match get k anns with
      | Some _ => (r, true)
      | None => ((k, v) :: r, d)
      end
  end.

(* RemoveAnnotation (annotations.go 45-60); [anns] = None is a nil map. *)
Definition RemoveAnnotation (n anns : AMap) : AMap * bool :=
  match n, anns with
  | Some m, Some a => let '(r, d) := DeleteAnnotation m a in (Some r, d)
  | _, _ => (n, false)
  end.

(* ---- conditions ---- *)

(* v1.NodeCondition (k8s.io/api/core/v1). *)
Record NCond := mkNCond {
  cType : string;
  cStatus : string;
  cReason : string;
  cMessage : string;
  cHeartbeat : nat;
  cTransition : nat
}.

(* condition.LastTransitionTime = ... (conditions.go 32). *)
Definition withTransition (c : NCond) (t : nat) : NCond :=
  mkNCond (cType c) (cStatus c) (cReason c) (cMessage c) (cHeartbeat c) t.

(* The loop of CloneAndAddCondition (conditions.go 26-35): kept conditions and
   the new condition with its transition time. *)
Fixpoint condLoop (l : list NCond) (c : NCond) : list NCond * NCond :=
  match l with
  | [] => ([], c)
  | x :: l' =>
      if negb (String.eqb (cType x) (cType c))
      then let '(r, c') := condLoop l' c in (x :: r, c')
      else if String.eqb (cStatus x) (cStatus c) && String.eqb (cReason x) (cReason c)
           then condLoop l' (withTransition c (cTransition x))
           else condLoop l' c
  end.

(* CloneAndAddCondition (conditions.go 18-39). *)
Definition CloneAndAddCondition (l : list NCond) (c : NCond) : list NCond :=
  if String.eqb (cType c) "" || String.eqb (cStatus c) "" then l
  else let '(r, c') := condLoop l c in r ++ [c'].

(* ---- the autoscaler during a rollout ---- *)

(* autoscaler/types.go 8-15. *)
Definition ScaleDownDisabled : string := "cluster-autoscaler.kubernetes.io/scale-down-disabled".
(* autoscaler/types.go 8-15. *)
Definition ByMCM : string := "cluster-autoscaler.kubernetes.io/scale-down-disabled-by-mcm".

(* clusterAutoscalerScaleDownAnnotations (deployment_rolling.go 48-52,
   deployment_recreate.go 35-41). *)
Definition scaleDownAnnotations : Map := [(ScaleDownDisabled, "true"); (ByMCM, "true")].

(* annotateNodesBackingMachineSets for one node, the call succeeding
   (deployment_rolling.go 403-414). *)
Definition annotateNode (n : AMap) : AMap := fst (AddOrUpdateAnnotation n scaleDownAnnotations).

(* removeAutoscalerAnnotationsIfRequired for one node, the calls succeeding
   (deployment_rolling.go 459-484): only if the by-mcm key is there. *)
Definition unannotateNode (n : AMap) : AMap :=
  match n with
  | None => None
  | Some m => match get ByMCM m with
              | None => n
              | Some _ => fst (RemoveAnnotation n (Some scaleDownAnnotations))
              end
  end.

(* What happens to a node over a rollout.
   deployment_rolling.go 48-124; the last two stand for other clients. *)
Inductive NodeEvent :=
| Annotate                            (* deployment_rolling.go 70-82 *)
| Unannotate                          (* deployment_rolling.go 109-118 *)
| UserSets (k v : string)             (* anybody else sets another annotation *)
| UserRemoves (k : string).           (* anybody else removes one *)

(* One event. deployment_rolling.go 70-82, 109-118. *)
Definition nstep (n : AMap) (e : NodeEvent) : AMap :=
  match e with
  | Annotate => annotateNode n
  | Unannotate => unannotateNode n
  | UserSets k v => Some (put k v (match n with None => [] | Some m => m end))
  | UserRemoves k => match n with None => None | Some m => Some (del k m) end
  end.

(* A run. deployment_rolling.go 48-124 called again and again. *)
Definition nrun (n : AMap) (es : list NodeEvent) : AMap := fold_left nstep es n.

(* The steps that rolloutRolling takes for one node in one reconcile, given the
   switch autoscalerScaleDownAnnotationDuringRollout, whether old sets remain
   (deployment_rolling.go 74) and whether the rollout is complete (107-118). *)
Definition rolloutEvents (switchOn oldSetsRemain complete : bool) : list NodeEvent :=
  (if switchOn && oldSetsRemain then [Annotate] else []) ++
  (if complete && switchOn then [Unannotate] else []).

(* ---- machines named for deletion ---- *)

(* GetMachineNamesTriggeredForDeletion (annotations.go 76-82) on the annotation's
   value, "" if absent. *)
Definition namesTriggered (v : string) : list string :=
  if String.eqb v "" then [] else split "," v.

(* CreateMachinesTriggeredForDeletionAnnotValue (annotations.go 84-88). *)
Definition triggeredValue (l : list string) : string := join "," (isort String.leb l).

(* A Machine as far as the trigger goes. deployment.go 615-671, machine_types.go 36-60. *)
Record TMachine := mkTMachine {
  tmOwner : string;           (* the deployment it belongs to *)
  tmGoing : bool;             (* Failed or Terminating: IsMachineFailedOrTerminating, machineutils/utils.go 100-106 *)
  tmPriority : string         (* annotation MachinePriority, "" if absent *)
}.

(* The machines of the namespace by name. The API server behind deployment.go 615-671. *)
Definition Machines := string -> option TMachine.

(* Set the priority of one machine (deployment.go 638-643). *)
Definition mark (n : string) (ms : Machines) : Machines :=
  fun x => if String.eqb x n
           then match ms x with
                | None => None
                | Some m => Some (mkTMachine (tmOwner m) (tmGoing m) "1")
                end
           else ms x.

(* The loop (deployment.go 622-649): names to skip, and whether an update failed.
   [fails] says for which names the update of the machine fails. *)
Fixpoint markLoop (fails : string -> bool) (names : list string) (ms : Machines)
  : Machines * list string * bool :=
  match names with
  | [] => (ms, [], false)
  | n :: names' =>
      match ms n with
      | None => let '(r, sk, e) := markLoop fails names' ms in (r, n :: sk, e)
      | Some m =>
          if tmGoing m then let '(r, sk, e) := markLoop fails names' ms in (r, n :: sk, e)
          else if String.eqb (tmPriority m) "1" then markLoop fails names' ms
          else if fails n then (ms, [], true)
          else markLoop fails names' (mark n ms)
      end
  end.

(* sets.NewString(names...).Delete(skip...) (deployment.go 655). *)
Definition remaining (names skip : list string) : list string :=
  nodup string_dec (filter (fun n => negb (existsb (String.eqb n) skip)) names).

(* setMachinePriorityAnnotationAndUpdateTriggeredForDeletion (deployment.go
   615-671): the machines, the new value of the deployment's annotation ("" =
   deleted), and whether an error was returned. [mdFails]: the update of the
   deployment fails. *)
Definition setPriorities (fails : string -> bool) (mdFails : bool) (v : string) (ms : Machines)
  : Machines * string * bool :=
  match namesTriggered v with
  | [] => (ms, v, false)
  | names =>
      let '(ms', skip, err) := markLoop fails names ms in
      if err then (ms', v, true)
      else match skip with
           | [] => (ms', v, false)
           | _ => if mdFails then (ms', v, true)
                  else (ms', triggeredValue (remaining names skip), false)
           end
  end.
