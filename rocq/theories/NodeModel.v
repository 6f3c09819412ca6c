(* Model of how the controllers write annotations and conditions of Node objects
   through the API server, with stale reads, writes of others in between and
   failing calls; and of the two users of these writes: the annotations that keep
   the cluster autoscaler away during a rollout, and the condition that announces
   the termination of a node.
   Source: pkg/controller/controller_utils.go 900-1023,
   pkg/controller/deployment_rolling.go 377-492,
   pkg/util/nodeops/conditions.go, pkg/util/provider/machinecontroller/machine_util.go
   1486-1520, 1630-1638. *)
Require Import List String Bool Arith.
From Verif Require Import MetaModel TaintModel AnnoModel.
Import ListNotations.
Open Scope string_scope.
Open Scope list_scope.

(* ---- the API server ---- *)

(* A Node object: annotations, conditions, and everything else.
   The fields that controller_utils.go 942-953 and conditions.go 95-106 write. *)
Record NObj := mkNObj {
  nAnn : AMap;
  nConds : list NCond;
  nRest : nat
}.

(* All states of the object under one name, the newest first; [None]: there is no
   such object. The resource version of a state is the number of older states.
   External: the API server behind controller_utils.go 911-949. *)
Definition Hist := list (option NObj).

(* The newest state. External: a Get without resource version, controller_utils.go 916. *)
Definition current (h : Hist) : option NObj := match h with [] => None | o :: _ => o end.

(* The history as it was [i] writes ago. External: a Get with resource version "0" is answered
   from a cache that may lag, controller_utils.go 913. *)
Definition before (i : nat) (h : Hist) : Hist := skipn i h.

(* Writes of others, one after the other.  External: any other client. Around controller_utils.go 907-938. *)
Definition others (fs : list (option NObj -> option NObj)) (h : Hist) : Hist :=
  fold_left (fun h f => f (current h) :: h) fs h.

(* How a Get fails: no such node, or for another reason; never with a conflict.
   External; called at controller_utils.go 913, 916, 971, 974, 1012; conditions.go 60, 74, 77. *)
Inductive ReadError := Absent | Unread.

(* What surrounds one attempt: how many writes the read lags behind, or its
   error; what others write between read and update; how the update fails if it does.
   External: around controller_utils.go 907-938, 967-1001; conditions.go 70-92. *)
Record Round := mkRound {
  rdRead : nat + ReadError;
  rdOthers : list (option NObj -> option NObj);
  rdFail : option ApiError
}.

(* Get: the state read and its resource version. The first attempt may read a
   stale state, later ones read the newest. controller_utils.go 911-928,
   969-987; conditions.go 72-83. *)
Definition getNode (first : bool) (r : Round) (h : Hist) : (nat * NObj) + ReadError :=
  match rdRead r with
  | inr e => inr e
  | inl i =>
      let past := before (if first then i else 0) h in
      match current past with
      | None => inr Absent
      | Some o => inl (List.length past, o)
      end
  end.

(* Update and UpdateStatus: refused if the object is gone or its resource version
   is not the newest. External; called at controller_utils.go 946, conditions.go 100. *)
Definition putNode (fail : option ApiError) (v : nat) (o : NObj) (h : Hist) : Hist * option ApiError :=
  match fail with
  | Some e => (h, Some e)
  | None =>
      match current h with
      | None => (h, Some NotFound)
      | Some _ => if Nat.eqb v (List.length h) then (Some o :: h, None) else (h, Some Conflict)
      end
  end.

(* fmt.Errorf with %v makes a new error, which apierrors does not recognise:
   controller_utils.go 948, conditions.go 102. *)
Definition wrapped (r : Hist * option ApiError) : Hist * option ApiError :=
  match r with
  | (h, None) => (h, None)
  | (h, Some _) => (h, Some Other)
  end.

(* clientretry.RetryOnConflict: another attempt after a conflict and only then,
   as long as steps are left; then the last conflict. External; called at controller_utils.go
   907, 967, conditions.go 70; five steps: controller_utils.go 99-103, taints.go 25-29. *)
Fixpoint retry (try : bool -> Round -> Hist -> Hist * option ApiError) (first : bool)
    (rounds : list Round) (h : Hist) : Hist * option ApiError :=
  match rounds with
  | [] => (h, Some Conflict)
  | r :: rounds' =>
      match try first r h with
      | (h', Some Conflict) => retry try false rounds' h'
      | res => res
      end
  end.

(* One attempt at editing annotations (controller_utils.go 908-937, 968-1000): a missing node
   is no error; nothing is written if nothing changes. *)
Definition tryAnn (edit : AMap -> AMap * bool) (first : bool) (r : Round) (h : Hist) : Hist * option ApiError :=
  match getNode first r h with
  | inr Absent => (others (rdOthers r) h, None)
  | inr Unread => (others (rdOthers r) h, Some Other)
  | inl (v, o) =>
      let h1 := others (rdOthers r) h in
      let '(a, updated) := edit (nAnn o) in
      if updated
      then wrapped (putNode (rdFail r) v (mkNObj a (nConds o) (nRest o)) h1)
      else (h1, None)
  end.

(* AddOrUpdateAnnotationOnNode (controller_utils.go 900-939). *)
Definition AddOrUpdateAnnotationOnNode (anns : AMap) (rounds : list Round) (h : Hist) : Hist * option ApiError :=
  match anns with
  | None => (h, None)
  | Some a => retry (tryAnn (fun n => AddOrUpdateAnnotation n a)) true rounds h
  end.

(* RemoveAnnotationsOffNode (controller_utils.go 956-1002). *)
Definition RemoveAnnotationsOffNode (name : string) (anns : AMap) (rounds : list Round) (h : Hist)
  : Hist * option ApiError :=
  match anns with
  | None => (h, None)
  | Some _ => if String.eqb name "" then (h, None)
              else retry (tryAnn (fun n => RemoveAnnotation n anns)) true rounds h
  end.

(* GetAnnotationsFromNode (controller_utils.go 1004-1023) with the node read newest;
   [fail]: the error of the call, if any. *)
Definition GetAnnotationsFromNode (name : string) (fail : option ReadError) (h : Hist) : AMap + ReadError :=
  if String.eqb name "" then inl None
  else match fail with
       | Some Absent => inl None
       | Some Unread => inr Unread
       | None => match current h with
                 | None => inl None
                 | Some o => inl (nAnn o)
                 end
       end.

(* One attempt at setting a condition (conditions.go 71-91): always an update. *)
Definition tryCond (c : NCond) (first : bool) (r : Round) (h : Hist) : Hist * option ApiError :=
  match getNode first r h with
  | inr Absent => (others (rdOthers r) h, Some NotFound)
  | inr Unread => (others (rdOthers r) h, Some Other)
  | inl (v, o) =>
      wrapped (putNode (rdFail r) v (mkNObj (nAnn o) (CloneAndAddCondition (nConds o) c) (nRest o))
                 (others (rdOthers r) h))
  end.

(* AddOrUpdateConditionsOnNode (conditions.go 67-93). *)
Definition AddOrUpdateConditionsOnNode (c : NCond) (rounds : list Round) (h : Hist) : Hist * option ApiError :=
  retry (tryCond c) true rounds h.

(* ---- the annotations of a rollout ---- *)

(* The nodes by name. External: the target cluster behind deployment_rolling.go 405, 461, 474. *)
Definition Nodes := string -> Hist.

(* Replace the history of one node. External: as for [Nodes], deployment_rolling.go 405, 474. *)
Definition setHist (n : string) (h : Hist) (ns : Nodes) : Nodes :=
  fun x => if String.eqb x n then h else ns x.

(* A MachineSet in these loops: [None] if its selector, the list of machines or
   the claiming fails, else the node label of each claimed machine, "" if it has none.
   deployment_rolling.go 384-402, 437-455. *)
Definition ASet := option (list string).

(* The loop over the machines in annotateNodesBackingMachineSets
   (deployment_rolling.go 404-416): errors are logged only. *)
Fixpoint annotateMachines (env : string -> list Round) (names : list string) (ns : Nodes) : Nodes :=
  match names with
  | [] => ns
  | n :: names' =>
      if String.eqb n "" then annotateMachines env names' ns
      else annotateMachines env names'
             (setHist n (fst (AddOrUpdateAnnotationOnNode (Some scaleDownAnnotations) (env n) (ns n))) ns)
  end.

(* annotateNodesBackingMachineSets (deployment_rolling.go 377-422); the first
   component of a set is whether the pointer is nil (381-383); the result says
   whether an error is returned. *)
Fixpoint annotateNodes (env : string -> list Round) (sets : list (option ASet)) (ns : Nodes) : Nodes * bool :=
  match sets with
  | [] => (ns, false)
  | None :: sets' => annotateNodes env sets' ns
  | Some None :: _ => (ns, true)
  | Some (Some names) :: sets' => annotateNodes env sets' (annotateMachines env names ns)
  end.

(* The loop over the machines in removeAutoscalerAnnotationsIfRequired
   (deployment_rolling.go 457-488): the first error ends it. *)
Fixpoint unannotateMachines (getFail : string -> option ReadError) (env : string -> list Round)
    (names : list string) (ns : Nodes) : Nodes * bool :=
  match names with
  | [] => (ns, false)
  | n :: names' =>
      if String.eqb n "" then unannotateMachines getFail env names' ns
      else match GetAnnotationsFromNode n (getFail n) (ns n) with
           | inr _ => (ns, true)
           | inl a =>
               match get ByMCM (match a with None => [] | Some m => m end) with
               | None => unannotateMachines getFail env names' ns
               | Some _ =>
                   let '(h, e) := RemoveAnnotationsOffNode n (Some scaleDownAnnotations) (env n) (ns n) in
                   match e with
                   | Some _ => (setHist n h ns, true)
                   | None => unannotateMachines getFail env names' (setHist n h ns)
                   end
               end
           end
  end.

(* removeAutoscalerAnnotationsIfRequired (deployment_rolling.go 433-492). *)
Fixpoint unannotateNodes (getFail : string -> option ReadError) (env : string -> list Round)
    (sets : list ASet) (ns : Nodes) : Nodes * bool :=
  match sets with
  | [] => (ns, false)
  | None :: _ => (ns, true)
  | Some names :: sets' =>
      match unannotateMachines getFail env names ns with
      | (ns', true) => (ns', true)
      | (ns', false) => unannotateNodes getFail env sets' ns'
      end
  end.

(* The replica counts of a MachineSet that machineSetsScaledToZero reads
   (deployment_rolling.go 424-431). *)
Record Counts := mkCounts {
  ctSpec : nat;
  ctAvailable : nat;
  ctLabelled : nat;
  ctReady : nat;
  ctReplicas : nat
}.

(* machineSetsScaledToZero (deployment_rolling.go 424-431): false only if some
   set has no zero among its five numbers. *)
Definition machineSetsScaledToZero (l : list Counts) : bool :=
  negb (existsb (fun c => negb (Nat.eqb (ctSpec c) 0) && negb (Nat.eqb (ctAvailable c) 0) &&
                          negb (Nat.eqb (ctLabelled c) 0) && negb (Nat.eqb (ctReady c) 0) &&
                          negb (Nat.eqb (ctReplicas c) 0)) l).

(* Whether a reconcile annotates the nodes (deployment_rolling.go 70-74,
   deployment_recreate.go 50-54). *)
Definition annotates (switchOn : bool) (old : list Counts) : bool :=
  switchOn && match old with [] => false | _ => true end && negb (machineSetsScaledToZero old).

(* ---- the termination condition ---- *)

(* NodeTerminationCondition (machineutils/utils.go 68). *)
Notation TerminatingType := "Terminating" (only parsing).

(* setTerminationReasonByPhase (machine_util.go 1630-1638): reason and message. *)
Definition terminationReason (phase : string) : string * string :=
  if String.eqb phase "Failed"
  then ("Unhealthy", "Machine Controller is terminating failed machine")
  else ("ScaleDown", "Machine Controller is scaling down machine").

(* getNodeCondition (conditions.go 49-57): the first of the type. *)
Definition getNodeCondition (l : list NCond) (t : string) : option NCond :=
  find (fun c => String.eqb (cType c) t) l.

(* The condition that is written (machine_util.go 1494-1517), given what is there. *)
Definition terminationCondition (phase : string) (now : nat) (old : option NCond) : NCond :=
  match old with
  | Some c => if String.eqb phase "Terminating"
              then mkNCond TerminatingType "True" (cReason c) (cMessage c) now now
              else let '(r, m) := terminationReason phase in mkNCond TerminatingType "True" r m now now
  | None => let '(r, m) := terminationReason phase in mkNCond TerminatingType "True" r m now now
  end.

(* UpdateNodeTerminationCondition (machine_util.go 1486-1524). [fail]: the error
   of the first read; [between]: what others write before the second one. *)
Definition UpdateNodeTerminationCondition (phase : string) (now : nat) (fail : option ReadError)
    (between : list (option NObj -> option NObj)) (rounds : list Round) (h : Hist) : Hist * option ApiError :=
  if String.eqb phase "" || String.eqb phase "CrashLoopBackOff" then (h, None)
  else
    match (match fail with
           | Some e => inr e
           | None => match current h with None => inr Absent | Some o => inl o end
           end) with
    | inr Absent => (h, None)
    | inr Unread => (h, Some Other)
    | inl o =>
        match AddOrUpdateConditionsOnNode
                (terminationCondition phase now (getNodeCondition (nConds o) TerminatingType))
                rounds (others between h) with
        | (h', Some NotFound) => (h', None)
        | r => r
        end
    end.
