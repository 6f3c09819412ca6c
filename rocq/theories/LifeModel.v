(** Creation and deletion of one machine: the two reconcile functions of the machine
    controller as programs that call out, and the world they run in.
    Models pkg/util/provider/machinecontroller/machine.go 136-290, 446-761 and
    machine_util.go 503-543, 601-614, 825-865, 919-1036, 1051-1429, 1526-1551, 1711-1752,
    machine_safety.go 225-300 for the VMs of one machine name.
    Simplifications: retry periods are left out (a key may be worked on again at any
    time); of the machine's configuration only the effective timeouts are kept; texts in
    a Go error that only go to the log are left out. *)
Require Import Coq.ZArith.ZArith Coq.Lists.List Coq.Strings.String Coq.Strings.Ascii Coq.Bool.Bool Coq.Arith.PeanoNat Coq.NArith.NArith.
From Verif Require Import CodesModel MachModel LevModel HealthModel.
Import ListNotations.
Open Scope string_scope.
Open Scope list_scope.
Open Scope Z_scope.

(** pkg/util/provider/machineutils/utils.go 17. *)
Definition GetVMStatus : string := "Set machine status to termination. Now, getting VM Status".
(** utils.go 20. *)
Definition InstanceInitialization : string := "Initialize VM Instance".
(** utils.go 23. *)
Definition InitiateDrain : string := "Initiate node drain".
(** utils.go 29. *)
Definition DelVolumesAttachments : string := "Delete Volume Attachments".
(** utils.go 32. *)
Definition InitiateVMDeletion : string := "Initiate VM deletion".
(** utils.go 35. *)
Definition InitiateNodeDeletion : string := "Initiate node object deletion".
(** utils.go 38. *)
Definition InitiateFinalizerRemoval : string := "Initiate machine object finalizer removal".
(** controller.go 48 of pkg/util/provider/machinecontroller. *)
Definition MCM : string := "machine.sapcloud.io/machine-controller-manager".
(** utils.go 46. *)
Definition MachinePriority : string := "machinepriority.machine.sapcloud.io".

(** strings.Contains(s, k). machine.go 714-735. *)
Fixpoint contains (k s : string) : bool :=
  String.prefix k s || match s with EmptyString => false | String _ r => contains k r end.

(** The effective settings of a machine (machine_util.go 1432-1485): drain timeout,
    creation timeout, health timeout, unhealthy conditions, and the rendering of texts. *)
Record Cfg := mkCfg { cf_drain : Z; cf_creation : Z; cf_health : Z; cf_bad : string; cf_show : Show }.

(** What a reconcile asks of others. Writes of the machine object go to the control
    cluster's API server, the VM calls to the provider's driver, the rest to listers, the
    target cluster and the clock. machine.go 136-761, lines at each case. *)
Inductive Call :=
| CClass                                (* ValidateMachineClass, machine.go 197, 263 *)
| CFrozen                               (* the freeze flag, machine.go 175 *)
| CNow                                  (* time.Now *)
| CNode (m : MObj)                      (* nodeLister.Get in the health check, machine_util.go 626 *)
| CMayFail (m : MObj)                   (* permit and count of replacements, machine_util.go 1630-1633 *)
| CSync (m : MObj)                      (* syncMachineNameToNode, syncMachineNodeTemplates, machine.go 218-226 *)
| CSecret (m : MObj)                    (* bootstrap token and user data, machine.go 459-464 *)
| CGetStatus (m : MObj)                 (* driver.GetMachineStatus *)
| CCreate (m : MObj)                    (* driver.CreateMachine *)
| CStaleNode (node : string)            (* nodeLister.Get, machine.go 514 *)
| CInit (m : MObj)                      (* driver.InitializeMachine *)
| CDelete (m : MObj)                    (* driver.DeleteMachine *)
| CFindNode (m : MObj)                  (* fetchMatchingNodeName, machine_util.go 1740-1752 *)
| CNodeCond (m : MObj)                  (* UpdateNodeTerminationCondition, machine_util.go 1487-1524 *)
| CDrain (m : MObj) (force : bool)      (* RunDrain, machine_util.go 1165 *)
| CVolumes (m : MObj)                   (* nodeLister.Get and the attached volumes, machine_util.go 1247-1259 *)
| CLiveVA (m : MObj)                    (* getLiveVolumeAttachmentsForNode, machine_util.go 1265 *)
| CDelVA (m : MObj)                     (* deleteVolumeAttachmentsForNode, machine_util.go 1271 *)
| CDeleteNode (m : MObj)                (* deletion of the node object, machine_util.go 1385 *)
| WMeta (m : MObj)                      (* Machines().Update *)
| WStatus (m : MObj).                   (* Machines().UpdateStatus *)

(** Answers. [POk] and [PFail] are the answers of the driver: node name, provider ID and
    last known state; an error text and possibly a response.
    The return values in machine.go 136-761 at the lines of [Call]. *)
Inductive Reply :=
| RUnit | RErr (text : string) | RMissing (text : string) | RBool (b : bool) | RTime (t : Z)
| RNode (a : NodeAns) | RStr (s : string) | RObj (m : MObj)
| POk (node pid lks : string) | PFail (text : string) (resp : option (string * string * string)).

(** A reconcile: it ends, the process panics, or it calls out and goes on with the answer.
    machine.go 136-290. *)
Inductive prog := Done | Panic | Do (c : Call) (k : Reply -> prog).

(** machine_util.go 545-575: the write after the similarity check. *)
Definition statusUpdate (m : MObj) (desc code state type : string) (cur : Z -> CurSt) (lks : string) : prog :=
  Do CNow (fun r => match r with
    | RTime now =>
        match machineStatusUpdate now m (mkOp desc code now state type) (cur now) lks with
        | Some s => Do (WStatus (withStatus s m)) (fun _ => Done)
        | None => Done
        end
    | _ => Done
    end).

(** The update with the current status left as it is, machine_util.go 1015-1030. *)
Definition deletionUpdate (m : MObj) (desc state type lks : string) : prog :=
  statusUpdate m desc "" state type (fun _ => ms_cur (mo_status m)) lks.

(** machine_util.go 919-947. *)
Definition setMachineTerminationStatus (m : MObj) : prog :=
  Do CNow (fun r => match r with
    | RTime now =>
        Do (WStatus (withStatus (mkMS (ms_conds (mo_status m)) (mkOp GetVMStatus "" now "Processing" "Delete")
                                   (mkCur "Terminating" false now) (ms_lks (mo_status m))) m)) (fun _ => Done)
    | _ => Done
    end).

(** machine_util.go 972-1001: description and state after a failed GetMachineStatus. *)
Definition statusFailure (text : string) : string * string :=
  let '(st, ok) := FromError text in
  if negb ok then
    (("Error occurred with decoding machine error status while getting VM status, aborting without retry. " ++ text ++ " " ++ GetVMStatus)%string, "Failed")
  else if N.eqb (s_code st) cUnimplemented then (InitiateDrain, "Processing")
  else if N.eqb (s_code st) cNotFound then (("VM was not found at provider. Moving forward to node drain. " ++ InitiateDrain)%string, "Processing")
  else if N.eqb (s_code st) cUnknown || N.eqb (s_code st) cDeadlineExceeded || N.eqb (s_code st) cAborted || N.eqb (s_code st) cUnavailable then
    (("Error occurred with decoding machine error status while getting VM status, aborting with retry. " ++ GetVMStatus)%string, "Failed")
  else if N.eqb (s_code st) cUninitialized then (("VM instance was not initialized. Moving forward to node drain. " ++ InitiateDrain)%string, "Processing")
  else (("Error occurred with decoding machine error status while getting VM status, aborting without retry. machine code: " ++ text ++ " " ++ GetVMStatus)%string, "Failed").

(** machine_util.go 1711-1725: the label is written, then the status goes on with the object as read. *)
Definition updateMachineNodeLabel (m : MObj) (node : string) : prog :=
  Do (WMeta (withLabels (put "node" node (mo_labels m)) m)) (fun r => match r with
    | RObj _ => deletionUpdate m InitiateDrain "Processing" "Delete" (ms_lks (mo_status m))
    | _ => Done
    end).

(** machine_util.go 950-1036 and 1727-1738. *)
Definition updateMachineStatusAndNodeLabel (m : MObj) : prog :=
  if negb (String.eqb (nodeName m) "") then deletionUpdate m InitiateDrain "Processing" "Delete" (ms_lks (mo_status m))
  else Do (CFindNode m) (fun r => match r with
    | RStr node => updateMachineNodeLabel m node
    | _ => Do (CGetStatus m) (fun r => match r with
        | POk node _ _ => updateMachineNodeLabel m node
        | PFail text _ =>
            let '(d, s) := statusFailure text in
            deletionUpdate m d s "Delete" (ms_lks (mo_status m))
        | _ => Done
        end)
    end).

(** machine_util.go 1082-1088: the last condition of a type. *)
Definition lastCond (t : string) (l : list NCond) : option NCond := byType t l.

(** machine_util.go 1097-1107: the node is reported not ready, or its file system read
    only, for more than five minutes. *)
Definition notReadyLong (now : Z) (m : MObj) : bool :=
  match lastCond "Ready" (ms_conds (mo_status m)) with
  | Some c => negb (String.eqb (nc_status c) "True") && (300 <? now - nc_trans c)
  | None => false
  end ||
  match lastCond "ReadonlyFilesystem" (ms_conds (mo_status m)) with
  | Some c => negb (String.eqb (nc_status c) "False") && (300 <? now - nc_trans c)
  | None => false
  end.

(** machine_util.go 1132-1189: the drain itself. *)
Definition runDrain (m : MObj) (force : bool) : prog :=
  Do (CDrain m force) (fun r => match r with
    | RUnit =>
        if force then deletionUpdate m ("Force Drain successful. " ++ DelVolumesAttachments)%string "Processing" "Delete" (ms_lks (mo_status m))
        else deletionUpdate m ("Drain successful. " ++ InitiateVMDeletion)%string "Processing" "Delete" (ms_lks (mo_status m))
    | RErr e =>
        if force then
          deletionUpdate m ("Drain failed due to - " ++ e ++ ". However, since it's a force deletion shall continue deletion of VM. " ++ DelVolumesAttachments)%string
            "Processing" "Delete" (ms_lks (mo_status m))
        else deletionUpdate m ("Drain failed due to - " ++ e ++ ". Will retry in next sync. " ++ InitiateDrain)%string
               "Failed" "Delete" (ms_lks (mo_status m))
    | _ => Done
    end).

(** machine_util.go 1051-1235. A machine without deletion timestamp makes line 1113 panic. *)
Definition drainNode (cf : Cfg) (m : MObj) : prog :=
  if String.eqb (nodeName m) "" then
    deletionUpdate m ("Skipping drain as nodeName is not a valid one for machine. " ++ InitiateVMDeletion)%string
      "Processing" "Delete" (ms_lks (mo_status m))
  else Do CNow (fun r => match r with
    | RTime now =>
        match mo_dt m with
        | None => Panic
        | Some dt =>
            let force := notReadyLong now m || String.eqb (getS "force-deletion" (mo_labels m)) "True" || (0 <? (now - cf_drain cf) - dt) in
            Do (CNodeCond m) (fun r => match r with
              | RUnit => runDrain m force
              | RErr e =>
                  if force then runDrain m force
                  else deletionUpdate m ("Drain failed due to failure in update of node conditions - " ++ e ++ ". Will retry in next sync. " ++ InitiateDrain)%string
                         "Failed" "Delete" (ms_lks (mo_status m))
              | _ => Done
              end)
        end
    | _ => Done
    end).

(** machine_util.go 1238-1299. [RBool]: volumes are attached to the node; live
    attachments exist. *)
Definition deleteNodeVolAttachments (m : MObj) : prog :=
  let upd d := deletionUpdate m d "Processing" (lo_type (ms_op (mo_status m))) (ms_lks (mo_status m)) in
  Do (CVolumes m) (fun r => match r with
    | RMissing e => upd ("Skipping deleteNodeVolAttachments due to - " ++ e ++ ". Moving to VM Deletion. " ++ InitiateVMDeletion)%string
    | RBool false => upd ("Node Volumes for node: " ++ nodeName m ++ " are already detached. Moving to VM Deletion. " ++ InitiateVMDeletion)%string
    | RBool true =>
        Do (CLiveVA m) (fun r => match r with
          | RBool true => Do (CDelVA m) (fun _ => Done)
          | RBool false => upd ("No Live VolumeAttachments for node: " ++ nodeName m ++ ". Moving to VM Deletion. " ++ InitiateVMDeletion)%string
          | _ => Done
          end)
    | _ => Done
    end).

(** machine_util.go 1312-1336: description and state after a failed DeleteMachine. *)
Definition deleteFailure (text : string) : string * string :=
  let '(st, ok) := FromError text in
  if ok then
    if N.eqb (s_code st) cUnknown || N.eqb (s_code st) cDeadlineExceeded || N.eqb (s_code st) cAborted || N.eqb (s_code st) cUnavailable then
      (("VM deletion failed due to - " ++ text ++ ". However, will re-try in the next resync. " ++ InitiateVMDeletion)%string, "Failed")
    else if N.eqb (s_code st) cNotFound then (("VM not found. Continuing deletion flow. " ++ InitiateNodeDeletion)%string, "Processing")
    else (("VM deletion failed due to - " ++ text ++ ". Aborting operation. " ++ InitiateVMDeletion)%string, "Failed")
  else (("Error occurred while decoding machine error: " ++ text ++ ". " ++ InitiateVMDeletion)%string, "Failed").

(** machine_util.go 1302-1370. *)
Definition deleteVM (m : MObj) : prog :=
  Do (CDelete m) (fun r => match r with
    | POk _ _ lks => deletionUpdate m ("VM deletion was successful. " ++ InitiateNodeDeletion)%string "Processing" "Delete" lks
    | PFail text resp =>
        let '(d, s) := deleteFailure text in
        deletionUpdate m d s "Delete" (match resp with Some (_, _, lks) => lks | None => "" end)
    | _ => Done
    end).

(** strconv quoting of a Go %q verb, for texts without special characters.
    machine_util.go 1388-1402 (external: fmt). *)
Definition quote (s : string) : string := (String """"%char s ++ String """"%char "")%string.

(** machine_util.go 1373-1429. *)
Definition deleteNodeObject (m : MObj) : prog :=
  let lks := ms_lks (mo_status m) in
  if negb (String.eqb (nodeName m) "") then
    Do (CDeleteNode m) (fun r => match r with
      | RUnit => deletionUpdate m ("Deletion of Node Object " ++ quote (nodeName m) ++ " is successful. " ++ InitiateFinalizerRemoval)%string "Processing" "Delete" lks
      | RMissing _ => deletionUpdate m ("No node object found for " ++ quote (nodeName m) ++ ", continuing deletion flow. " ++ InitiateFinalizerRemoval)%string "Processing" "Delete" lks
      | RErr e => deletionUpdate m ("Deletion of Node Object " ++ quote (nodeName m) ++ " failed due to error: " ++ e ++ ". " ++ InitiateNodeDeletion)%string "Failed" "Delete" lks
      | _ => Done
      end)
  else deletionUpdate m ("Label " ++ quote "node" ++ " not present on machine " ++ quote (mo_name m) ++ " or no associated node object found, continuing deletion flow. " ++ InitiateFinalizerRemoval)%string
         "Processing" "Delete" lks.

(** sets.NewString(finalizers...).Has(name), machine_util.go 826, 848. *)
Definition hasFin (m : MObj) : bool := existsb (String.eqb MCM) (mo_fins m).

(** machine_util.go 846-865. The list that Go writes is sorted. *)
Definition deleteMachineFinalizers (m : MObj) : prog :=
  if hasFin m then Do (WMeta (withFins (filter (fun f => negb (String.eqb MCM f)) (mo_fins m)) m)) (fun _ => Done) else Done.

(** machine.go 699-761. *)
Definition triggerDeletionFlow (cf : Cfg) (m : MObj) : prog :=
  if negb (hasFin m) then Done
  else if negb (String.eqb (phase m) "Terminating") then setMachineTerminationStatus m
  else if contains GetVMStatus (desc m) then updateMachineStatusAndNodeLabel m
  else if contains InitiateDrain (desc m) then drainNode cf m
  else if contains DelVolumesAttachments (desc m) then deleteNodeVolAttachments m
  else if contains InitiateVMDeletion (desc m) then deleteVM m
  else if contains InitiateNodeDeletion (desc m) then deleteNodeObject m
  else if contains InitiateFinalizerRemoval (desc m) then deleteMachineFinalizers m
  else setMachineTerminationStatus m.

(** machine.go 240-290. *)
Definition reconcileTermination (cf : Cfg) (m : MObj) : prog :=
  Do CClass (fun r => match r with RUnit => triggerDeletionFlow cf m | _ => Done end).

(** machine_util.go 601-614. *)
Definition createFailurePhase (cf : Cfg) (m : MObj) (now : Z) : string :=
  if 0 <? (now - cf_creation cf) - mo_created m then "Failed" else "CrashLoopBackOff".

(** machine_util.go 505-514: the state kept when the provider returned none. *)
Definition keptState (m : MObj) (text : string) : string :=
  let '(st, ok) := FromError text in
  if ok && (N.eqb (s_code st) cUnknown || N.eqb (s_code st) cDeadlineExceeded || N.eqb (s_code st) cAborted || N.eqb (s_code st) cUnavailable)
  then ms_lks (mo_status m) else "".

(** machine_util.go 503-543; [lks] is the state in the response, "" if there is none. *)
Definition machineCreateErrorHandler (cf : Cfg) (m : MObj) (lks text : string) : prog :=
  statusUpdate m ("Cloud provider message - " ++ text)%string (codeString (s_code (fst (FromError text)))) "Failed" "Create"
    (fun now => mkCur (createFailurePhase cf m now) false now)
    (if String.eqb lks "" then keptState m text else lks).

(** machine.go 655-697. *)
Definition initializeMachine (cf : Cfg) (m : MObj) : prog :=
  Do (CInit m) (fun r => match r with
    | PFail text _ =>
        let '(st, ok) := FromError text in
        if negb ok then Done
        else if N.eqb (s_code st) cUnimplemented then Done
        else statusUpdate m ("Provider error: " ++ text ++ ". " ++ InstanceInitialization)%string (codeString (s_code st)) "Failed" "Create"
               (fun now => mkCur (createFailurePhase cf m now) false now) (ms_lks (mo_status m))
    | _ => Done
    end).

(** metav1.HasLabel / HasAnnotation: the key is present. *)
Definition has (k : string) (l : list (string * string)) : bool := match get k l with Some _ => true | None => false end.

(** machine.go 628, 636-641: the object that updateLabels writes. *)
Definition labelled (m : MObj) (node pid : string) : MObj :=
  mkMO (mo_name m) (mo_uid m) (mo_rv m) (mo_created m) (mo_dt m) (mo_fins m)
    (put "node" node (mo_labels m))
    (if String.eqb (getS MachinePriority (mo_annots m)) "" then put MachinePriority "3" (mo_annots m) else mo_annots m)
    pid (mo_status m).

(** machine.go 596-621: the phase becomes Pending. *)
Definition setPending (m : MObj) : prog :=
  if String.eqb (phase m) "" || String.eqb (phase m) "CrashLoopBackOff" then
    Do CNow (fun r => match r with
      | RTime now =>
          Do (WStatus (withStatus (mkMS (ms_conds (mo_status m)) (mkOp "Creating machine on cloud provider" "" now "Processing" "Create")
                                     (mkCur "Pending" true now) (ms_lks (mo_status m))) m)) (fun _ => Done)
      | _ => Done
      end)
  else Done.

(** machine.go 577-621 with 625-653: record node and provider ID, initialize, go to Pending. *)
Definition finishCreation (cf : Cfg) (m : MObj) (uninit : bool) (node pid : string) : prog :=
  if negb (has "node" (mo_labels m)) || negb (has MachinePriority (mo_annots m)) || String.eqb (mo_pid m) "" then
    Do (WMeta (labelled m node pid)) (fun r => match r with
      | RObj m' => if uninit then initializeMachine cf m' else Done
      | _ => if uninit then initializeMachine cf m else Done
      end)
  else if uninit then initializeMachine cf m else setPending m.

(** machine.go 520-528: the request for the VM that came up under a stale node name. *)
Definition withPid (pid : string) (m : MObj) : MObj :=
  mkMO (mo_name m) (mo_uid m) (mo_rv m) (mo_created m) (mo_dt m) (mo_fins m) (mo_labels m) (mo_annots m) pid (mo_status m).

(** machine.go 492-562: create a VM. *)
Definition createVM (cf : Cfg) (m : MObj) : prog :=
  Do (CCreate m) (fun r => match r with
    | PFail text resp => machineCreateErrorHandler cf m (match resp with Some (_, _, lks) => lks | None => "" end) text
    | POk node pid _ =>
        Do (CStaleNode node) (fun r => match r with
          | RBool found =>
              if found && negb (String.eqb node (mo_name m)) then
                Do (CDelete (withPid pid m)) (fun _ =>
                  statusUpdate m "VM using old node obj" "" "Failed" "Create" (fun now => mkCur "Failed" false now) (ms_lks (mo_status m)))
              else finishCreation cf m true node pid
          | _ => Done
          end)
    | _ => Done
    end).

(** machine.go 446-623. An error with code Uninitialized and no response makes line 569 panic. *)
Definition triggerCreationFlow (cf : Cfg) (m : MObj) : prog :=
  Do (CSecret m) (fun r => match r with
    | RUnit =>
        Do (CGetStatus m) (fun r => match r with
          | POk node pid _ => finishCreation cf m false node pid
          | PFail text resp =>
              let '(st, ok) := FromError text in
              if negb ok then Done
              else if N.eqb (s_code st) cNotFound || N.eqb (s_code st) cUnimplemented then
                if has "node" (mo_labels m) then finishCreation cf m false (nodeName m) ""
                else createVM cf m
              else if N.eqb (s_code st) cUninitialized then
                match resp with
                | Some (node, pid, _) => finishCreation cf m true node pid
                | None => Panic
                end
              else machineCreateErrorHandler cf m "" text
          | _ => Done
          end)
    | _ => Done
    end).

(** machine.go 225-235: the creation flow runs as long as something is missing. *)
Definition creationIfNeeded (cf : Cfg) (m : MObj) : prog :=
  if String.eqb (mo_pid m) "" || String.eqb (phase m) "" || String.eqb (phase m) "CrashLoopBackOff"
  then triggerCreationFlow cf m else Done.

(** machine.go 207-223 with machine_util.go 618-806 and 1629-1665: health check and
    synchronisation to the node, then creation. *)
Definition healthThenCreate (cf : Cfg) (m : MObj) : prog :=
  let go := Do (CSync m) (fun r => match r with RUnit => creationIfNeeded cf m | _ => Done end) in
  Do (CNode m) (fun r => match r with
    | RNode a =>
        Do CNow (fun r => match r with
          | RTime now =>
              match reconcileMachineHealth (cf_show cf) (cf_creation cf) (cf_health cf) (cf_bad cf) now a m with
              | HErr => Done
              | HWrite s => Do (WStatus (withStatus s m)) (fun _ => Done)
              | HTryFail d s =>
                  Do (CMayFail m) (fun r => match r with
                    | RBool true => Do (WStatus (withStatus (failedStatus now d m s) m)) (fun r => match r with RObj _ => go | _ => Done end)
                    | _ => Done
                    end)
              | HWait | HNone => go
              end
          | _ => Done
          end)
    | _ => Done
    end).

(** machine.go 171-238. *)
Definition reconcileMachine (cf : Cfg) (m : MObj) : prog :=
  Do CFrozen (fun r => match r with
    | RBool false =>
        Do CClass (fun r => match r with
          | RUnit =>
              if negb (hasFin m) then Do (WMeta (withFins (MCM :: mo_fins m) m)) (fun _ => Done)
              else if negb (String.eqb (nodeName m) "") && negb (String.eqb (phase m) "") then healthThenCreate cf m
              else creationIfNeeded cf m
          | _ => Done
          end)
    | _ => Done
    end).

(** Who acts: the machine queue, the termination queue, the orphan collection.
    machinecontroller/controller.go 272-323. *)
Inductive Who := QC | QT | QO.

(** A log entry: a call that was made, and its answer.
    No counterpart: record of the calls of machine.go 136-761. *)
Definition Event : Type := (Who * Call * Reply)%type.

(** The world of one machine name. [w_view] is what the machine cache shows, [w_pend] the
    later states it has not seen yet; the last of them is [w_obj], what the API server
    stores. [w_tq]: the key is in the termination queue. [w_c], [w_t]: the reconciles that
    are running (a queue runs one at a time per key). [w_vms]: provider IDs of the VMs
    that carry the machine's name. [w_vers]: every stored version; [w_log]: all calls, the
    newest first. Listers, queues and API server around machine.go 136-761. *)
Record World := mkW {
  w_obj : option MObj; w_view : option MObj; w_pend : list (option MObj); w_next : nat; w_uids : nat;
  w_now : Z; w_tq : bool; w_c : option prog; w_t : option prog; w_vms : list string;
  w_vers : list MObj; w_log : list Event }.

(** How a write ends: stored; not stored, an error is reported; stored, but an error is
    reported (the answer got lost).
    The error results at machine_util.go 503-575 (external: API server). *)
Inductive Fate := Applied | Dropped | Lost.

(** What can happen next. machine.go 136-761 where the controller acts; else the surroundings. *)
Inductive Op :=
| OCreate (labels annots : list (string * string)) (fins : list string) (pid : string) (* a Machine object is created under the name *)
| ODelete                              (* deletion of the object is requested *)
| OSetLabel (k v : string)             (* anybody sets a label other than "node" *)
| OSetAnnot (k v : string)             (* anybody sets an annotation *)
| OAddFin (f : string)                 (* anybody adds a finalizer *)
| OSetStatus                           (* the MachineSet controller writes its status, machineset.go 693-707 *)
| OAdvance                             (* the cache sees the next state *)
| OStart (t : bool)                    (* a reconcile of a queue starts: termination or not *)
| OStep (t : bool) (r : Reply) (f : Fate) (vms : list string) (* a reconcile makes its next call *)
| OOrphan (pid : string) (r : Reply) (vms : list string)      (* orphan collection looks at one listed VM *)
| OVms (vms : list string)             (* VMs change by themselves *)
| OTick (d : Z)                        (* time passes *)
| OCrash.                              (* the machine controller dies and starts again *)

(** Equality of the contents of two objects (used to see that an update changes nothing).
    External: API server; no counterpart in machine.go 136-761. *)
Definition MObj_eq_dec (a b : MObj) : {a = b} + {a <> b}.
Proof. repeat decide equality. Defined.

(** The object as stored after an update of everything but the status (the CRD has a
    status subresource; the deletion timestamp cannot be changed by an update).
    machine_types.go 29. *)
Definition mergeMeta (o m : MObj) : MObj :=
  mkMO (mo_name o) (mo_uid o) (mo_rv o) (mo_created o) (mo_dt o) (mo_fins m) (mo_labels m) (mo_annots m) (mo_pid m) (mo_status o).

(** The object as stored after an update of the status subresource. machine_types.go 29. *)
Definition mergeStatus (o m : MObj) : MObj := withStatus (mo_status m) o.

(** A new resource version.
    machine_types.go 36-60, metadata.resourceVersion (external: API server). *)
Definition withRv (n : nat) (m : MObj) : MObj :=
  mkMO (mo_name m) (mo_uid m) n (mo_created m) (mo_dt m) (mo_fins m) (mo_labels m) (mo_annots m) (mo_pid m) (mo_status m).

(** A deletion timestamp.
    machine_types.go 36-60, metadata.deletionTimestamp (external: API server). *)
Definition withDt (t : Z) (m : MObj) : MObj :=
  mkMO (mo_name m) (mo_uid m) (mo_rv m) (mo_created m) (Some t) (mo_fins m) (mo_labels m) (mo_annots m) (mo_pid m) (mo_status m).

(** The API server stores object [n] in place of the present one: nothing changes if it
    is the same; an object that is being deleted goes away with its last finalizer.
    External; the calls are at machine_util.go 503-575. *)
Definition store (w : World) (o n : MObj) : World :=
  if MObj_eq_dec o n then w else
  let n' := withRv (w_next w) n in
  let st := match mo_dt n', mo_fins n' with Some _, [] => None | _, _ => Some n' end in
  mkW st (w_view w) (w_pend w ++ [st]) (S (w_next w)) (w_uids w) (w_now w) (w_tq w) (w_c w) (w_t w) (w_vms w) (n' :: w_vers w) (w_log w).

(** What the API server stores for a write of [m] over [o], if the write is accepted.
    External: optimistic locking; the calls are at machine_util.go 503-575. *)
Definition accepted (w : World) (merge : MObj -> MObj -> MObj) (m : MObj) : option (MObj * MObj) :=
  match w_obj w with
  | Some o => if (Nat.eqb (mo_rv o) (mo_rv m) && Nat.eqb (mo_uid o) (mo_uid m))%bool then Some (o, merge o m) else None
  | None => None
  end.

(** One write: new world and answer. External; the calls are at machine_util.go 503-575. *)
Definition apiWrite (w : World) (merge : MObj -> MObj -> MObj) (m : MObj) (f : Fate) : World * Reply :=
  match f, accepted w merge m with
  | Dropped, _ => (w, RErr "failed")
  | _, None => (w, RErr "conflict")
  | Applied, Some (o, n) =>
      let w' := store w o n in
      (w', RObj (if MObj_eq_dec o n then o else withRv (w_next w) n))
  | Lost, Some (o, n) => (store w o n, RErr "timeout")
  end.

(** Replacing parts of the world.
    No counterpart: one reconcile per key and queue (worker.go 24-68). *)
Definition setSlots (w : World) (c t : option prog) : World :=
  mkW (w_obj w) (w_view w) (w_pend w) (w_next w) (w_uids w) (w_now w) (w_tq w) c t (w_vms w) (w_vers w) (w_log w).
(** Another log and list of VMs. No counterpart: record of the calls of machine.go 136-761. *)
Definition setLog (w : World) (l : list Event) (vms : list string) : World :=
  mkW (w_obj w) (w_view w) (w_pend w) (w_next w) (w_uids w) (w_now w) (w_tq w) (w_c w) (w_t w) vms (w_vers w) l.

(** A dead controller: nothing runs; on restart every listed machine with a deletion
    timestamp is put into the termination queue (machine.go 38-54). *)
Definition crash (w : World) : World :=
  mkW (w_obj w) (w_view w) (w_pend w) (w_next w) (w_uids w) (w_now w)
    (match w_view w with Some m => match mo_dt m with Some _ => true | None => false end | None => false end)
    None None (w_vms w) (w_vers w) (w_log w).

(** The VM calls are the ones that can change the VMs.
    machine.go 495, 526, machine_util.go 1311, machine_safety.go 283 (external: the driver). *)
Definition vmsAfter (w : World) (c : Call) (vms : list string) : list string :=
  match c with CCreate _ | CDelete _ => vms | _ => w_vms w end.

(** A call of a reconcile: world after it, and the answer.
    External; called in machine.go 136-761, lines at each case of [Call]. *)
Definition perform (w : World) (who : Who) (c : Call) (r : Reply) (f : Fate) (vms : list string) : World * Reply :=
  let '(w', r') := match c with
                   | CNow => (w, RTime (w_now w))
                   | WMeta m => apiWrite w mergeMeta m f
                   | WStatus m => apiWrite w mergeStatus m f
                   | _ => (w, r)
                   end in
  (setLog w' ((who, c, r') :: w_log w') (vmsAfter w c vms), r').

(** machine.go 136-160 and 240-259: what a queue does with its key. *)
Definition start (cf : Cfg) (w : World) (t : bool) : World :=
  match w_view w with
  | None => if t then mkW (w_obj w) (w_view w) (w_pend w) (w_next w) (w_uids w) (w_now w) false (w_c w) (w_t w) (w_vms w) (w_vers w) (w_log w) else w
  | Some m =>
      if t then setSlots w (w_c w) (Some (reconcileTermination cf m))
      else match mo_dt m with
           | Some _ => w
           | None => setSlots w (Some (reconcileMachine cf m)) (w_t w)
           end
  end.

(** machine_safety.go 255-272: whether orphan collection leaves a listed VM alone. *)
Definition spared (view : option MObj) (pid : string) : bool :=
  match view with
  | Some m => String.eqb (mo_pid m) pid || String.eqb (phase m) "" || String.eqb (phase m) "CrashLoopBackOff"
  | None => false
  end.

(** machine_safety.go 275-284: the request made for an orphan. *)
Definition orphanObj (pid : string) : MObj :=
  mkMO "" 0 0 0 None [] [] [] pid (mkMS [] (mkOp "" "" 0 "" "") (mkCur "" false 0) "").

(** machineset.go 693-707 with 795-841: the status of the stored object is replaced. *)
Definition setTerminating (now : Z) (o : MObj) : MObj :=
  withStatus (mkMS (ms_conds (mo_status o)) (mkOp "Deleting machine from cloud provider" "" now "Processing" "Delete")
                (mkCur "Terminating" false now) (ms_lks (mo_status o))) o.

(** One step of the world. machine.go 136-290 and its surroundings, lines at each case of [Op]. *)
Definition step (cf : Cfg) (w : World) (op : Op) : World :=
  match op with
  | OCreate labels annots fins pid =>
      match w_obj w with
      | Some _ => w
      | None =>
          let m := mkMO "m" (S (w_uids w)) (w_next w) (w_now w) None fins labels annots pid
                     (mkMS [] (mkOp "" "" 0 "" "") (mkCur "" false 0) "") in
          mkW (Some m) (w_view w) (w_pend w ++ [Some m]) (S (w_next w)) (S (w_uids w)) (w_now w) (w_tq w) (w_c w) (w_t w) (w_vms w) (m :: w_vers w) (w_log w)
      end
  | ODelete =>
      match w_obj w with
      | Some o => match mo_dt o with Some _ => w | None => store w o (withDt (w_now w) o) end
      | None => w
      end
  | OSetLabel k v =>
      match w_obj w with
      | Some o => if String.eqb k "node" then w else store w o (withLabels (put k v (mo_labels o)) o)
      | None => w
      end
  | OSetAnnot k v =>
      match w_obj w with
      | Some o => store w o (mkMO (mo_name o) (mo_uid o) (mo_rv o) (mo_created o) (mo_dt o) (mo_fins o) (mo_labels o) (put k v (mo_annots o)) (mo_pid o) (mo_status o))
      | None => w
      end
  | OAddFin f => match w_obj w with Some o => store w o (withFins (f :: mo_fins o) o) | None => w end
  | OSetStatus => match w_obj w with Some o => store w o (setTerminating (w_now w) o) | None => w end
  | OAdvance =>
      match w_pend w with
      | [] => w
      | v :: r =>
          let enq := match v with
                     | Some m => match mo_dt m with Some _ => true | None => w_tq w end
                     | None => true
                     end in
          mkW (w_obj w) v r (w_next w) (w_uids w) (w_now w) enq (w_c w) (w_t w) (w_vms w) (w_vers w) (w_log w)
      end
  | OStart t =>
      match (if t then w_t w else w_c w) with
      | Some _ => w
      | None => if t && negb (w_tq w) then w else start cf w t
      end
  | OStep t r f vms =>
      match (if t then w_t w else w_c w) with
      | None => w
      | Some Done => if t then setSlots w (w_c w) None else setSlots w None (w_t w)
      | Some Panic => crash w
      | Some (Do c k) =>
          let '(w', r') := perform w (if t then QT else QC) c r f vms in
          if t then setSlots w' (w_c w') (Some (k r')) else setSlots w' (Some (k r')) (w_t w')
      end
  | OOrphan pid r vms =>
      if spared (w_view w) pid then w
      else setLog w ((QO, CDelete (orphanObj pid), r) :: w_log w) vms
  | OVms vms => setLog w (w_log w) vms
  | OTick d => mkW (w_obj w) (w_view w) (w_pend w) (w_next w) (w_uids w) (w_now w + Z.abs d) (w_tq w) (w_c w) (w_t w) (w_vms w) (w_vers w) (w_log w)
  | OCrash => crash w
  end.

(** A history. machinecontroller/controller.go 272-323, any interleaving. *)
Definition run (cf : Cfg) (w : World) (ops : list Op) : World := fold_left (step cf) ops w.

(** No object under the name, nothing running, no VM.
    machinecontroller/controller.go 272-323 at the start. *)
Definition init (now : Z) : World := mkW None None [] 1 0 now false None None [] [] [].
