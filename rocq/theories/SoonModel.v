(** When a machine is looked at again: the two reconcile functions of the machine
    controller with the retry periods they return, and a queue with a clock.
    Models pkg/util/provider/machineutils/utils.go 81-94, machinecontroller/machine.go
    109-290, 446-761, machine_util.go 503-575, 618-806, 825-865, 919-1036, 1051-1429,
    1640-1670 (the calls as in LifeModel, here with the results), pkg/util/worker/worker.go
    35-67, and the delaying queue of client-go (external, in broad lines).
    Simplifications: of an error only that there is one; time in milliseconds, compared
    in whole seconds where machine objects are compared with the clock. *)
Require Import Coq.ZArith.ZArith Coq.Lists.List Coq.Strings.String Coq.Bool.Bool Coq.Arith.PeanoNat Coq.NArith.NArith.
From Verif Require Import CodesModel MachModel LevModel HealthModel LifeModel.
Import ListNotations.
Open Scope string_scope.
Open Scope list_scope.
Open Scope Z_scope.

(** utils.go 87, in milliseconds. *)
Definition ConflictRetry : Z := 200.
(** utils.go 89. *)
Definition ShortRetry : Z := 5000.
(** utils.go 91. *)
Definition MediumRetry : Z := 180000.
(** utils.go 93. *)
Definition LongRetry : Z := 600000.
(** machine_util.go 732. *)
Definition sleepTime : Z := 60000.

(** A reconcile with its results: a retry period and whether there is an error. [RLater]:
    it adds its own key to the queue after a time (machine_util.go 784). machine.go 171-290. *)
Inductive rprog := RDone (retry : Z) (failed : bool) | RPanic | RLater (d : Z) (p : rprog) | RDo (c : Call) (k : Reply -> rprog).

(** apierrors.IsConflict: such an answer has the text "conflict" in LifeModel's apiWrite.
    machine_util.go 570, 793, 943. *)
Definition isConflict (e : string) : bool := String.eqb e "conflict".

(** An update that may fail: machine_util.go 563-575, 939-946, 790-801. *)
Definition written (r : Reply) (ok : rprog) : rprog :=
  match r with
  | RErr e => RDone (if isConflict e then ConflictRetry else ShortRetry) true
  | _ => ok
  end.

(** machine_util.go 545-575 and what its callers return: an error of the update with its
    period, else [retry] and [failed]. 527-542, 1015-1035, 1205-1234, 1284-1298, 1340-1369, 1404-1428. *)
Definition rStatusUpdate (m : MObj) (desc code state type : string) (cur : Z -> CurSt) (lks : string) (retry : Z) (failed : bool) : rprog :=
  RDo CNow (fun r => match r with
    | RTime now =>
        match machineStatusUpdate now m (mkOp desc code now state type) (cur now) lks with
        | Some s => RDo (WStatus (withStatus s m)) (fun r => written r (RDone retry failed))
        | None => RDone retry failed
        end
    | _ => RDone ShortRetry true
    end).

(** machine_util.go 1015-1035. *)
Definition rDeletionUpdate (m : MObj) (desc state type lks : string) (retry : Z) (failed : bool) : rprog :=
  rStatusUpdate m desc "" state type (fun _ => ms_cur (mo_status m)) lks retry failed.

(** machine_util.go 919-947: an error even when the update succeeds. *)
Definition rSetMachineTerminationStatus (m : MObj) : rprog :=
  RDo CNow (fun r => match r with
    | RTime now =>
        RDo (WStatus (withStatus (mkMS (ms_conds (mo_status m)) (mkOp GetVMStatus "" now "Processing" "Delete")
                                    (mkCur "Terminating" false now) (ms_lks (mo_status m))) m))
          (fun r => written r (RDone ShortRetry true))
    | _ => RDone ShortRetry true
    end).

(** machine_util.go 972-1006: the period after a failed GetMachineStatus. *)
Definition statusRetry (text : string) : Z :=
  let '(st, ok) := FromError text in
  if negb ok then LongRetry
  else if N.eqb (s_code st) cUnimplemented || N.eqb (s_code st) cNotFound ||
          N.eqb (s_code st) cUnknown || N.eqb (s_code st) cDeadlineExceeded || N.eqb (s_code st) cAborted || N.eqb (s_code st) cUnavailable ||
          N.eqb (s_code st) cUninitialized then ShortRetry
  else MediumRetry.

(** machine_util.go 967-971, 1008-1035, 1711-1725. *)
Definition rUpdateMachineNodeLabel (m : MObj) (node : string) : rprog :=
  RDo (WMeta (withLabels (put "node" node (mo_labels m)) m)) (fun r => match r with
    | RObj _ => rDeletionUpdate m InitiateDrain "Processing" "Delete" (ms_lks (mo_status m)) ShortRetry true
    | _ => RDone ShortRetry true
    end).

(** machine_util.go 950-1036 and 1727-1738. *)
Definition rUpdateMachineStatusAndNodeLabel (m : MObj) : rprog :=
  if negb (String.eqb (nodeName m) "") then rDeletionUpdate m InitiateDrain "Processing" "Delete" (ms_lks (mo_status m)) ShortRetry true
  else RDo (CFindNode m) (fun r => match r with
    | RStr node => rUpdateMachineNodeLabel m node
    | _ => RDo (CGetStatus m) (fun r => match r with
        | POk node _ _ => rUpdateMachineNodeLabel m node
        | PFail text _ =>
            let '(d, s) := statusFailure text in
            rDeletionUpdate m d s "Delete" (ms_lks (mo_status m)) (statusRetry text) true
        | _ => RDone ShortRetry true
        end)
    end).

(** machine_util.go 1132-1234: every result is an error. *)
Definition rRunDrain (m : MObj) (force : bool) : rprog :=
  RDo (CDrain m force) (fun r => match r with
    | RUnit =>
        if force then rDeletionUpdate m ("Force Drain successful. " ++ DelVolumesAttachments)%string "Processing" "Delete" (ms_lks (mo_status m)) ShortRetry true
        else rDeletionUpdate m ("Drain successful. " ++ InitiateVMDeletion)%string "Processing" "Delete" (ms_lks (mo_status m)) ShortRetry true
    | RErr e =>
        if force then
          rDeletionUpdate m ("Drain failed due to - " ++ e ++ ". However, since it's a force deletion shall continue deletion of VM. " ++ DelVolumesAttachments)%string
            "Processing" "Delete" (ms_lks (mo_status m)) ShortRetry true
        else rDeletionUpdate m ("Drain failed due to - " ++ e ++ ". Will retry in next sync. " ++ InitiateDrain)%string
               "Failed" "Delete" (ms_lks (mo_status m)) ShortRetry true
    | _ => RDone ShortRetry true
    end).

(** machine_util.go 1051-1235. *)
Definition rDrainNode (cf : Cfg) (m : MObj) : rprog :=
  if String.eqb (nodeName m) "" then
    rDeletionUpdate m ("Skipping drain as nodeName is not a valid one for machine. " ++ InitiateVMDeletion)%string
      "Processing" "Delete" (ms_lks (mo_status m)) ShortRetry true
  else RDo CNow (fun r => match r with
    | RTime now =>
        match mo_dt m with
        | None => RPanic
        | Some dt =>
            let force := notReadyLong now m || String.eqb (getS "force-deletion" (mo_labels m)) "True" || (0 <? (now - cf_drain cf) - dt) in
            RDo (CNodeCond m) (fun r => match r with
              | RUnit => rRunDrain m force
              | RErr e =>
                  if force then rRunDrain m force
                  else rDeletionUpdate m ("Drain failed due to failure in update of node conditions - " ++ e ++ ". Will retry in next sync. " ++ InitiateDrain)%string
                         "Failed" "Delete" (ms_lks (mo_status m)) ShortRetry true
              | _ => RDone ShortRetry true
              end)
        end
    | _ => RDone ShortRetry true
    end).

(** machine_util.go 1238-1299: nothing to wait for when the node is gone or has no volumes. *)
Definition rDeleteNodeVolAttachments (m : MObj) : rprog :=
  let upd d retry failed := rDeletionUpdate m d "Processing" (lo_type (ms_op (mo_status m))) (ms_lks (mo_status m)) retry failed in
  RDo (CVolumes m) (fun r => match r with
    | RMissing e => upd ("Skipping deleteNodeVolAttachments due to - " ++ e ++ ". Moving to VM Deletion. " ++ InitiateVMDeletion)%string 0 true
    | RBool false => upd ("Node Volumes for node: " ++ nodeName m ++ " are already detached. Moving to VM Deletion. " ++ InitiateVMDeletion)%string 0 false
    | RBool true =>
        RDo (CLiveVA m) (fun r => match r with
          | RBool true => RDo (CDelVA m) (fun _ => RDone ShortRetry false)
          | RBool false => upd ("No Live VolumeAttachments for node: " ++ nodeName m ++ ". Moving to VM Deletion. " ++ InitiateVMDeletion)%string ShortRetry false
          | _ => RDone ShortRetry true
          end)
    | _ => RDone ShortRetry true
    end).

(** machine_util.go 1312-1336: the period after a failed DeleteMachine. *)
Definition deleteRetry (text : string) : Z :=
  let '(st, ok) := FromError text in
  if ok && (N.eqb (s_code st) cUnknown || N.eqb (s_code st) cDeadlineExceeded || N.eqb (s_code st) cAborted ||
            N.eqb (s_code st) cUnavailable || N.eqb (s_code st) cNotFound) then ShortRetry else LongRetry.

(** machine_util.go 1302-1370. *)
Definition rDeleteVM (m : MObj) : rprog :=
  RDo (CDelete m) (fun r => match r with
    | POk _ _ lks => rDeletionUpdate m ("VM deletion was successful. " ++ InitiateNodeDeletion)%string "Processing" "Delete" lks ShortRetry true
    | PFail text resp =>
        let '(d, s) := deleteFailure text in
        rDeletionUpdate m d s "Delete" (match resp with Some (_, _, lks) => lks | None => "" end) (deleteRetry text) true
    | _ => RDone ShortRetry true
    end).

(** machine_util.go 1373-1429. *)
Definition rDeleteNodeObject (m : MObj) : rprog :=
  let lks := ms_lks (mo_status m) in
  if negb (String.eqb (nodeName m) "") then
    RDo (CDeleteNode m) (fun r => match r with
      | RUnit => rDeletionUpdate m ("Deletion of Node Object " ++ quote (nodeName m) ++ " is successful. " ++ InitiateFinalizerRemoval)%string "Processing" "Delete" lks ShortRetry true
      | RMissing _ => rDeletionUpdate m ("No node object found for " ++ quote (nodeName m) ++ ", continuing deletion flow. " ++ InitiateFinalizerRemoval)%string "Processing" "Delete" lks ShortRetry true
      | RErr e => rDeletionUpdate m ("Deletion of Node Object " ++ quote (nodeName m) ++ " failed due to error: " ++ e ++ ". " ++ InitiateNodeDeletion)%string "Failed" "Delete" lks ShortRetry true
      | _ => RDone ShortRetry true
      end)
  else rDeletionUpdate m ("Label " ++ quote "node" ++ " not present on machine " ++ quote (mo_name m) ++ " or no associated node object found, continuing deletion flow. " ++ InitiateFinalizerRemoval)%string
         "Processing" "Delete" lks ShortRetry true.

(** machine_util.go 846-865 with machine.go 736-742, 759-760. *)
Definition rDeleteMachineFinalizers (m : MObj) : rprog :=
  if hasFin m then
    RDo (WMeta (withFins (filter (fun f => negb (String.eqb MCM f)) (mo_fins m)) m))
      (fun r => match r with RErr _ => RDone ShortRetry true | _ => RDone LongRetry false end)
  else RDone LongRetry false.

(** machine.go 699-761. *)
Definition rTriggerDeletionFlow (cf : Cfg) (m : MObj) : rprog :=
  if negb (hasFin m) then RDone LongRetry true
  else if negb (String.eqb (phase m) "Terminating") then rSetMachineTerminationStatus m
  else if contains GetVMStatus (desc m) then rUpdateMachineStatusAndNodeLabel m
  else if contains InitiateDrain (desc m) then rDrainNode cf m
  else if contains DelVolumesAttachments (desc m) then rDeleteNodeVolAttachments m
  else if contains InitiateVMDeletion (desc m) then rDeleteVM m
  else if contains InitiateNodeDeletion (desc m) then rDeleteNodeObject m
  else if contains InitiateFinalizerRemoval (desc m) then rDeleteMachineFinalizers m
  else rSetMachineTerminationStatus m.

(** ValidateMachineClass, machine_util.go 76-118: [RErr] if class or secret cannot be read,
    [RMissing] if the class has no finalizer yet or a wrong node template. *)
Definition classRetry (r : Reply) : Z := match r with RErr _ => LongRetry | _ => ShortRetry end.

(** machine.go 240-290. *)
Definition rReconcileTermination (cf : Cfg) (m : MObj) : rprog :=
  RDo CClass (fun r => match r with RUnit => rTriggerDeletionFlow cf m | _ => RDone (classRetry r) true end).

(** machine_util.go 505-514: the period after a failed creation. *)
Definition createRetry (text : string) : Z :=
  let '(st, ok) := FromError text in
  if ok && (N.eqb (s_code st) cUnknown || N.eqb (s_code st) cDeadlineExceeded || N.eqb (s_code st) cAborted || N.eqb (s_code st) cUnavailable)
  then ShortRetry else MediumRetry.

(** machine_util.go 503-543. *)
Definition rMachineCreateErrorHandler (cf : Cfg) (m : MObj) (lks text : string) : rprog :=
  rStatusUpdate m ("Cloud provider message - " ++ text)%string (codeString (s_code (fst (FromError text)))) "Failed" "Create"
    (fun now => mkCur (createFailurePhase cf m now) false now)
    (if String.eqb lks "" then keptState m text else lks) (createRetry text) true.

(** machine.go 655-697 and its caller, 580-590: an error even when the VM is initialized. *)
Definition rInitializeMachine (cf : Cfg) (m : MObj) : rprog :=
  RDo (CInit m) (fun r => match r with
    | PFail text _ =>
        let '(st, ok) := FromError text in
        if negb ok then RDone LongRetry true
        else if N.eqb (s_code st) cUnimplemented then RDone ShortRetry true
        else rStatusUpdate m ("Provider error: " ++ text ++ ". " ++ InstanceInitialization)%string (codeString (s_code st)) "Failed" "Create"
               (fun now => mkCur (createFailurePhase cf m now) false now) (ms_lks (mo_status m)) ShortRetry true
    | _ => RDone ShortRetry true
    end).

(** machine.go 596-622. *)
Definition rSetPending (m : MObj) : rprog :=
  if String.eqb (phase m) "" || String.eqb (phase m) "CrashLoopBackOff" then
    RDo CNow (fun r => match r with
      | RTime now =>
          RDo (WStatus (withStatus (mkMS (ms_conds (mo_status m)) (mkOp "Creating machine on cloud provider" "" now "Processing" "Create")
                                      (mkCur "Pending" true now) (ms_lks (mo_status m))) m)) (fun _ => RDone ShortRetry true)
      | _ => RDone ShortRetry true
      end)
  else RDone LongRetry false.

(** machine.go 577-622 with 625-653. *)
Definition rFinishCreation (cf : Cfg) (m : MObj) (uninit : bool) (node pid : string) : rprog :=
  if negb (has "node" (mo_labels m)) || negb (has MachinePriority (mo_annots m)) || String.eqb (mo_pid m) "" then
    RDo (WMeta (labelled m node pid)) (fun r => match r with
      | RObj m' => if uninit then rInitializeMachine cf m' else RDone ShortRetry true
      | _ => if uninit then rInitializeMachine cf m else RDone ShortRetry true
      end)
  else if uninit then rInitializeMachine cf m else rSetPending m.

(** machine.go 492-562; after a stale node the error of DeleteMachine is returned. *)
Definition rCreateVM (cf : Cfg) (m : MObj) : rprog :=
  RDo (CCreate m) (fun r => match r with
    | PFail text resp => rMachineCreateErrorHandler cf m (match resp with Some (_, _, lks) => lks | None => "" end) text
    | POk node pid _ =>
        RDo (CStaleNode node) (fun r => match r with
          | RBool found =>
              if found && negb (String.eqb node (mo_name m)) then
                RDo (CDelete (withPid pid m)) (fun r =>
                  rStatusUpdate m "VM using old node obj" "" "Failed" "Create" (fun now => mkCur "Failed" false now) (ms_lks (mo_status m))
                    ShortRetry (match r with PFail _ _ => true | _ => false end))
              else rFinishCreation cf m true node pid
          | _ => RDone ShortRetry true
          end)
    | _ => RDone ShortRetry true
    end).

(** machine.go 446-623. *)
Definition rTriggerCreationFlow (cf : Cfg) (m : MObj) : rprog :=
  RDo (CSecret m) (fun r => match r with
    | RUnit =>
        RDo (CGetStatus m) (fun r => match r with
          | POk node pid _ => rFinishCreation cf m false node pid
          | PFail text resp =>
              let '(st, ok) := FromError text in
              if negb ok then RDone MediumRetry true
              else if N.eqb (s_code st) cNotFound || N.eqb (s_code st) cUnimplemented then
                if has "node" (mo_labels m) then rFinishCreation cf m false (nodeName m) ""
                else rCreateVM cf m
              else if N.eqb (s_code st) cUninitialized then
                match resp with
                | Some (node, pid, _) => rFinishCreation cf m true node pid
                | None => RPanic
                end
              else rMachineCreateErrorHandler cf m "" text
          | _ => RDone ShortRetry true
          end)
    | _ => RDone ShortRetry true
    end).

(** machine.go 225-237. *)
Definition rCreationIfNeeded (cf : Cfg) (m : MObj) : rprog :=
  if String.eqb (mo_pid m) "" || String.eqb (phase m) "" || String.eqb (phase m) "CrashLoopBackOff"
  then rTriggerCreationFlow cf m else RDone LongRetry false.

(** machine.go 207-237 with machine_util.go 618-806 and 1640-1670: a machine that still has
    time is queued for the next look before the rest is done (784); marking one as failed
    returns no error, so the rest is done, too. *)
Definition rHealthThenCreate (cf : Cfg) (m : MObj) : rprog :=
  let go := RDo (CSync m) (fun r => match r with RUnit => rCreationIfNeeded cf m | _ => written r (RDone ShortRetry true) end) in
  RDo (CNode m) (fun r => match r with
    | RNode a =>
        RDo CNow (fun r => match r with
          | RTime now =>
              match reconcileMachineHealth (cf_show cf) (cf_creation cf) (cf_health cf) (cf_bad cf) now a m with
              | HErr => RDone ShortRetry true
              | HWrite s => RDo (WStatus (withStatus s m)) (fun r => written r (RDone ShortRetry true))
              | HTryFail d s =>
                  RDo (CMayFail m) (fun r => match r with
                    | RBool true => RDo (WStatus (withStatus (failedStatus now d m s) m)) (fun r => match r with RObj _ => go | _ => RDone ShortRetry true end)
                    | _ => RDone ShortRetry true
                    end)
              | HWait => RLater sleepTime go
              | HNone => go
              end
          | _ => RDone ShortRetry true
          end)
    | _ => RDone ShortRetry true
    end).

(** machine.go 171-238. *)
Definition rReconcileMachine (cf : Cfg) (m : MObj) : rprog :=
  RDo CFrozen (fun r => match r with
    | RBool false =>
        RDo CClass (fun r => match r with
          | RUnit =>
              if negb (hasFin m) then RDo (WMeta (withFins (MCM :: mo_fins m) m)) (fun _ => RDone ShortRetry true)
              else if negb (String.eqb (nodeName m) "") && negb (String.eqb (phase m) "") then rHealthThenCreate cf m
              else rCreationIfNeeded cf m
          | _ => RDone (classRetry r) true
          end)
    | _ => RDone LongRetry true
    end).

(** One key of one queue, with a clock. [z_view]: what the machine cache shows; [z_queued]:
    the key is in the queue; [z_due]: when it gets there by AddAfter or AddRateLimited (the
    waiting heap of client-go's delaying queue has at most one entry for a key); [z_run]:
    the reconcile at work on it; [z_fails]: its failures as counted by the rate limiter;
    [z_dead]: the process has panicked. Kept for the statements: [z_ready], since when the
    key is in the queue with no reconcile at work on it; [z_began] and [z_end], when the
    last reconcile began and ended; [z_gone]: it found no machine it is responsible for;
    [z_log], the calls with their times, the newest first.
    worker.go 35-67 and machine.go 136-169, 240-290 (external: client-go). *)
Record ZW := mkZ {
  z_now : Z; z_view : option MObj; z_queued : bool; z_due : option Z; z_run : option rprog; z_fails : nat; z_dead : bool;
  z_ready : Z; z_began : Z; z_end : Z; z_gone : bool; z_log : list (Z * Call * Reply) }.

(** What happens next: time passes; the cache changes; a handler adds the key; a worker
    takes the key; the reconcile goes on with an answer to its call; the delay that the
    rate limiter gives to a failed key is [lim]. worker.go 35-67. *)
Inductive ZOp := ZTick (d : Z) | ZSee (v : option MObj) | ZAdd | ZStart | ZStep (r : Reply) (lim : Z).

(** Add to the queue. External: client-go (AddAfter with no delay; a key that is being
    worked on is put back when its reconcile ends). machine.go 101-124. *)
Definition zAdd (w : ZW) : ZW :=
  if z_queued w then w else
  mkZ (z_now w) (z_view w) true (z_due w) (z_run w) (z_fails w) (z_dead w)
    (z_now w) (z_began w) (z_end w) (z_gone w) (z_log w).

(** AddAfter. External: client-go; the earlier of two times wins. machine.go 109-114, 127-134. *)
Definition zAfter (d : Z) (w : ZW) : ZW :=
  if d <=? 0 then zAdd w else
  let t := z_now w + d in
  mkZ (z_now w) (z_view w) (z_queued w) (Some (match z_due w with Some u => Z.min u t | None => t end))
    (z_run w) (z_fails w) (z_dead w) (z_ready w) (z_began w) (z_end w) (z_gone w) (z_log w).

(** The clock moves; an entry of the heap whose time has come goes to the queue. External:
    client-go; worker.go 39. *)
Definition zTick (d : Z) (w : ZW) : ZW :=
  let t := z_now w + Z.abs d in
  let due := match z_due w with Some u => u <=? t | None => false end in
  mkZ t (z_view w) (z_queued w || due) (if due then None else z_due w) (z_run w) (z_fails w) (z_dead w)
    (if due && negb (z_queued w) then match z_due w with Some u => Z.max u (z_now w) | None => z_ready w end else z_ready w)
    (z_began w) (z_end w) (z_gone w) (z_log w).

(** The failures counted by the rate limiter. worker.go 47-63. *)
Definition zFails (n : nat) (w : ZW) : ZW :=
  mkZ (z_now w) (z_view w) (z_queued w) (z_due w) (z_run w) n (z_dead w)
    (z_ready w) (z_began w) (z_end w) (z_gone w) (z_log w).

(** What the worker does after the reconciler has returned: nothing more to wait for if
    there is no error; else AddRateLimited, up to 15 times. worker.go 46-63. *)
Definition zWorker (failed : bool) (lim : Z) (w : ZW) : ZW :=
  if negb failed then zFails 0 w
  else if (z_fails w <? 15)%nat then zFails (S (z_fails w)) (zAfter lim w)
  else zFails 0 w.

(** The reconcile has ended; a key that was added meanwhile is in the queue from now on.
    [gone]: there was no machine to reconcile. worker.go 44. *)
Definition zClose (gone : bool) (w : ZW) : ZW :=
  mkZ (z_now w) (z_view w) (z_queued w) (z_due w) None (z_fails w) (z_dead w)
    (z_now w) (z_began w) (z_now w) gone (z_log w).

(** The end of a reconcile of a machine. The machine queue never sees an error (machine.go
    160-168), the termination queue sees every one (281-289); both add the key again after
    the retry period. *)
Definition zFinish (t : bool) (retry : Z) (failed : bool) (lim : Z) (w : ZW) : ZW :=
  zClose false (zWorker (t && failed) lim (zAfter retry w)).

(** The reconcile goes on. No counterpart: between two calls of machine.go 136-290. *)
Definition zRun (p : option rprog) (w : ZW) : ZW :=
  mkZ (z_now w) (z_view w) (z_queued w) (z_due w) p (z_fails w) (z_dead w)
    (z_ready w) (z_began w) (z_end w) (z_gone w) (z_log w).

(** A worker takes the key: the machine queue (t = false) leaves out machines that are
    being deleted. machine.go 144-158, 248-255. *)
Definition zStart (cf : Cfg) (t : bool) (w : ZW) : ZW :=
  match z_run w with
  | Some _ => w
  | None =>
      if z_queued w then
        let w' := mkZ (z_now w) (z_view w) false (z_due w) None (z_fails w) (z_dead w)
                    (z_ready w) (z_now w) (z_end w) (z_gone w) (z_log w) in
        match z_view w with
        | None => zClose true (zFails 0 w')
        | Some m =>
            if t then zRun (Some (rReconcileTermination cf m)) w'
            else match mo_dt m with
                 | Some _ => zClose true (zFails 0 w')
                 | None => zRun (Some (rReconcileMachine cf m)) w'
                 end
        end
      else w
  end.

(** One step of the reconcile that is at work. machine.go 136-290. *)
Definition zStep (t : bool) (r : Reply) (lim : Z) (w : ZW) : ZW :=
  match z_run w with
  | None => w
  | Some (RDone retry failed) => zFinish t retry failed lim w
  | Some RPanic => mkZ (z_now w) (z_view w) (z_queued w) (z_due w) None (z_fails w) true
                     (z_ready w) (z_began w) (z_end w) (z_gone w) (z_log w)
  | Some (RLater d p) => zRun (Some p) (zAfter d w)
  | Some (RDo c k) =>
      let r' := match c with CNow => RTime (z_now w / 1000) | _ => r end in
      mkZ (z_now w) (z_view w) (z_queued w) (z_due w) (Some (k r')) (z_fails w) (z_dead w)
        (z_ready w) (z_began w) (z_end w) (z_gone w) ((z_now w, c, r') :: z_log w)
  end.

(** One step of the key's world; nothing happens after a panic (the process starts anew).
    worker.go 35-67 and machine.go 136-290. *)
Definition zstep (cf : Cfg) (t : bool) (w : ZW) (op : ZOp) : ZW :=
  if z_dead w then w else
  match op with
  | ZTick d => zTick d w
  | ZSee v => mkZ (z_now w) v (z_queued w) (z_due w) (z_run w) (z_fails w) (z_dead w)
                (z_ready w) (z_began w) (z_end w) (z_gone w) (z_log w)
  | ZAdd => zAdd w
  | ZStart => zStart cf t w
  | ZStep r lim => zStep t r lim w
  end.

(** A machine's key after the start of the controller: the informer's add handler has put
    it into the queue. machine.go 38-54. *)
Definition zinit (now : Z) (v : option MObj) : ZW := mkZ now v true None None 0 false now now now false [].
