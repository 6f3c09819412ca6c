(** The repository's own tests of the creation and the deletion flow, run on [LifeModel].
    Evidence that the model is the code; no claim rests on this file. Tests in
    pkg/util/provider/machinecontroller: machine_test.go 419-1112 and 1168-3106 (1113-1165 and 3108-3570 are
    commented out there). The retry periods that they look at are not in the model. *)
Require Import Coq.ZArith.ZArith Coq.Lists.List Coq.Strings.String Coq.Strings.Ascii Coq.Bool.Bool Coq.NArith.NArith.
From Verif Require Import CodesModel MachModel LevModel HealthModel LifeModel.
Import ListNotations.
Open Scope string_scope.
Open Scope list_scope.
Open Scope Z_scope.

(** pkg/util/provider/driver/fake.go, its state and answers: is there a VM, its provider ID, its node, the
    error that the calls return. The rest is the target cluster: the nodes there, and whether
    updates of nodes fail (machine_test.go 1203-1240). *)
Record Fake := mkFake { fk_exists : bool; fk_pid : string; fk_node : string; fk_err : option string; fk_nodes : list string; fk_updates : bool }.

(** The answer to a call; [exists_]: is there a VM now. The time is 100000. *)
Definition fakeReply (f : Fake) (exists_ : bool) (c : Call) : Reply :=
  match c with
  | CNow => RTime 100000
  | CFrozen => RBool false
  | CGetStatus _ =>
      if exists_ then
        match fk_err f with Some e => PFail e (Some (fk_node f, fk_pid f, "")) | None => POk (fk_node f) (fk_pid f) "" end
      else PFail (errorText (mkStatus cNotFound "Fake plugin is returning no VM instances backing this machine object")) None
  | CCreate _ => match fk_err f with Some e => PFail e None | None => POk (fk_node f) (fk_pid f) "" end
  | CInit _ => match fk_err f with Some e => PFail e None | None => POk (fk_node f) (fk_pid f) "" end
  | CDelete _ => match fk_err f with Some e => PFail e (Some ("", "", "")) | None => POk "" "" "" end
  | CStaleNode n => RBool (existsb (String.eqb n) (fk_nodes f))
  | CNodeCond m => if fk_updates f then RUnit else
      RErr ("failed to create update conditions for node " ++ quote (nodeName m) ++ ": Failed to update node")%string
  | CDrain _ _ => if fk_updates f then RUnit else RErr "Failed to update node"
  | CDeleteNode m => if existsb (String.eqb (nodeName m)) (fk_nodes f) then RUnit else RMissing ""
  | CFindNode _ => RMissing ""
  | _ => RUnit
  end.

(** A reconcile against the fakes: the object that is stored in the end, and whether there is a VM.
    Every write succeeds. *)
Fixpoint exec (f : Fake) (vm : bool) (stored : MObj) (p : prog) : MObj * bool :=
  match p with
  | Done | Panic => (stored, vm)
  | Do (WMeta m) k => let s := mergeMeta stored m in exec f vm s (k (RObj s))
  | Do (WStatus m) k => let s := mergeStatus stored m in exec f vm s (k (RObj s))
  | Do c k =>
      let r := fakeReply f vm c in
      exec f (match c, r with CCreate _, POk _ _ _ | CInit _, POk _ _ _ => true | CDelete _, _ => false | _, _ => vm end) stored (k r)
  end.

(** The tests' timeouts: creation 20 minutes, drain 5 minutes, health 10 minutes
    (controller_suite_test.go 573-581). *)
Definition cfg : Cfg := mkCfg 300 1200 600 "" (mkShow (fun _ => "") (fun _ => "")).

(** What the tests look at: provider ID, label "node", finalizers, phase, error code, description. *)
Definition looks (m : MObj) : string * option string * list string * string * string * string :=
  (mo_pid m, get "node" (mo_labels m), mo_fins m, phase m, lo_code (ms_op (mo_status m)), desc m).

(** ** Creation *)

(** A machine of these tests: provider ID, labels, whether it has its priority, phase, description,
    seconds since its creation. *)
Definition machine0 (pid : string) (labels : list (string * string)) (prio : bool) (ph d : string) (age : Z) : MObj :=
  mkMO "machine-0" 1 1 (100000 - age) None [MCM] labels (if prio then [(MachinePriority, "3")] else []) pid
    (mkMS [] (mkOp d "" 99990 "" "") (mkCur ph false 99990) "").
Definition created (f : Fake) (m : MObj) := looks (fst (exec f (fk_exists f) m (triggerCreationFlow cfg m))).
(** A driver that returns an error; a driver that works. *)
Definition failing (vm : bool) (code : N) (message : string) : Fake :=
  mkFake vm "" "" (Some (errorText (mkStatus code message))) [] true.
Definition working (vm : bool) (nodes : list string) : Fake := mkFake vm "fakeID-0" "fakeNode-0" None nodes true.

(** machine_test.go 528, 576, 654: a new VM is recorded; then the phase is set; then nothing more
    is done. *)
Example created_table :
  created (working false []) (machine0 "" [] false "" "" 0)
    = ("fakeID-0", Some "fakeNode-0", [MCM], "", "", "") /\
  created (working true []) (machine0 "fakeID" [("node", "fakeID-0")] true "" "" 0)
    = ("fakeID", Some "fakeID-0", [MCM], "Pending", "", "Creating machine on cloud provider") /\
  created (working true []) (machine0 "fakeID" [("node", "fakeID-0")] true "Pending" "Creating machine on cloud provider" 0)
    = ("fakeID", Some "fakeID-0", [MCM], "Pending", "", "Creating machine on cloud provider").
Proof. vm_compute. repeat split. Qed.

(** machine_test.go 751, 803, 855: the provider fails; after the timeout the machine is Failed (the tests
    do not fix the description here). *)
Example creation_failures :
  let e := "Provider is returning error on create call" in
  let e' := "Provider does not have capacity to create VM" in
  let said code message := ("Cloud provider message - " ++ errorText (mkStatus code message))%string in
  created (failing false 13%N e) (machine0 "" [] false "" "" 0)
    = ("", None, [MCM], "CrashLoopBackOff", "Internal", said 13%N e) /\
  created (failing false 8%N e') (machine0 "" [] false "" "" 0)
    = ("", None, [MCM], "CrashLoopBackOff", "ResourceExhausted", said 8%N e') /\
  created (failing false 13%N e) (machine0 "" [] false "" "" 99000)
    = ("", None, [MCM], "Failed", "Internal", said 13%N e).
Proof. vm_compute. repeat split. Qed.

(** machine_test.go 907: the new VM has the name of a node that exists already. The VM is deleted again. *)
Example stale_node :
  let m := machine0 "" [] false "" "" 0 in
  created (working false ["fakeNode-0"]) m = ("", None, [MCM], "Failed", "", "VM using old node obj") /\
  snd (exec (working false ["fakeNode-0"]) false m (triggerCreationFlow cfg m)) = false.
Proof. vm_compute. repeat split. Qed.

(** machine_test.go 965: a machine in CrashLoopBackOff whose VM is there. *)
Example crash_loop_over :
  created (working true []) (machine0 "fakeID" [("node", "fakeID-0")] true "CrashLoopBackOff" "" 0)
    = ("fakeID", Some "fakeID-0", [MCM], "Pending", "", "Creating machine on cloud provider").
Proof. vm_compute. reflexivity. Qed.

(** machine_test.go 1047: the VM is there but cannot be initialized. *)
Example initialization_fails :
  let e := errorText (mkStatus cUninitialized "VM instance could not be initialized") in
  created (mkFake true "fakeID-0" "fakeNode-0" (Some e) ["fakeNode-0"] true) (machine0 "" [] false "" "" 0)
    = ("fakeID-0", Some "fakeNode-0", [MCM], "CrashLoopBackOff", "Uninitialized", ("Provider error: " ++ e ++ ". Initialize VM Instance")%string).
Proof. vm_compute. reflexivity. Qed.

(** ** Deletion *)

(** A machine that is being deleted: finalizer, phase, description, node, further labels, conditions,
    seconds since the deletion was requested. *)
Definition dying (fin : bool) (ph d node : string) (labels : list (string * string)) (conds : list NCond) (ago : Z) : MObj :=
  mkMO "machine-0" 1 1 90000 (Some (100000 - ago)) (if fin then [MCM] else []) (("node", node) :: labels) [(MachinePriority, "3")] "fakeID"
    (mkMS conds (mkOp d "" 99990 "" "") (mkCur ph false 99990) "").
(** Phase, description and finalizers afterwards. *)
Definition deleted (f : Fake) (m : MObj) : string * string * list string :=
  let m' := fst (exec f true m (triggerDeletionFlow cfg m)) in (phase m', desc m', mo_fins m').
(** The target cluster has this node; its updates work or not. *)
Definition with_node (n : string) (ok : bool) : Fake := mkFake true "fakeID-0" "fakeNode-0" None [n] ok.
Definition no_node : Fake := working true [].
Definition at_step (d : string) : MObj := dying true "Terminating" d "fakeID-0" [] [] 0.

(** machine_test.go 1283, 1378, 1473, 2717, 2812, 2915, 3009: the steps without the drain. *)
Example deletion_steps :
  deleted no_node (dying false "Running" "Machine machine-0 successfully joined the cluster" "fakeID-0" [] [] 0)
    = ("Running", "Machine machine-0 successfully joined the cluster", []) /\
  deleted no_node (dying true "Running" "Machine machine-0 successfully joined the cluster" "fakeID-0" [] [] 0)
    = ("Terminating", GetVMStatus, [MCM]) /\
  deleted no_node (at_step GetVMStatus) = ("Terminating", InitiateDrain, [MCM]) /\
  deleted no_node (at_step ("Drain successful. " ++ InitiateVMDeletion)%string)
    = ("Terminating", ("VM deletion was successful. " ++ InitiateNodeDeletion)%string, [MCM]) /\
  deleted (with_node "fakeID-0" true) (at_step ("VM deletion was successful. " ++ InitiateNodeDeletion)%string)
    = ("Terminating", ("Deletion of Node Object " ++ quote "fakeID-0" ++ " is successful. " ++ InitiateFinalizerRemoval)%string, [MCM]) /\
  deleted no_node (at_step ("Deletion of Node Object " ++ quote "fakeID-0" ++ " is successful. " ++ InitiateFinalizerRemoval)%string)
    = ("Terminating", ("Deletion of Node Object " ++ quote "fakeID-0" ++ " is successful. " ++ InitiateFinalizerRemoval)%string, []) /\
  deleted no_node (at_step "Some random last op description") = ("Terminating", GetVMStatus, [MCM]).
Proof. vm_compute. repeat split. Qed.

(** A drain: the machine's labels, its conditions, the age of the request. *)
Definition drained (f : Fake) (node : string) (labels : list (string * string)) (conds : list NCond) (ago : Z) : string :=
  snd (fst (deleted f (dying true "Terminating" InitiateDrain node labels conds ago))).
(** A condition that changed so many minutes ago. *)
Definition since (minutes : Z) (t s : string) : NCond := mkNCond t s "" "" (100000 - 60 * minutes).
(** machine_test.go 1568, 1671, 1773, 1875, 1977, 2084, 2186. *)
Example drain_table :
  let done := ("Drain successful. " ++ InitiateVMDeletion)%string in
  let forced := ("Force Drain successful. " ++ DelVolumesAttachments)%string in
  drained (with_node "fakeNode-0" true) "fakeNode-0" [] [] 0 = done /\
  drained no_node "" [] [since 6 "Ready" "Unknown"] 0 = "Skipping drain as nodeName is not a valid one for machine. Initiate VM deletion" /\
  drained no_node "fakeID-0" [] [since 6 "Ready" "Unknown"] 0 = forced /\
  drained no_node "fakeID-0" [] [since 6 "ReadonlyFilesystem" "True"] 0 = forced /\
  drained no_node "fakeID-0" [] [since 6 "ReadonlyFilesystem" "True"; since 6 "Ready" "False"] 0 = forced /\
  drained no_node "fakeID-0" [] [since 2 "ReadonlyFilesystem" "True"] 0 = done /\
  drained no_node "fakeID-0" [] [since 6 "ReadonlyFilesystem" "False"] 0 = done.
Proof. vm_compute. repeat split. Qed.

(** machine_test.go 2288, 2396, 2503, 2610: updates of the node fail. *)
Example drain_failures :
  let goes_on := ("Drain failed due to - Failed to update node. However, since it's a force deletion shall continue deletion of VM. " ++ DelVolumesAttachments)%string in
  let stays n := ("Drain failed due to failure in update of node conditions - failed to create update conditions for node " ++ quote n ++ ": Failed to update node. Will retry in next sync. " ++ InitiateDrain)%string in
  drained (with_node "fakeID-0" false) "fakeID-0" [("force-deletion", "True")] [] 0 = goes_on /\
  drained (with_node "fakeID-0" false) "fakeID-0" [] [] 180 = stays "fakeID-0" /\
  drained (with_node "fakeID-0" false) "fakeID-0" [] [] 10800 = goes_on /\
  drained (with_node "fakeNode-0" false) "fakeNode-0" [] [] 0 = stays "fakeNode-0".
Proof. vm_compute. repeat split. Qed.
