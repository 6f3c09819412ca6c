(** The repository's own test tables for watch events, run on [EventModel] and [OwnModel]
    and compared with what the tests expect. Evidence that the model is the code; no claim
    rests on this file. Tests: pkg/controller/machineset_test.go 31-98, 164-298, 300-458,
    460-561, 1013-1114; deployment_test.go 232-355, 357-498, 500-605, 607-725, 933-1075.
    A queue holds each key once, so its length is the number of distinct keys. The uids
    "1234567" and "1234568" of the tests are 67 and 68 here. *)
Require Import Coq.Lists.List Coq.Strings.String Coq.Bool.Bool Coq.Arith.PeanoNat.
From Verif Require OwnModel.
From Verif Require Import EventModel.
Import ListNotations.
Open Scope string_scope.
Open Scope list_scope.

(** machineset_test.go 240 and deployment_test.go 321: the queue's length is compared. *)
Definition queued (l : list Eff) : nat :=
  List.length (nodup string_dec (flat_map (fun e => match e with
    | QueueSet a b => [("S" ++ a ++ "/" ++ b)%string] | QueueDep a b => [("D" ++ a ++ "/" ++ b)%string] | _ => [] end) l)).

(** The label of all objects of the tests, machineset_test.go 174-176. *)
Definition tl : Labels := [("test-label", "test-label")].
(** Their selector, machineset_test.go 215-219. *)
Definition hasTl (l : Labels) : bool := existsb (fun p => String.eqb (fst p) "test-label" && String.eqb (snd p) "test-label") l.
(** The MachineSet of machineset_test.go 188-222. *)
Definition theSet : Parent := mkParent "ns" "MachineSet-test" 67 (SMatch hasTl) false.
(** The MachineDeployment of deployment_test.go 239-273. *)
Definition theDep : Parent := mkParent "ns" "MachineDeployment-test" 67 (SMatch hasTl) false.
(** The owner references, machineset_test.go 177-184. *)
Definition toSet : list Ref := [mkRef "MachineSet" "MachineSet-test" 67 true 0].
(** deployment_test.go 288-295. *)
Definition toDep : list Ref := [mkRef "MachineDeployment" "MachineDeployment-test" 67 true 0].
(** The machine of machineset_test.go 170-186, by resource version, labels, mark, references. *)
Definition mach (rv : nat) (l : Labels) (del : bool) (r : list Ref) : Obj := mkObj "ns" "Machine-test" 1 rv l del r.
(** The MachineSet of deployment_test.go 280-306 as a child. *)
Definition setObj (rv : nat) (l : Labels) (del : bool) (r : list Ref) : Obj := mkObj "ns" "MachineSet-test" 2 rv l del r.

(** machineset_test.go 33-52 and 54-98: a machine without labels has no MachineSet. *)
Example getMachineMachineSets_table :
  matchingParents true (mach 0 [] false []) [] = [] /\ matchingParents true (mach 0 tl false []) [theSet] = [theSet].
Proof. vm_compute. split; reflexivity. Qed.

(** machineset_test.go 225, 243, 261, 280. *)
Example addMachineToMachineSet_table :
  map (fun m => queued (addMachineToMachineSet [theSet] m))
    [mach 0 tl false toSet; mach 0 tl false toSet; mach 0 tl true toSet;
     mach 0 tl false [mkRef "MachineSet" "dummy-one" 67 true 0]] = [1; 1; 1; 0].
Proof. vm_compute. reflexivity. Qed.

(** machineset_test.go 362. *)
Example updateMachine_same : queued (updateMachineToMachineSet [theSet] (mach 123 tl false toSet) (mach 123 tl false toSet)) = 0.
Proof. vm_compute. reflexivity. Qed.

(** machineset_test.go 422-453. *)
Example updateMachineToMachineSet_table :
  map (fun p => queued (updateMachineToMachineSet [theSet] (fst p) (snd p)))
    [(mach 123 tl false toSet, mach 3456 tl false toSet);
     (mach 123 tl true toSet, mach 345 tl false toSet);
     (mach 123 tl false toSet, mach 345 [("dummy", "dummy")] false toSet);
     (mach 123 tl false toSet, mach 345 tl false []);
     (mach 123 tl false toSet, mach 345 tl false [mkRef "MachineSet" "MachineSet-test-dummy" 67 true 0])] = [1; 1; 1; 1; 1].
Proof. vm_compute. reflexivity. Qed.

(** machineset_test.go 463, 496, 530: other uid, found, other kind. *)
Example resolveMachineSetControllerRef_table :
  map (resolve "MachineSet" (lookup [theSet]) "ns")
    [mkRef "MachineSet" "MachineSet-test" 68 true 0; mkRef "MachineSet" "MachineSet-test" 67 true 0;
     mkRef "MachineDeployment" "MachineSet-test" 67 true 0] = [None; Some theSet; None].
Proof. vm_compute. reflexivity. Qed.

(** deployment_test.go 323-352. *)
Example addMachineSetToDeployment_table :
  map (fun s => queued (addMachineSetToDeployment (lookup [theDep]) [theDep] s))
    [setObj 0 tl false toDep; setObj 0 tl true toDep; setObj 0 tl false []; setObj 0 [] false [];
     setObj 0 tl false [mkRef "MachineDeployment" "MachineDeployment-test-dummy" 67 true 0]] = [1; 1; 1; 0; 0].
Proof. vm_compute. reflexivity. Qed.

(** deployment_test.go 452-497. *)
Example updateMachineSetToDeployment_table :
  map (fun p => queued (updateMachineSetToDeployment (lookup [theDep]) (lookup [theDep]) [theDep] (fst p) (snd p)))
    [(setObj 123 tl false toDep, setObj 123 tl false toDep);
     (setObj 123 tl true toDep, setObj 345 tl false toDep);
     (setObj 123 tl false toDep, setObj 345 [("dummy", "dummy")] false toDep);
     (setObj 123 tl false toDep, setObj 345 tl false []);
     (setObj 123 tl false [], setObj 345 tl false []);
     (setObj 123 tl false toDep, setObj 345 tl false [mkRef "MachineDeployment" "MachineSet-test-dummy" 67 true 0])]
  = [0; 1; 1; 1; 0; 1].
Proof. vm_compute. reflexivity. Qed.

(** deployment_test.go 591-604. *)
Example deleteMachineSetToDeployment_table :
  map (fun s => queued (deleteMachineSetToDeployment (lookup [theDep]) (DObj s)))
    [setObj 0 tl false toDep; setObj 0 tl false []; setObj 0 tl false [mkRef "MachineDeployment" "MachineDeployment-test" 111 true 0]]
  = [1; 0; 0].
Proof. vm_compute. reflexivity. Qed.

(** deployment_test.go 721: the strategy is not Recreate, and the machine is still there. *)
Example deleteMachineToMachineDeployment_table :
  queued (deleteMachineToMachineDeployment
    (mkView [mkObj "ns" "MachineSet-test" 67 0 tl false toDep] [theDep] [mach 0 tl false toSet]) (DObj (mach 0 tl false toSet))) = 0.
Proof. vm_compute. reflexivity. Qed.

(** deployment_test.go 1052-1074. *)
Example getMachineDeploymentForMachine_table :
  let set r := mkObj "ns" "MachineSet-test" 67 0 tl false r in
  map (fun p => option_map pa_name (getMachineDeploymentForMachine (mkView [set (snd p)] [theDep] []) (mach 0 tl false (fst p))))
    [(toSet, toDep); ([mkRef "MachineSetDummy" "MachineSet-test" 67 true 0], toDep);
     ([mkRef "MachineSet" "MachineSet-test" 0 true 0], toDep); (toSet, [])]
  = [Some "MachineDeployment-test"; None; None; None].
Proof. vm_compute. reflexivity. Qed.

(** The machine of machineset_test.go 1045-1060 for claimMachines, without an owner. *)
Definition machine1 (l : Labels) (owners : list OwnModel.Owner) : OwnModel.Obj := OwnModel.mkObj 1 68 owners l false.

(** machineset_test.go 1086-1113: a matching machine without owner is adopted and claimed. Its
    cached copy with other labels is not claimed afterwards; the call has no error. *)
Example claimMachines_table :
  let run cache store := OwnModel.Claim 67 false (OwnModel.LFound 67 false) (fun _ => OwnModel.FNone) tl store cache in
  fst (run [machine1 tl []] [machine1 tl []]) = ([machine1 tl []], false) /\
  fst (run [machine1 [("dummy-label", "dummy-label")] []] [machine1 tl [OwnModel.mkOwner 67 true]]) = ([], false).
Proof. vm_compute. split; reflexivity. Qed.
