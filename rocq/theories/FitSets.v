(** The tables of the repository's own tests, run on the model: machine sets and deployments.
    Source of the cases: pkg/controller/controller_utils_test.go, machineset_test.go,
    deployment_sync_test.go, deployment_util_test.go. Each example cites the lines of its case; it
    holds in the code if that test passes, so a disagreement would be an error in the model. *)
Require Import Coq.ZArith.ZArith Coq.Lists.List Coq.Strings.String Coq.Bool.Bool.
From Verif Require Import Types Sort RolloutModel ScaleModel MSetModel.
Import ListNotations.
Open Scope string_scope.
Open Scope list_scope.
Open Scope Z_scope.

(* ---- controller_utils_test.go 209-227: the order in which machines are deleted ---- *)

(** A machine of these tables (controller_utils_test.go 34-207): number, priority annotation,
    phase, creation time. *)
Definition tm (id : nat) (prio phase : string) (t : Z) : Mach := mkMach id prio "" phase t false.

(** What sort.Sort(ActiveMachines(l)) gives (controller_utils_test.go 211). *)
Definition sorted (l : list Mach) : list nat := map m_id (isort (fun a b => negb (Less b a)) l).

(** "sort on priority annotation", controller_utils_test.go 34-102, 215. *)
Example fit_sort_priority :
  sorted [tm 3 "5" "Terminating" 0; tm 1 "1" "Running" 0; tm 2 "" "Pending" 0] = [1; 2; 3]%nat.
Proof. vm_compute. reflexivity. Qed.

(** "sort on phase", controller_utils_test.go 104-190, 219. *)
Example fit_sort_phase :
  sorted [tm 6 "" "Running" 0; tm 5 "" "Available" 0; tm 2 "" "Failed" 0;
          tm 4 "" "Pending" 0; tm 3 "" "Unknown" 0; tm 1 "" "Terminating" 0] = [1; 2; 3; 4; 5; 6]%nat.
Proof. vm_compute. reflexivity. Qed.

(** "sort on creation timestamp", controller_utils_test.go 192-207, 223. *)
Example fit_sort_time :
  sorted [tm 2 "" "" 2; tm 1 "" "" 1; tm 3 "" "" 3] = [1; 2; 3]%nat.
Proof. vm_compute. reflexivity. Qed.

(* ---- controller_utils_test.go 595-610: FilterActiveMachineSets ---- *)

(** A MachineSet of these tables: name, size, the two annotations (deployment_sync_test.go
    500-570; controller_suite_test.go newMachineSet). *)
Definition ts (name : string) (size : Z) (desired max : IntAnn) : MachineSet :=
  mkMS name 0 false 0 0 size 0 0 0 desired max.

(** "should return an empty list when machine sets have 0 replicas", controller_utils_test.go 597. *)
Example fit_active_none : FilterActiveMachineSets [ts "MachineSet-test" 0 AnnMissing AnnMissing] = [].
Proof. reflexivity. Qed.

(** "should return expected machine sets when replicas are positive", controller_utils_test.go 604. *)
Example fit_active_one : List.length (FilterActiveMachineSets [ts "MachineSet-test" 1 AnnMissing AnnMissing]) = 1%nat.
Proof. reflexivity. Qed.

(* ---- machineset_test.go 563-877: manageReplicas ---- *)

(** The four machines of machineset_test.go 604-682; the last has failed. *)
Definition m1 := tm 1 "" "Running" 0.
(** machineset_test.go 625-643. *)
Definition m2 := tm 2 "" "Running" 0.
(** machineset_test.go 645-663. *)
Definition m3 := tm 3 "" "Running" 0.
(** machineset_test.go 665-685. *)
Definition m4 := tm 4 "" "Failed" 0.

(** The fake API server accepts everything (machineset_test.go 693). *)
Definition okApi : Api := mkApi (fun _ => true) (fun _ => true) (fun _ => true).

(** The number of machines in the API afterwards (machineset_test.go 705). The machines of these
    tests have no finalizer, so that a deletion removes the object at once. *)
Definition left (spec : Z) (l : list Mach) : nat :=
  List.length (filter (fun m => negb (m_deleting m))
    (w_machines (reconcileMachineSet okApi 0 (mkW spec false l l 10)))).

(** "should create new machines and should not return errors", machineset_test.go 688. *)
Example fit_creates : left 3 [m1; m2] = 3%nat. Proof. vm_compute. reflexivity. Qed.
(** "should create new machines only equal to burstReplicas", machineset_test.go 735. *)
Example fit_burst : left 200 [m1; m2] = 102%nat. Proof. vm_compute. reflexivity. Qed.
(** "should not create or delete machines", machineset_test.go 757. *)
Example fit_nothing : left 3 [m1; m2; m3] = 3%nat. Proof. vm_compute. reflexivity. Qed.
(** "should delete extra failed machine", machineset_test.go 780, 823. *)
Example fit_failed : left 3 [m1; m2; m3; m4] = 3%nat. Proof. vm_compute. reflexivity. Qed.
(** "should delete MachinePriority=1 machines and spawn replacement machine",
    machineset_test.go 844: the machine is gone, the number is kept. *)
Example fit_priority :
  let stale := tm 1 "1" "Running" 0 in
  let w := reconcileMachineSet okApi 0 (mkW 3 false [stale; m2; m3] [stale; m2; m3] 10) in
  map m_id (filter (fun m => negb (m_deleting m)) (w_machines w)) = [2; 3; 10]%nat.
Proof. vm_compute. reflexivity. Qed.

(* ---- machineset_test.go 1116-1161: slowStartBatch ---- *)

(** Successes and whether an error is returned (machineset_test.go 1140). *)
Definition batch (count initial : nat) (ok : bool) : nat * bool :=
  let '(_, s, e) := slowStartBatch count initial (fun _ => ok) in (s, e).
(** machineset_test.go 1137. *)
Example fit_batch_all : batch 10 2 true = (10%nat, false). Proof. vm_compute. reflexivity. Qed.
(** machineset_test.go 1146: no initial batch, nothing happens. *)
Example fit_batch_zero : batch 10 0 true = (0%nat, false). Proof. vm_compute. reflexivity. Qed.
(** machineset_test.go 1155. *)
Example fit_batch_error : batch 10 2 false = (0%nat, true). Proof. vm_compute. reflexivity. Qed.

(** "should return the Failed machines first", machineset_test.go 1207. *)
Example fit_to_delete :
  map m_id (getMachinesToDelete [tm 1 "" "Running" 0; tm 2 "" "Failed" 0] 1) = [2]%nat.
Proof. vm_compute. reflexivity. Qed.

(* ---- deployment_sync_test.go 349-891: scale ---- *)

(** The deployment: surge 2, unavailable 0 (deployment_sync_test.go 498-502). *)
Definition td (size : Z) : MachineDeployment :=
  mkMD size (RollingUpdate (Some (IOSInt 2)) (Some (IOSInt 0))) None 0.

(** Afterwards in the API: name, size and the two annotations of the sets that [scale] writes
    (deployment_sync_test.go 470-488); SetReplicasAnnotations gets the deployment's size and size
    plus surge (deployment_sync.go 547). *)
Definition after (d : MachineDeployment) (newIS : option MachineSet) (olds : list MachineSet)
  : option (list (string * Z * IntAnn * IntAnn)) :=
  option_map (map (fun p => let s := set_size (md_replicas d) (md_replicas d + MaxSurge d) (fst p) (snd p) in
                            (ms_name s, ms_spec s, ms_desired s, ms_max s)))
             (scale d newIS olds).

(** "if scale-up, then only new machineSet should be scaled-up", deployment_sync_test.go 498. *)
Example fit_scale_up :
  let s n z := ts n z (AnnInt 7) (AnnInt 9) in
  after (td 10) (Some (s "ms3" 5)) [s "ms1" 1; s "ms2" 3]
  = Some [("ms2", 3, AnnInt 10, AnnInt 12); ("ms1", 1, AnnInt 10, AnnInt 12); ("ms3", 8, AnnInt 10, AnnInt 12)].
Proof. vm_compute. reflexivity. Qed.
(** "if scale-down such that leftover replicas to add > 0", deployment_sync_test.go 582. *)
Example fit_scale_down_leftover :
  let s n z := ts n z (AnnInt 7) (AnnInt 9) in
  after (td 3) (Some (s "ms3" 5)) [s "ms1" 1; s "ms2" 3]
  = Some [("ms3", 2, AnnInt 3, AnnInt 5); ("ms2", 2, AnnInt 3, AnnInt 5); ("ms1", 1, AnnInt 3, AnnInt 5)].
Proof. vm_compute. reflexivity. Qed.
(** "if scale-down such that leftover replicas after proportional scaling =0",
    deployment_sync_test.go 666. *)
Example fit_scale_down_exact :
  let s n z := ts n z (AnnInt 8) (AnnInt 10) in
  after (td 5) (Some (s "ms3" 6)) [s "ms1" 1; s "ms2" 3]
  = Some [("ms3", 4, AnnInt 5, AnnInt 7); ("ms2", 2, AnnInt 5, AnnInt 7); ("ms1", 1, AnnInt 5, AnnInt 7)].
Proof. vm_compute. reflexivity. Qed.
(** "if no scaling happened ... machineSet replicas shouldn't change", deployment_sync_test.go 750. *)
Example fit_scale_same :
  let s n z := ts n z (AnnInt 7) (AnnInt 9) in
  after (td 7) (Some (s "ms3" 5)) [s "ms1" 1; s "ms2" 3]
  = Some [("ms2", 3, AnnInt 7, AnnInt 9); ("ms1", 1, AnnInt 7, AnnInt 9); ("ms3", 5, AnnInt 7, AnnInt 9)].
Proof. vm_compute. reflexivity. Qed.
(** "... DesiredReplicas Annotation for the only active machineSet is outdated ...",
    deployment_sync_test.go 834. *)
Example fit_scale_annotation :
  after (td 1) None [ts "ms1" 1 (AnnInt 2) (AnnInt 3)] = Some [("ms1", 1, AnnInt 1, AnnInt 3)].
Proof. vm_compute. reflexivity. Qed.
