(** Repeated reconciles of a rolling update in an ideal environment. *)
Require Import Coq.ZArith.ZArith Coq.Lists.List Coq.Strings.String Coq.Bool.Bool.
From Verif Require Import Types RolloutModel.
Import ListNotations.
Open Scope Z_scope.

(** Ideal behaviour of the MachineSet controller and the cloud between two
    reconciles: every set reaches its requested size with all machines
    available. Idealisation of pkg/controller/machineset.go 457-587. *)
Definition settle (s : MachineSet) : MachineSet :=
  mkMS (ms_name s) (ms_ctime s) (ms_deleting s) (ms_gen s) (ms_obsgen s)
       (ms_spec s) (ms_spec s) (ms_spec s) (ms_spec s) (ms_desired s) (ms_max s).

(** A settled set: requested, present and available agree.
    Fields of pkg/apis/machine/v1alpha1/machineset_types.go 108-140. *)
Definition settled (s : MachineSet) : Prop :=
  0 <= ms_spec s /\ ms_status s = ms_spec s /\ ms_avail s = ms_spec s.

(** All API calls of a reconcile succeed. Calls at pkg/controller/deployment_sync.go 545-565. *)
Definition allOk : Api := mkApi true (fun _ => true) (fun _ => true).

(** One round: a reconcile (rolloutRolling, pkg/controller/deployment_rolling.go
    48-124) with all API calls succeeding, then settling. *)
Definition round (d : MachineDeployment) (st : MachineSet * list MachineSet) : MachineSet * list MachineSet :=
  let '(n, o) := rolloutRolling allOk d (fst st) (snd st) in (settle n, map settle o).

(** [k] rounds (repeated reconciles, same lines). pkg/controller/deployment_rolling.go 48-124. *)
Fixpoint rounds (k : nat) (d : MachineDeployment) (st : MachineSet * list MachineSet) :=
  match k with O => st | S k => round d (rounds k d st) end.
