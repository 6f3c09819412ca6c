(* Model of the validation of MachineDeployments, MachineSets and Machines
   (pkg/apis/machine/validation/machinedeployment.go 19-99, machineset.go 14-45, machine.go
   14-40) and of the choice of the rollout (pkg/controller/deployment.go 544-550). *)
Require Import Coq.ZArith.ZArith Coq.Lists.List Coq.Strings.String Coq.Bool.Bool.
From Verif Require Import Types RolloutModel MetaModel TmplModel.
Import ListNotations.
Open Scope string_scope.
Open Scope list_scope.
Open Scope Z_scope.

(* The strategy as in the object: the type and the two parameter blocks, which are pointers
   (pkg/apis/machine/v1alpha1/machinedeployment_types.go 102-187). *)
Record VStrategy := mkVS {
  vs_type : string;
  vs_rolling : option (option IntOrString * option IntOrString);          (* maxSurge, maxUnavailable *)
  vs_inplace : option (option IntOrString * option IntOrString * string)  (* and orchestrationType *)
}.

(* The spec of a MachineDeployment as far as validation reads it (machinedeployment.go 85-99).
   The selector is a pointer; of it only matchLabels is looked at. *)
Record VSpec := mkV {
  v_replicas : Z;
  v_strategy : VStrategy;
  v_selector : option Map;
  v_labels : Map;          (* spec.template.metadata.labels *)
  v_kind : string;         (* spec.template.spec.class.kind *)
  v_class : string         (* spec.template.spec.class.name *)
}.

(* The errors, one for each field.Error (machinedeployment.go 48, 53, 61, 66, 77, 80, 88, 93;
   machine.go 33, 36). *)
Inductive VErr := EType | ENoRolling | ENoInPlace | EOrch | EUnavailable | ESurge | EReplicas | ESelector | EKind | EClass.

(* machinedeployment.go 30-39 canConvertIntOrStringToInt32. *)
Definition canConvert (v : option IntOrString) (replicas : Z) : bool :=
  match GetValueFromIntOrPercent v replicas true with
  | None => false
  | Some x => (-2147483648 <=? x) && (x <=? 2147483647)
  end.

(* machinedeployment.go 74-83 validateUpdateConfiguration. *)
Definition validateUpdateConfiguration (surge unavailable : option IntOrString) (replicas : Z) : list VErr :=
  (if canConvert unavailable replicas then [] else [EUnavailable]) ++ (if canConvert surge replicas then [] else [ESurge]).

(* machinedeployment.go 41-72 validateUpdateStrategy. *)
Definition validateUpdateStrategy (s : VStrategy) (replicas : Z) : list VErr :=
  (if existsb (String.eqb (vs_type s)) ["Recreate"; "RollingUpdate"; "InPlaceUpdate"] then [] else [EType]) ++
  (if String.eqb (vs_type s) "RollingUpdate" then
     match vs_rolling s with
     | None => [ENoRolling]
     | Some (a, b) => validateUpdateConfiguration a b replicas
     end else []) ++
  (if String.eqb (vs_type s) "InPlaceUpdate" then
     match vs_inplace s with
     | None => [ENoInPlace]
     | Some (a, b, o) => validateUpdateConfiguration a b replicas ++
                         (if String.eqb o "Auto" || String.eqb o "Manual" then [] else [EOrch])
     end else []).

(* machinedeployment.go 90-95 and machineset.go 34-39: at most one error. *)
Definition validateSelector (sel labels : Map) : list VErr :=
  if forallb (fun '(k, v) => String.eqb (read k labels) v) sel then [] else [ESelector].

(* machine.go 30-40 validateClassReference. *)
Definition validateClassReference (kind name : string) : list VErr :=
  (if String.eqb kind "" then [EKind] else []) ++ (if String.eqb name "" then [EClass] else []).

(* machinedeployment.go 85-99 validateMachineDeploymentSpec; [None]: the nil selector is
   dereferenced and the controller panics (90). *)
Definition validateMachineDeployment (v : VSpec) : option (list VErr) :=
  match v_selector v with
  | None => None
  | Some sel =>
      Some ((if v_replicas v <? 0 then [EReplicas] else []) ++
            validateUpdateStrategy (v_strategy v) (v_replicas v) ++
            validateSelector sel (v_labels v) ++
            validateClassReference (v_kind v) (v_class v))
  end.

(* machineset.go 24-40 validateMachineSetSpec. *)
Definition validateMachineSet (replicas : Z) (sel : option Map) (labels : Map) (kind class : string) : option (list VErr) :=
  match sel with
  | None => None
  | Some sel => Some ((if replicas <? 0 then [EReplicas] else []) ++ validateSelector sel labels ++ validateClassReference kind class)
  end.

(* machine.go 24-28 validateMachineSpec. *)
Definition validateMachine (kind class : string) : list VErr := validateClassReference kind class.

(* deployment.go 544-550: which rollout is run; [None] is the error "unexpected deployment
   strategy type". *)
Definition chooseRollout (s : VStrategy) : option Strategy :=
  if String.eqb (vs_type s) "Recreate" then Some Recreate
  else if String.eqb (vs_type s) "RollingUpdate" then
    match vs_rolling s with Some (a, b) => Some (RollingUpdate a b) | None => Some (RollingUpdate None None) end
  else None.

(* deployment.go 444-455 and 544-550: what comes of a MachineDeployment that is not deleted,
   paused, rolled back or scaled. *)
Inductive VRes := VPanic | VRejected | VUnexpected | VRollout (s : Strategy).
(** deployment.go 444-455 and 544-550. *)
Definition reconcileRollout (v : VSpec) : VRes :=
  match validateMachineDeployment v with
  | None => VPanic
  | Some (_ :: _) => VRejected
  | Some [] => match chooseRollout (v_strategy v) with None => VUnexpected | Some s => VRollout s end
  end.
