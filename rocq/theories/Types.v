(** Shared data types of the model. *)
Require Import Coq.ZArith.ZArith Coq.Lists.List Coq.Strings.String Coq.Bool.Bool.
Import ListNotations.
Open Scope Z_scope.

(** Integer annotation as a reader of the object sees it: absent, present but
    not a number, or a number.
    Models the value handling of pkg/controller/deployment_util.go 249-290 and
    586-600 (strconv.ParseInt / strconv.Atoi of an annotation). Simplified: the
    decimal text itself is not kept. *)
Inductive IntAnn := AnnMissing | AnnBad | AnnInt (z : Z).

(** intstr.IntOrString (k8s.io/apimachinery, external): a number, a percentage,
    or a string that is not a percentage. Used by
    pkg/apis/machine/v1alpha1/machinedeployment_types.go 160-187. *)
Inductive IntOrString := IOSInt (z : Z) | IOSPercent (p : Z) | IOSBad.

(** Strategy of a MachineDeployment,
    pkg/apis/machine/v1alpha1/machinedeployment_types.go 126-187. The rolling
    update parameters are carried by the constructor: validation
    (pkg/apis/machine/validation/machinedeployment.go 38-69) demands them. *)
Inductive Strategy :=
| Recreate
| RollingUpdate (maxSurge maxUnavailable : option IntOrString)
| InPlaceUpdate (maxSurge maxUnavailable : option IntOrString)
| OtherStrategy (s : string).

(** MachineSet, pkg/apis/machine/v1alpha1/machineset_types.go. Only the fields
    the modelled functions read or write. Timestamps are numbers; the template
    is compared in another file. *)
Record MachineSet := mkMS {
  ms_name : string;
  ms_ctime : Z;          (* metadata.creationTimestamp *)
  ms_deleting : bool;    (* metadata.deletionTimestamp <> nil *)
  ms_gen : Z;            (* metadata.generation *)
  ms_obsgen : Z;         (* status.observedGeneration *)
  ms_spec : Z;           (* spec.replicas *)
  ms_status : Z;         (* status.replicas *)
  ms_avail : Z;          (* status.availableReplicas *)
  ms_ready : Z;          (* status.readyReplicas *)
  ms_desired : IntAnn;   (* annotation deployment.kubernetes.io/desired-replicas *)
  ms_max : IntAnn        (* annotation deployment.kubernetes.io/max-replicas *)
}.

(** MachineDeployment, pkg/apis/machine/v1alpha1/machinedeployment_types.go
    24-124 and 189-230; only the fields used here. *)
Record MachineDeployment := mkMD {
  md_replicas : Z;               (* spec.replicas *)
  md_strategy : Strategy;        (* spec.strategy *)
  md_historyLimit : option Z;    (* spec.revisionHistoryLimit *)
  md_status : Z                  (* status.replicas *)
}.

(** The API object after its size and the two replica annotations were written.
    pkg/controller/deployment_sync.go 544-565 (isCopy.Spec.Replicas = newScale
    and SetReplicasAnnotations, pkg/controller/deployment_util.go 601-618). *)
Definition set_size (desired maxr : Z) (s : MachineSet) (n : Z) : MachineSet :=
  mkMS (ms_name s) (ms_ctime s) (ms_deleting s) (ms_gen s) (ms_obsgen s) n
       (ms_status s) (ms_avail s) (ms_ready s) (AnnInt desired) (AnnInt maxr).
