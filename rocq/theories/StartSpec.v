(** What one may expect of the start of the two programs. *)
Require Import Coq.ZArith.ZArith Coq.Lists.List Coq.Strings.String Coq.Bool.Bool.
From Verif Require Import StartModel.
Import ListNotations.
Open Scope string_scope.
Open Scope list_scope.

(** The caches that the reconciles of a program read.
    pkg/controller: machine_safety.go, machineset.go, deployment.go (machines, sets, deployments);
    machinecontroller: machine.go, machine_util.go, machine_safety.go, machineclass.go, secret.go, node.go,
    drain/drain.go (the rest). *)
Definition reads (p : Program) : list Cache :=
  match p with
  | Manager => [CMachines; CSets; CDeployments]
  | Machines => [CMachines; CClasses; CSecrets; CNodes; CPods; CPvcs; CPvs; CPdbs; CAttachments]
  end.
(** The queues that handlers and reconciles put keys into. pkg/controller: machineset.go, deployment.go,
    machine_safety.go; machinecontroller: secret.go, machineclass.go, node.go, machine.go,
    machine_safety.go. *)
Definition fed (p : Program) : list Queue :=
  match p with
  | Manager => [QSets; QDeployments; QOvershoot]
  | Machines => [QSecrets; QClasses; QNodes; QMachines; QTermination; QOrphans; QApiServer]
  end.
(** The kinds of the API that a program works with: the informers of controllermanager.go and app.go. *)
Definition kinds (p : Program) : list string :=
  match p with
  | Manager => ["machines"; "machinesets"; "machinedeployments"]
  | Machines => ["machines"; "machineclasses"]
  end.

(** The API server lists the kind in the group and version of this project. *)
Definition offered (a : Answer) (kind : string) : Prop :=
  exists r, In r (a_lists a) /\ rl_gv r = "machine.sapcloud.io/v1alpha1" /\ In kind (rl_names r).
(** The API server said it is well within the time. *)
Definition said_healthy (a : Answer) : Prop := In (Status 200) (a_probes a).
(** Every group and version that was listed is at most a group and a version. *)
Definition well_formed (a : Answer) : Prop := Forall (fun r => parseGroupVersion (rl_gv r) <> None) (a_lists a).

(** The process runs. *)
Definition alive (r : Replica) : Prop := r_phase r <> Ended.
(** How many workers a queue has. *)
Definition workers_on (q : Queue) (r : Replica) : nat := List.length (filter (fun x => if queueEqb q x then true else false) (r_workers r)).
