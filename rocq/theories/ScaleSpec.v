(** Vocabulary of the scaling properties, independent of the model's helpers. *)
Require Import Coq.ZArith.ZArith Coq.Lists.List Coq.Strings.String Coq.Bool.Bool.
From Verif Require Import Types.
Import ListNotations.
Open Scope Z_scope.

(** All MachineSets of the deployment. *)
Definition all_sets (newIS : option MachineSet) (olds : list MachineSet) : list MachineSet :=
  olds ++ match newIS with Some n => [n] | None => [] end.

(** Those requesting machines. *)
Definition active_sets (newIS : option MachineSet) (olds : list MachineSet) : list MachineSet :=
  filter (fun s => 0 <? ms_spec s) (all_sets newIS olds).

(** The current template's set has all the machines the deployment wants, both
    believe so, and all are available. *)
Definition saturated (d : MachineDeployment) (newIS : option MachineSet) : Prop :=
  exists n, newIS = Some n /\ ms_spec n = md_replicas d /\ ms_avail n = md_replicas d /\
            ms_desired n = AnnInt (md_replicas d).

(** The deployment's total size recorded on a set when it was last scaled; if
    none is recorded, the deployment's reported size. *)
Definition recorded_max (d : MachineDeployment) (s : MachineSet) : Z :=
  match ms_max s with AnnInt z => z | _ => md_status d end.

(** A set nobody uses: no machines requested, none reported, the report is
    current, and it is not being deleted. *)
Definition unused (s : MachineSet) : bool :=
  (ms_spec s =? 0) && (ms_status s =? 0) && (ms_gen s <=? ms_obsgen s) && negb (ms_deleting s).

(** Sets not yet being deleted. *)
Definition kept_history (olds : list MachineSet) : list MachineSet :=
  filter (fun s => negb (ms_deleting s)) olds.
