(** Scaling a MachineDeployment and cleaning up its history.
    Models pkg/controller/deployment_sync.go 53-77, 402-604 and the helpers in
    deployment_util.go. A reconcile is described by the list of sizes it asks
    the API for, in order ([plan]); an API error ends it after some prefix.
    Simplification: names of MachineSets are unique (the API server ensures it),
    so the Go map nameToSize is the list of sizes in the order of the sets. *)
Require Import Coq.ZArith.ZArith Coq.Lists.List Coq.Strings.String Coq.Bool.Bool.
From Verif Require Import Types Sort RolloutModel.
Import ListNotations.
Open Scope Z_scope.

(** Conversion to int32 as Go does it (language specification, wrap-around). *)
Definition wrap32 (z : Z) : Z := (z + 2147483648) mod 4294967296 - 2147483648.

(** integer.RoundToInt32 of the float64 quotient p/q (k8s.io/utils/integer,
    external; called at pkg/controller/deployment_util.go 695): nearest integer,
    halves away from zero. [None] for a zero divisor: the Go result of
    converting an infinity is undefined. The quotient of two int32 values is
    never so close to a half that float64 rounding matters. *)
Definition roundDiv (p q : Z) : option Z :=
  if q =? 0 then None
  else
    let p' := if q <? 0 then - p else p in
    let q' := Z.abs q in
    Some (if p' <? 0 then - ((2 * (- p') + q') / (2 * q')) else (2 * p' + q') / (2 * q')).

(** pkg/controller/deployment_util.go 676-699 getMachineSetFraction. *)
Definition getMachineSetFraction (d : MachineDeployment) (s : MachineSet) : option Z :=
  if md_replicas d =? 0 then Some (- ms_spec s)
  else
    let deploymentReplicas := md_replicas d + MaxSurge d in
    let annotated := match ms_max s with AnnInt z => z | _ => md_status d end in
    match roundDiv (wrap32 (ms_spec s * deploymentReplicas)) annotated with
    | None => None
    | Some n => Some (n - ms_spec s)
    end.

(** pkg/controller/deployment_util.go 651-674 GetProportion. *)
Definition GetProportion (d : MachineDeployment) (s : MachineSet) (toAdd added : Z) : option Z :=
  if (ms_spec s =? 0) || (toAdd =? 0) || (toAdd =? added) then Some 0
  else
    match getMachineSetFraction d s with
    | None => None
    | Some f =>
        let allowed := toAdd - added in
        Some (if toAdd >? 0 then Z.min f allowed else Z.max f allowed)
    end.

(** pkg/controller/deployment_sync.go 507-528 scaleMachineSetsProportionally:
    the sizes in order and the replicas added. *)
Fixpoint scaleMachineSetsProportionally (d : MachineDeployment) (toAdd added : Z) (l : list MachineSet)
  : option (list Z * Z) :=
  match l with
  | [] => Some ([], added)
  | s :: r =>
      match (if toAdd =? 0 then Some 0 else GetProportion d s toAdd added) with
      | None => None
      | Some p =>
          match scaleMachineSetsProportionally d toAdd (added + p) r with
          | None => None
          | Some (sizes, a) => Some (ms_spec s + p :: sizes, a)
          end
      end
  end.

(** pkg/controller/deployment_sync.go 491-505 scaleNewMachineSet: all keep their
    size but the new one. *)
Definition scaleNewMachineSet (newIS : option MachineSet) (toAdd : Z) (l : list MachineSet) : list Z :=
  map (fun s => match newIS with
                | Some n => if String.eqb (ms_name s) (ms_name n) then ms_spec n + toAdd else ms_spec s
                | None => ms_spec s
                end) l.

(** pkg/controller/deployment_sync.go 464-474: leftovers go to the first set,
    which never becomes negative. *)
Definition addLeftover (toAdd added : Z) (sizes : list Z) : list Z :=
  match sizes with
  | [] => []
  | n :: r => (if toAdd =? 0 then n else Z.max 0 (n + (toAdd - added))) :: r
  end.

(** pkg/controller/controller_utils.go 820-832 MachineSetsBySizeOlder. *)
Definition bySizeOlder (a b : MachineSet) : bool :=
  (ms_spec a >? ms_spec b) || ((ms_spec a =? ms_spec b) && byCreation a b).

(** append(oldISs, newIS) with a possibly missing new set;
    pkg/controller/deployment_util.go 562, deployment_sync.go 435. *)
Definition allSets (newIS : option MachineSet) (olds : list MachineSet) : list MachineSet :=
  olds ++ match newIS with Some n => [n] | None => [] end.

(** pkg/controller/deployment_util.go 553-575 FindActiveOrLatest; [olds] sorted
    newest first, as line 561 leaves them. *)
Definition FindActiveOrLatest (newIS : option MachineSet) (olds : list MachineSet) : option MachineSet :=
  match FilterActiveMachineSets (allSets newIS olds) with
  | [] => match newIS with Some n => Some n | None => hd_error olds end
  | [s] => Some s
  | _ => None
  end.

(** pkg/controller/deployment_util.go 1113-1130 IsSaturated. *)
Definition IsSaturated (d : MachineDeployment) (newIS : option MachineSet) : bool :=
  match newIS with
  | None => false
  | Some s =>
      match ms_desired s with
      | AnnInt n => (ms_spec s =? md_replicas d) && (n =? md_replicas d) && (ms_avail s =? md_replicas d)
      | _ => false
      end
  end.

(** pkg/controller/deployment_sync.go 438-441: the size the sets may have
    together. *)
Definition allowedSize (d : MachineDeployment) : Z :=
  if md_replicas d >? 0 then md_replicas d + MaxSurge d else 0.

(** pkg/controller/deployment_sync.go 402-489 scale, as the list of sets and
    sizes it asks for. [None]: the undefined conversion of [roundDiv]. *)
Definition scale (d : MachineDeployment) (newIS : option MachineSet) (olds0 : list MachineSet)
  : option (list (MachineSet * Z)) :=
  let olds := isort (fun a b => byCreation b a) olds0 in
  match FindActiveOrLatest newIS olds with
  | Some s => Some [(s, md_replicas d)]
  | None =>
      if IsSaturated d newIS then Some (map (fun s => (s, 0)) (FilterActiveMachineSets olds))
      else
        match md_strategy d with
        | RollingUpdate _ _ =>
            let all := FilterActiveMachineSets (allSets newIS olds) in
            let toAdd := allowedSize d - GetReplicaCountForMachineSets all in
            if 0 <=? toAdd then
              Some (combine all (addLeftover toAdd toAdd (scaleNewMachineSet newIS toAdd all)))
            else
              let sorted := isort bySizeOlder all in
              match scaleMachineSetsProportionally d toAdd 0 sorted with
              | None => None
              | Some (sizes, added) => Some (combine sorted (addLeftover toAdd added sizes))
              end
        | _ => Some []
        end
  end.

(** pkg/controller/deployment_sync.go 570-604 cleanupMachineDeployment: the
    MachineSets it asks to delete, in order. [None]: the loop runs past the end
    of the slice and the controller panics (negative limit). *)
Definition cleanupMachineDeployment (d : MachineDeployment) (olds : list MachineSet) : option (list MachineSet) :=
  match md_historyLimit d with
  | None => Some []
  | Some limit =>
      let cleanable := filter (fun s => negb (ms_deleting s)) olds in
      let diff := Z.of_nat (List.length cleanable) - limit in
      if diff <=? 0 then Some []
      else if Z.of_nat (List.length cleanable) <? diff then None
      else
        Some (filter (fun s => negb (negb (ms_status s =? 0) || negb (ms_spec s =? 0) ||
                                     (ms_gen s >? ms_obsgen s) || ms_deleting s))
                     (firstn (Z.to_nat diff) (isort byCreation cleanable)))
  end.

(** What a reconcile asks the API for: a new size, a deletion, a new MachineSet
    (pkg/controller/deployment_sync.go 556, 597, 331). *)
Inductive Call := Resize (s : MachineSet) (n : Z) | Delete (s : MachineSet) | CreateSet (n : Z).

(** pkg/controller/deployment_sync.go 53-77 sync for a paused MachineDeployment
    with no rollback in flight: scale, then clean up. The call to
    getAllMachineSetsAndSyncRevision there has createIfNotExisted = false.
    [None]: undefined conversion or panic. *)
Definition syncPaused (d : MachineDeployment) (newIS : option MachineSet) (olds : list MachineSet) : option (list Call) :=
  match scale d newIS olds with
  | None => None
  | Some plan =>
      match cleanupMachineDeployment d olds with
      | None => None
      | Some dels => Some (map (fun p => Resize (fst p) (snd p)) plan ++ map Delete dels)
      end
  end.
