(** The whole life of a MachineDeployment with a rolling strategy: changes by the user at any moment, the
    choice the controller makes at every reconcile, and what happens to the machines meanwhile. Models
    pkg/controller/deployment.go 510-551, deployment_sync.go 53-77 and 235-400, deployment_rollback.go
    37-138, deployment_rolling.go 48-124. Simplified: the deployment controller sees what is stored (for
    outdated caches see [WholeModel] and [LateModel]); templates are numbers, at most one set has a given one; the
    revision a rollback asks for is the name of the set that bears it. *)
Require Import Coq.ZArith.ZArith Coq.Lists.List Coq.Strings.String Coq.Bool.Bool.
From Verif Require Import Types RolloutModel ScaleModel RecreateModel WholeModel.
Import ListNotations.
Open Scope Z_scope.

(** A MachineSet with its template, its machines and how many are available.
    pkg/apis/machine/v1alpha1/machineset_types.go. *)
Record TSet := mkT { t_tmpl : Z; t_x : XSet }.
(** The MachineDeployment (pkg/apis/machine/v1alpha1/machinedeployment_types.go 55-187) and its sets. *)
Record Dep := mkDep {
  p_tmpl : Z;                       (* spec.template *)
  p_size : Z;                       (* spec.replicas *)
  p_surge : option IntOrString;     (* spec.strategy.rollingUpdate.maxSurge *)
  p_unavail : option IntOrString;   (* spec.strategy.rollingUpdate.maxUnavailable *)
  p_paused : bool;                  (* spec.paused *)
  p_back : option string;           (* spec.rollbackTo *)
  p_sets : list TSet
}.

(** The object the helpers take. pkg/controller/deployment.go 435-460. *)
Definition dep (w : Dep) : MachineDeployment := mkMD (p_size w) (RollingUpdate (p_surge w) (p_unavail w)) None 0.
(** The stored object of a set. pkg/controller/deployment.go 340-372. *)
Definition obj (t : TSet) : MachineSet := x_set (t_x t).
(** pkg/controller/deployment_util.go 863-877 FindNewMachineSet. *)
Definition isNew (w : Dep) (t : TSet) : bool := t_tmpl t =? p_tmpl w.
(** pkg/controller/deployment_util.go 863-877 FindNewMachineSet. *)
Definition newSet (w : Dep) : option TSet := find (isNew w) (p_sets w).
(** pkg/controller/deployment_util.go 879-896 FindOldMachineSets. *)
Definition oldSets (w : Dep) : list TSet := filter (fun t => negb (isNew w t)) (p_sets w).
(** The sets are changed, the deployment is not. pkg/controller/deployment_sync.go 545-565. *)
Definition withSets (w : Dep) (l : list TSet) : Dep :=
  mkDep (p_tmpl w) (p_size w) (p_surge w) (p_unavail w) (p_paused w) (p_back w) l.
(** A set gets another stored object. pkg/controller/deployment_sync.go 545-565. *)
Definition withObj (t : TSet) (s : MachineSet) : TSet := mkT (t_tmpl t) (mkX s (x_have (t_x t)) (x_up (t_x t))).

(** The outcomes of the calls of one reconcile: updates by the rollout; the creation of a MachineSet, its name
    and its time; the update of the deployment; how many updates by [scale] succeed before one fails.
    External; calls at pkg/controller/deployment_sync.go 331 and 545-565, deployment_rollback.go 135. *)
Record Calls := mkCalls { a_roll : Api; a_make : bool; a_name : string; a_now : Z; a_dep : bool; a_writes : nat }.

(** The object after the sizes of [plan] were written. pkg/controller/deployment_sync.go 544-565. *)
Definition resized (d : MachineDeployment) (plan : list (MachineSet * Z)) (s : MachineSet) : MachineSet :=
  match find (fun p => String.eqb (ms_name (fst p)) (ms_name s)) plan with Some p => resize d s (snd p) | None => s end.
(** pkg/controller/deployment_sync.go 53-77 sync, of which the scaling (402-489). An update that fails ends it.
    Where the size is undefined ([scale] is [None]) the world is left alone; the statements exclude it or say when it cannot be. *)
Definition scaleStep (w : Dep) (writes : nat) : Dep :=
  match scale (dep w) (option_map obj (newSet w)) (map obj (oldSets w)) with
  | None => w
  | Some plan => withSets w (map (fun t => withObj t (resized (dep w) (firstn writes plan) (obj t))) (p_sets w))
  end.

(** pkg/controller/deployment_sync.go 288-400: the set of the template is made. [None]: an error. *)
Definition create (w : Dep) (a : Calls) : option Dep :=
  if existsb (fun t => String.eqb (ms_name (obj t)) (a_name a)) (p_sets w) || negb (a_make a) then None
  else match createdMS (dep w) (a_name a) (a_now a) (map obj (oldSets w)) with
       | None => None
       | Some s => Some (withSets w (mkT (p_tmpl w) (mkX s 0 0) :: p_sets w))
       end.
(** pkg/controller/deployment_sync.go 235-400 with createIfNotExisted: the set of the template is there, or made. *)
Definition ensure (w : Dep) (a : Calls) : option Dep := match newSet w with Some _ => Some w | None => create w a end.

(** pkg/controller/deployment_rolling.go 48-124, the set of the template being known. *)
Definition roll (w : Dep) (api : Api) : Dep :=
  match newSet w with
  | None => w
  | Some n =>
      let vn := obj n in
      let vo := map obj (oldSets w) in
      let '(n', o') := rolloutRolling (guard (mkW (t_x n) (map t_x (oldSets w)) 0) api vn vo) (dep w) vn vo in
      withSets w (map (fun t => withObj t (written (vn :: vo) (n' :: o') (obj t))) (p_sets w))
  end.

(** pkg/controller/deployment_rollback.go 37-138: the template of the set asked for is taken over, if there is such
    a set; the request is removed. *)
Definition rolledBack (w : Dep) (name : string) : Dep :=
  let t := match find (fun t => String.eqb (ms_name (obj t)) name) (p_sets w) with Some t => t_tmpl t | None => p_tmpl w end in
  mkDep t (p_size w) (p_surge w) (p_unavail w) (p_paused w) None (p_sets w).

(** pkg/controller/deployment.go 522-551. *)
Definition reconcile (w : Dep) (a : Calls) : Dep :=
  if p_paused w then scaleStep w (a_writes a)
  else match p_back w with
       | Some name => match ensure w a with None => w | Some w1 => if a_dep a then rolledBack w1 name else w1 end
       | None =>
           if isScalingEvent (dep w) (option_map obj (newSet w)) (map obj (oldSets w)) then scaleStep w (a_writes a)
           else match ensure w a with None => w | Some w1 => roll w1 (a_roll a) end
       end.

(** What users change. pkg/apis/machine/v1alpha1/machinedeployment_types.go 55-124. *)
Inductive Edit := SetTemplate (t : Z) | SetSize (n : Z) | SetBudget (surge unavail : option IntOrString) | Pause (b : bool) | RollBack (name : string).
(** pkg/apis/machine/v1alpha1/machinedeployment_types.go 55-124. *)
Definition edit (w : Dep) (e : Edit) : Dep :=
  match e with
  | SetTemplate t => mkDep t (p_size w) (p_surge w) (p_unavail w) (p_paused w) (p_back w) (p_sets w)
  | SetSize n => mkDep (p_tmpl w) n (p_surge w) (p_unavail w) (p_paused w) (p_back w) (p_sets w)
  | SetBudget s u => mkDep (p_tmpl w) (p_size w) s u (p_paused w) (p_back w) (p_sets w)
  | Pause b => mkDep (p_tmpl w) (p_size w) (p_surge w) (p_unavail w) b (p_back w) (p_sets w)
  | RollBack name => mkDep (p_tmpl w) (p_size w) (p_surge w) (p_unavail w) (p_paused w) (Some name) (p_sets w)
  end.

(** What happens to one set, as in [WholeModel]. pkg/controller/machineset.go 333-587. *)
Inductive Change := CReport (replicas avail : Z) | CWork (k : nat) | CReady | CLost | CGone.
(** pkg/controller/machineset.go 333-587. *)
Definition change (c : Change) : XSet -> XSet :=
  match c with CReport r a => report r a | CWork k => work k | CReady => ready | CLost => lost | CGone => gone end.

(** [Clean]: an empty set that is not the template's is deleted, as the clean-up of the history does
    (pkg/controller/deployment_sync.go 570-604), at any moment. *)
Inductive Op := Do (a : Calls) | Change_ (e : Edit) | Happens (name : string) (c : Change) | Clean (name : string).
(** One step. pkg/controller/deployment.go 435-551. *)
Definition step (w : Dep) (o : Op) : Dep :=
  match o with
  | Do a => reconcile w a
  | Change_ e => edit w e
  | Happens name c =>
      withSets w (map (fun t => if String.eqb (ms_name (obj t)) name then mkT (t_tmpl t) (change c (t_x t)) else t) (p_sets w))
  | Clean name =>
      withSets w (filter (fun t => negb (String.eqb (ms_name (obj t)) name && negb (isNew w t) && (ms_spec (obj t) =? 0) && (x_have (t_x t) =? 0))) (p_sets w))
  end.
(** Any interleaving of them. pkg/controller/controller.go 194-224. *)
Definition run (w : Dep) (l : list Op) : Dep := fold_left step l w.
