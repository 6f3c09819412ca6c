(** The life of a MachineDeployment as in [WishModel], with a controller whose cache of MachineSets lags behind.
    Models pkg/controller/deployment.go 425-551 (the deployment itself is read from the API server, 427; the
    MachineSets come from the cache, 340-372), deployment_sync.go 53-77, 235-400, 402-565, deployment_rolling.go
    48-124, deployment_rollback.go 37-138. Simplified as [WishModel]; moreover the name of a set goes with its
    template, so that a set of a template that exists already is not made twice under another name. *)
Require Import Coq.ZArith.ZArith Coq.Lists.List Coq.Strings.String Coq.Bool.Bool.
From Verif Require Import Types RolloutModel ScaleModel RecreateModel WholeModel WishModel.
Import ListNotations.
Open Scope Z_scope.

(** The set of a name. Listers at pkg/controller/deployment.go 340-372. *)
Definition called (nm : string) (l : list TSet) : option TSet := find (fun t => String.eqb (ms_name (obj t)) nm) l.
(** An update of the cached object of this name is accepted: it is the stored one. The check is that of the API
    server (external; resource version and UID); updates at pkg/controller/deployment_sync.go 544-565. The numbers
    of machines are not part of the object. *)
Definition accepted (w : Dep) (v : list TSet) (nm : string) : bool :=
  match called nm v, called nm (p_sets w) with
  | Some a, Some b => (t_tmpl a =? t_tmpl b) && (if ms_dec (obj a) (obj b) then true else false)
  | _, _ => false
  end.

(** Which of the sizes are written: an update that would change nothing is not made (pkg/controller/deployment_sync.go
    531-533 and 553), one that is refused ends it (414, 422, 477). *)
Fixpoint done (w : Dep) (v : list TSet) (plan : list (MachineSet * Z)) : list (MachineSet * Z) :=
  match plan with
  | [] => []
  | (s, n) :: r =>
      if accepted w v (ms_name s) then (s, n) :: done w v r
      else if ms_dec (resize (dep w) s n) s then done w v r
      else []
  end.
(** pkg/controller/deployment_sync.go 53-77 sync, of which the scaling (402-489), on the cached sets [v]. *)
Definition scaleBehind (w : Dep) (v : list TSet) (writes : nat) : Dep :=
  match scale (dep w) (option_map obj (newSet (withSets w v))) (map obj (oldSets (withSets w v))) with
  | None => w
  | Some plan => withSets w (map (fun t => withObj t (resized (dep w) (done w v (firstn writes plan)) (obj t))) (p_sets w))
  end.

(** pkg/controller/deployment_sync.go 288-400: the set of the template is made from what the cache shows. Where it
    exists already the cache is asked for it again ([late], 340-352), otherwise the call may fail. Result: what is
    stored and the sets known. [None]: an error. *)
Definition createBehind (w : Dep) (v : list TSet) (late : option TSet) (a : Calls) : option (Dep * list TSet) :=
  if existsb (fun t => String.eqb (ms_name (obj t)) (a_name a) || (t_tmpl t =? p_tmpl w)) (p_sets w) then
    match late with
    | Some t => if String.eqb (ms_name (obj t)) (a_name a) && (t_tmpl t =? p_tmpl w) then Some (w, t :: v) else None
    | None => None
    end
  else if negb (a_make a) then None
  else match createdMS (dep w) (a_name a) (a_now a) (map obj (oldSets (withSets w v))) with
       | None => None
       | Some s => let t := mkT (p_tmpl w) (mkX s 0 0) in Some (withSets w (t :: p_sets w), t :: v)
       end.
(** pkg/controller/deployment_sync.go 235-400 with createIfNotExisted. *)
Definition ensureBehind (w : Dep) (v : list TSet) (late : option TSet) (a : Calls) : option (Dep * list TSet) :=
  match newSet (withSets w v) with Some _ => Some (w, v) | None => createBehind w v late a end.

(** Which updates of the rollout are accepted. pkg/controller/deployment_sync.go 544-565. *)
Definition guarded (w : Dep) (v : list TSet) (api : Api) (vn : MachineSet) : Api :=
  mkApi (api_new api && accepted w v (ms_name vn))
        (fun s => api_clean api s && accepted w v (ms_name s))
        (fun s => api_down api s && accepted w v (ms_name s)).
(** pkg/controller/deployment_rolling.go 48-124 on the cached sets [v], the template's being among them. *)
Definition rollBehind (w : Dep) (v : list TSet) (api : Api) : Dep :=
  match newSet (withSets w v) with
  | None => w
  | Some n =>
      let vn := obj n in
      let vo := map obj (oldSets (withSets w v)) in
      let '(n', o') := rolloutRolling (guarded w v api vn) (dep w) vn vo in
      withSets w (map (fun t => withObj t (written (vn :: vo) (n' :: o') (obj t))) (p_sets w))
  end.
(** pkg/controller/deployment_rollback.go 37-138: the template is that of the cached set. *)
Definition rolledBackBehind (w : Dep) (v : list TSet) (nm : string) : Dep :=
  let t := match called nm v with Some t => t_tmpl t | None => p_tmpl w end in
  mkDep t (p_size w) (p_surge w) (p_unavail w) (p_paused w) None (p_sets w).

(** pkg/controller/deployment.go 522-551 on the cached sets [v]. *)
Definition reconcileBehind (w : Dep) (v : list TSet) (late : option TSet) (a : Calls) : Dep :=
  if p_paused w then scaleBehind w v (a_writes a)
  else match p_back w with
       | Some nm => match ensureBehind w v late a with None => w | Some (w1, v1) => if a_dep a then rolledBackBehind w1 v1 nm else w1 end
       | None =>
           if isScalingEvent (dep w) (option_map obj (newSet (withSets w v))) (map obj (oldSets (withSets w v))) then scaleBehind w v (a_writes a)
           else match ensureBehind w v late a with None => w | Some (w1, v1) => rollBehind w1 v1 (a_roll a) end
       end.

(** [Behind]: a reconcile on a cache that may lag. [Now]: what [WishModel] knows; a reconcile there is one whose
    cache is up to date. pkg/controller/deployment.go 425-551. *)
Inductive Op := Behind (v : list TSet) (late : option TSet) (a : Calls) | Now (o : WishModel.Op).
(** One step. pkg/controller/deployment.go 425-551. *)
Definition step (w : Dep) (o : Op) : Dep :=
  match o with Behind v late a => reconcileBehind w v late a | Now o => WishModel.step w o end.
(** Any interleaving of them. pkg/controller/controller.go 194-224. *)
Definition run (w : Dep) (l : list Op) : Dep := fold_left step l w.
