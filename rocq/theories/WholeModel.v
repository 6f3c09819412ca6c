(** A rolling update as a whole: the deployment controller, the MachineSet controllers, the machines
    and the caches, in any interleaving. Models pkg/controller/deployment_rolling.go 48-291 on cached
    objects, pkg/controller/machineset.go 333-452 and 457-587 in numbers. *)
Require Import Coq.ZArith.ZArith Coq.Lists.List Coq.Strings.String Coq.Bool.Bool.
From Verif Require Import Types RolloutModel.
Import ListNotations.
Open Scope Z_scope.

(** A MachineSet as stored, the machines of it that exist and are not being deleted, and how many of
    these are available. pkg/controller/machineset.go 457-587. *)
Record XSet := mkX { x_set : MachineSet; x_have : Z; x_up : Z }.
(** The new set, the old ones, and how many machines became unavailable of themselves.
    pkg/controller/deployment_rolling.go 48-124. *)
Record World := mkW { w_new : XSet; w_olds : list XSet; w_lost : Z }.

(** What can happen. [Reconcile]: the deployment controller works on what its cache holds, which may
    be older than what is stored (deployment.go 435-578). [Report]: a status is written (machineset.go
    567-575); the numbers may be outdated. [Work k]: a MachineSet controller makes or deletes up to
    [k] machines (machineset.go 333-452). [Ready], [Lost]: a machine becomes available or ceases to be
    so. [Gone]: an unavailable machine vanishes. *)
Inductive Op :=
| Reconcile (api : Api) (vn : MachineSet) (vo : list MachineSet)
| Report (name : string) (replicas avail : Z)
| Work (name : string) (k : nat)
| Ready (name : string)
| Lost (name : string)
| Gone (name : string).

(** Equality of objects, that is of their resource versions. The check is that of the API server
    (external); update at pkg/controller/deployment_sync.go 545-565. *)
Definition ms_dec (a b : MachineSet) : {a = b} + {a <> b}.
Proof. decide equality; try apply Z.eq_dec; try apply string_dec; try apply bool_dec; decide equality; apply Z.eq_dec. Defined.

(** The object of a name. Listers at pkg/controller/deployment.go 340-380. *)
Definition lookup (name : string) (l : list MachineSet) : option MachineSet := find (fun s => String.eqb (ms_name s) name) l.
(** All stored sets. pkg/controller/deployment_rolling.go 49-60. *)
Definition stored (w : World) : list MachineSet := map x_set (w_new w :: w_olds w).
(** The cached object of this name is the stored one, so that an update of it is accepted.
    pkg/controller/deployment_sync.go 545-565. *)
Definition current (w : World) (v : list MachineSet) (name : string) : bool :=
  match lookup name v, lookup name (stored w) with Some a, Some b => if ms_dec a b then true else false | _, _ => false end.
(** Which updates are accepted. pkg/controller/deployment_sync.go 545-565. *)
Definition guard (w : World) (api : Api) (vn : MachineSet) (vo : list MachineSet) : Api :=
  mkApi (api_new api && current w (vn :: vo) (ms_name vn))
        (fun s => api_clean api s && current w (vn :: vo) (ms_name s))
        (fun s => api_down api s && current w (vn :: vo) (ms_name s)).
(** The stored object after a reconcile on the objects [v] that left the objects [after].
    pkg/controller/deployment_sync.go 545-565. *)
Definition written (v after : list MachineSet) (s : MachineSet) : MachineSet :=
  match lookup (ms_name s) v, lookup (ms_name s) after with
  | Some a, Some b => if ms_dec a b then s else b
  | _, _ => s
  end.
(** pkg/controller/deployment_rolling.go 48-124 on cached objects. *)
Definition reconcile (d : MachineDeployment) (w : World) (api : Api) (vn : MachineSet) (vo : list MachineSet) : World :=
  let '(n', o') := rolloutRolling (guard w api vn vo) d vn vo in
  let put x := mkX (written (vn :: vo) (n' :: o') (x_set x)) (x_have x) (x_up x) in
  mkW (put (w_new w)) (map put (w_olds w)) (w_lost w).

(** The change of one set. Used for the writes at pkg/controller/machineset.go 457-587. *)
Definition onSet (name : string) (f : XSet -> XSet) (w : World) : World :=
  let g x := if String.eqb (ms_name (x_set x)) name then f x else x in
  mkW (g (w_new w)) (map g (w_olds w)) (w_lost w).
(** pkg/controller/machineset.go 567-575. *)
Definition report (replicas avail : Z) (x : XSet) : XSet :=
  let s := x_set x in
  mkX (mkMS (ms_name s) (ms_ctime s) (ms_deleting s) (ms_gen s) (ms_obsgen s) (ms_spec s) replicas avail avail (ms_desired s) (ms_max s)) (x_have x) (x_up x).
(** pkg/controller/machineset.go 376-452: towards the requested size, unavailable machines are deleted
    first (645-655 and the order of controller_utils.go 737-787). *)
Definition work (k : nat) (x : XSet) : XSet :=
  let spec := ms_spec (x_set x) in
  if x_have x <? spec then mkX (x_set x) (Z.min spec (x_have x + Z.of_nat k)) (x_up x)
  else let h := Z.max spec (x_have x - Z.of_nat k) in mkX (x_set x) h (Z.min (x_up x) h).
(** Machines become available: machine.go 243-401 of the machine controller. *)
Definition ready (x : XSet) : XSet := if x_up x <? x_have x then mkX (x_set x) (x_have x) (x_up x + 1) else x.
(** ... and unavailable (machine_util.go 914-1037). *)
Definition lost (x : XSet) : XSet := if 0 <? x_up x then mkX (x_set x) (x_have x) (x_up x - 1) else x.
(** ... and vanish (machineset.go 669-740 and by hand). *)
Definition gone (x : XSet) : XSet := if x_up x <? x_have x then mkX (x_set x) (x_have x - 1) (x_up x) else x.
(** How many available machines are lost by [Lost]. machine_util.go 914-1037. *)
Definition losses (name : string) (w : World) : Z :=
  fold_right (fun x n => (if String.eqb (ms_name (x_set x)) name && (0 <? x_up x) then 1 else 0) + n) 0 (w_new w :: w_olds w).

(** One step. pkg/controller/deployment_rolling.go 48-124, machineset.go 457-587. *)
Definition step (d : MachineDeployment) (w : World) (o : Op) : World :=
  match o with
  | Reconcile api vn vo => reconcile d w api vn vo
  | Report n r a => onSet n (report r a) w
  | Work n k => onSet n (work k) w
  | Ready n => onSet n ready w
  | Lost n => let w' := onSet n lost w in mkW (w_new w') (w_olds w') (w_lost w + losses n w)
  | Gone n => onSet n gone w
  end.
(** Any interleaving of them. The controllers run side by side: pkg/controller/controller.go 194-224. *)
Definition run (d : MachineDeployment) (w : World) (l : list Op) : World := fold_left (step d) l w.
