(** The overshoot freeze of the safety controller.
    Models pkg/controller/machine_safety.go 36-491 and deployment_util.go 67-96.
    Simplification: int32 sums are unbounded integers. A part of the pass is
    described by the list of writes it makes in order; a failing call ends it
    after some prefix. Decisions are made on the view of the caches, which is an
    input. *)
Require Import Coq.ZArith.ZArith Coq.Lists.List Coq.Strings.String Coq.Bool.Bool.
From Verif Require Import Types RolloutModel StatusModel.
Import ListNotations.
Open Scope string_scope.
Open Scope list_scope.
Open Scope Z_scope.

(** MachineSet as the freeze sees it (pkg/apis/machine/v1alpha1/machineset_types.go):
    spec.replicas, labels of the template, the label "freeze" (its value),
    the other labels, whether a condition of type Frozen exists, whether the
    unfreeze annotation exists. *)
Record FSet := mkFSet {
  f_name : string; f_replicas : Z; f_tmpl : list (string * string);
  f_freeze : option string; f_labels : list (string * string); f_cond : bool; f_unfreeze : bool }.

(** MachineDeployment (pkg/apis/machine/v1alpha1/machinedeployment_types.go 46-187).
    [d_surge]: [None] when spec.strategy.rollingUpdate is nil, which is allowed
    for the Recreate and InPlaceUpdate strategies
    (pkg/apis/machine/validation/machinedeployment.go 41-71); inside it the
    possibly nil maxSurge. *)
Record FDep := mkFDep {
  d_name : string; d_replicas : Z; d_sel : list (string * string); d_surge : option (option IntOrString);
  d_freeze : option string; d_cond : bool; d_unfreeze : bool }.

(** Machine: labels and the names in its owner references. Used at machine_safety.go 208-224. *)
Record FMachine := mkFM { fm_labels : list (string * string); fm_owners : list string }.

(** What the caches show (pkg/controller/machine_safety.go 200, 208, 231). *)
Record View := mkView { v_sets : list FSet; v_deps : list FDep; v_machines : list FMachine }.

(** All labels of a set. machineset_types.go 26-40, metadata.labels. *)
Definition allLabels (s : FSet) : list (string * string) :=
  match f_freeze s with Some v => ("freeze", v) :: f_labels s | None => f_labels s end.

(** pkg/controller/deployment_util.go 67-96 and deployment.go 123-139: the
    deployments selecting the set. *)
Definition getMachineDeploymentsForMachineSet (deps : list FDep) (labels : list (string * string)) : list FDep :=
  match labels with
  | [] => []
  | _ => filter (fun d => match d_sel d with [] => false | _ => selectorMatches (d_sel d) labels end) deps
  end.

(** pkg/controller/machine_safety.go 213-224. *)
Fixpoint fullyLabeledReplicasCount (tmpl : list (string * string)) (name : string) (l : list FMachine) : Z :=
  match l with
  | [] => 0
  | m :: r =>
      (if selectorMatches tmpl (fm_labels m)
       then Z.of_nat (List.length (filter (String.eqb name) (fm_owners m))) else 0)
      + fullyLabeledReplicasCount tmpl name r
  end.

(** pkg/controller/machine_safety.go 226-250, the upper limit: a number, an error,
    or a nil dereference (line 238). *)
Inductive Limit := LimitIs (z : Z) | LimitErr | LimitPanic.
(** pkg/controller/machine_safety.go 226-250. *)
Definition higherThreshold (up : Z) (deps : list FDep) (s : FSet) : Limit :=
  match getMachineDeploymentsForMachineSet deps (allLabels s) with
  | [] => LimitIs (2 * f_replicas s + up)
  | d :: _ =>
      match d_surge d with
      | None => LimitPanic
      | Some surge =>
          match GetValueFromIntOrPercent surge (d_replicas d) true with
          | None => LimitErr
          | Some n => LimitIs (d_replicas d + n + up)
          end
      end
  end.

(** pkg/controller/machine_safety.go 260-281: what the pass over the sets does. *)
Inductive Verdict := VNone | VFreeze (s : FSet) | VUnfreeze (s : FSet) | VErr | VPanic.

(** The label says frozen, pkg/controller/machine_safety.go 262, 274. *)
Definition frozen (o : option string) : bool := match o with Some v => String.eqb v "True" | None => false end.

(** pkg/controller/machine_safety.go 199-281 checkAndFreezeORUnfreezeMachineSets:
    the loop, which ends with the first set it acts on. *)
Fixpoint checkLoop (up down : Z) (v : View) (l : list FSet) : Verdict :=
  match l with
  | [] => VNone
  | s :: r =>
      let count := fullyLabeledReplicasCount (f_tmpl s) (f_name s) (v_machines v) in
      match higherThreshold up (v_deps v) s with
      | LimitErr => VErr
      | LimitPanic => VPanic
      | LimitIs higher =>
          let lower := higher - down in
          if negb (frozen (f_freeze s)) && (higher <=? count) then VFreeze s
          else if (count <=? lower) && (frozen (f_freeze s) || f_cond s) then VUnfreeze s
          else checkLoop up down v r
      end
  end.
(** pkg/controller/machine_safety.go 199-279. *)
Definition check (up down : Z) (v : View) : Verdict := checkLoop up down v (v_sets v).

(** API writes: pkg/controller/machine_safety.go 315, 322, 372, 388 on a set (status
    then labels; unfreezing drops the annotation), 106 the annotation on a set,
    412, 419, 446, 462 on a deployment. *)
Inductive Write :=
| WSetCond (name : string) (b : bool)
| WSetLabel (name : string) (b : bool)
| WSetAnnotate (name : string)
| WDepCond (name : string) (b : bool)
| WDepLabel (name : string) (b : bool).

(** pkg/controller/machine_safety.go 413-445 freezeMachineDeployment. *)
Definition freezeMachineDeployment (d : FDep) : list Write := [WDepCond (d_name d) true; WDepLabel (d_name d) true].
(** pkg/controller/machine_safety.go 448-491. *)
Definition unfreezeMachineDeployment (d : FDep) : list Write := [WDepCond (d_name d) false; WDepLabel (d_name d) false].
(** pkg/controller/machine_safety.go 366-410. *)
Definition unfreezeMachineSet (s : FSet) : list Write := [WSetCond (f_name s) false; WSetLabel (f_name s) false].

(** pkg/controller/machine_safety.go 293-341 freezeMachineSetAndDeployment. [labels]: those of the set that was read live
    before freezing (309). *)
Definition freezeMachineSetAndDeployment (deps : list FDep) (labels : list (string * string)) (s : FSet) : list Write :=
  [WSetCond (f_name s) true; WSetLabel (f_name s) true] ++
  match getMachineDeploymentsForMachineSet deps labels with d :: _ => freezeMachineDeployment d | [] => [] end.
(** pkg/controller/machine_safety.go 344-363. *)
Definition unfreezeMachineSetAndDeployment (deps : list FDep) (s : FSet) : list Write :=
  match getMachineDeploymentsForMachineSet deps (allLabels s) with d :: _ => unfreezeMachineDeployment d | [] => [] end ++
  unfreezeMachineSet s.

(** The stored objects (pkg/apis/machine/v1alpha1). *)
Record FWorld := mkFW { fw_sets : list FSet; fw_deps : list FDep }.

(** One write taking effect.
    The API server (external); calls at pkg/controller/machine_safety.go 293-410. *)
Definition onFSet (name : string) (f : FSet -> FSet) (w : FWorld) : FWorld :=
  mkFW (map (fun s => if String.eqb (f_name s) name then f s else s) (fw_sets w)) (fw_deps w).
(** The same for deployments: pkg/controller/machine_safety.go 413-491. *)
Definition onFDep (name : string) (f : FDep -> FDep) (w : FWorld) : FWorld :=
  mkFW (fw_sets w) (map (fun d => if String.eqb (d_name d) name then f d else d) (fw_deps w)).

(** The fields written: pkg/controller/machine_safety.go 312-322, 370-388, 103-106,
    409-419, 443-462. *)
Definition write (w : FWorld) (x : Write) : FWorld :=
  match x with
  | WSetCond n b => onFSet n (fun s => mkFSet (f_name s) (f_replicas s) (f_tmpl s) (f_freeze s) (f_labels s) b (f_unfreeze s)) w
  | WSetLabel n b => onFSet n (fun s => mkFSet (f_name s) (f_replicas s) (f_tmpl s) (if b then Some "True" else None) (f_labels s)
                                   (f_cond s) (if b then f_unfreeze s else false)) w
  | WSetAnnotate n => onFSet n (fun s => mkFSet (f_name s) (f_replicas s) (f_tmpl s) (f_freeze s) (f_labels s) (f_cond s) true) w
  | WDepCond n b => onFDep n (fun d => mkFDep (d_name d) (d_replicas d) (d_sel d) (d_surge d) (d_freeze d) b (d_unfreeze d)) w
  | WDepLabel n b => onFDep n (fun d => mkFDep (d_name d) (d_replicas d) (d_sel d) (d_surge d) (if b then Some "True" else None)
                                   (d_cond d) (if b then d_unfreeze d else false)) w
  end.

(** Labels of the stored set of that name (read at
    pkg/controller/machine_safety.go 301). *)
Definition liveLabels (w : FWorld) (name : string) : list (string * string) :=
  match find (fun s => String.eqb (f_name s) name) (fw_sets w) with Some s => allLabels s | None => [] end.

(** pkg/controller/machine_safety.go 199-281: the writes of the first part. *)
Definition checkWrites (up down : Z) (v : View) (w : FWorld) : list Write :=
  match check up down v with
  | VFreeze s => freezeMachineSetAndDeployment (v_deps v) (liveLabels w (f_name s)) s
  | VUnfreeze s => unfreezeMachineSetAndDeployment (v_deps v) s
  | _ => []
  end.

(** pkg/controller/machine_safety.go 146-197 syncMachineDeploymentFreezeState.
    [sets d]: what getMachineSetsForMachineDeployment returns, [None] for an
    error, which the code takes for no sets. *)
Definition syncWrites (sets : FDep -> option (list FSet)) (deps : list FDep) : list Write :=
  flat_map (fun d =>
    let has := match sets d with Some l => existsb (fun s => frozen (f_freeze s) || f_cond s) l | None => false end in
    if has then (if negb (frozen (d_freeze d)) || negb (d_cond d) then freezeMachineDeployment d else [])
    else (if frozen (d_freeze d) || d_cond d then unfreezeMachineDeployment d else [])) deps.

(** pkg/controller/machine_safety.go 76-120 unfreezeMachineDeploymentsWithUnfreezeAnnotation. *)
Definition unfreezeDepsWrites (sets : FDep -> option (list FSet)) (deps : list FDep) : list Write :=
  flat_map (fun d =>
    if d_unfreeze d
    then unfreezeMachineDeployment d ++
         match sets d with Some l => map (fun s => WSetAnnotate (f_name s)) l | None => [] end
    else []) deps.

(** pkg/controller/machine_safety.go 123-143 unfreezeMachineSetsWithUnfreezeAnnotation. *)
Definition unfreezeSetsWrites (l : list FSet) : list Write :=
  flat_map (fun s => if f_unfreeze s then unfreezeMachineSet s else []) l.

(** What happens: the four parts of a pass (pkg/controller/machine_safety.go 38-73),
    each with its own view and the number of writes before the first failing call;
    anybody else changing the objects. *)
Inductive FOp :=
| FCheck (v : View) (writes : nat)
| FSync (sets : FDep -> option (list FSet)) (deps : list FDep) (writes : nat)
| FUnfreezeDeps (sets : FDep -> option (list FSet)) (deps : list FDep) (writes : nat)
| FUnfreezeSets (l : list FSet) (writes : nat)
| FEdit (w : FWorld).

(** One step (pkg/controller/machine_safety.go 38-73). *)
Definition fstep (up down : Z) (w : FWorld) (o : FOp) : FWorld :=
  match o with
  | FCheck v n => fold_left write (firstn n (checkWrites up down v w)) w
  | FSync sets deps n => fold_left write (firstn n (syncWrites sets deps)) w
  | FUnfreezeDeps sets deps n => fold_left write (firstn n (unfreezeDepsWrites sets deps)) w
  | FUnfreezeSets l n => fold_left write (firstn n (unfreezeSetsWrites l)) w
  | FEdit w' => w'
  end.

(** Passes with up-to-date views and no failing call, the machines staying as they
    are: only the first part (pkg/controller/machine_safety.go 50), repeated. *)
Fixpoint passes (n : nat) (up down : Z) (machines : list FMachine) (w : FWorld) : FWorld :=
  match n with
  | O => w
  | S n' => passes n' up down machines
              (fstep up down w (FCheck (mkView (fw_sets w) (fw_deps w) machines) 4))
  end.
