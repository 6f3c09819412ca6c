(** The Recreate strategy and the dispatch of a MachineDeployment reconcile.
    Models pkg/controller/deployment_recreate.go 35-153, deployment_sync.go
    673-698 and deployment.go 518-550. *)
Require Import Coq.ZArith.ZArith Coq.Lists.List Coq.Strings.String Coq.Bool.Bool.
From Verif Require Import Types Sort RolloutModel ScaleModel.
Import ListNotations.
Open Scope Z_scope.

(** The machine map of pkg/controller/deployment.go 375-410: MachineSet (here its
    name) and the number of its machines in the cache. *)
Definition MachineMap := list (string * Z).

(** pkg/controller/deployment_recreate.go 131-147 oldMachinesRunning. *)
Definition oldMachinesRunning (newIS : option MachineSet) (olds : list MachineSet) (mm : MachineMap) : bool :=
  (0 <? GetActualReplicaCountForMachineSets olds) ||
  existsb (fun p => match newIS with
                    | Some n => negb (String.eqb (ms_name n) (fst p)) && (0 <? snd p)
                    | None => 0 <? snd p
                    end) mm.

(** pkg/controller/deployment_recreate.go 35-103 rolloutRecreate with 106-128 and
    150-153, as the API writes it makes in order; a failing write ends it. The
    created set gets spec.replicas at once (deployment_sync.go 308,
    deployment_util.go 1106-1108). A set that has the size already is not written (deployment_sync.go
    531-533). [complete]: MachineDeploymentComplete of the stored status. [None]:
    panic in the clean-up (negative history limit; the write before it is not
    kept). Not modelled: the autoscaler annotations on nodes. *)
Definition rolloutRecreate (complete : bool) (d : MachineDeployment) (newIS : option MachineSet)
    (olds : list MachineSet) (mm : MachineMap) : option (list Call) :=
  match FilterActiveMachineSets olds with
  | (_ :: _) as act => Some (map (fun s => Resize s 0) act)
  | [] =>
      if oldMachinesRunning newIS olds mm then Some []
      else
        let up := match newIS with
                  | None => [CreateSet (md_replicas d)]
                  | Some n => if ms_spec n =? md_replicas d then [] else [Resize n (md_replicas d)]
                  end in
        if complete then
          match cleanupMachineDeployment d olds with
          | None => None
          | Some dels => Some (up ++ map Delete dels)
          end
        else Some up
  end.

(** pkg/controller/deployment_sync.go 673-698 isScalingEvent. *)
Definition isScalingEvent (d : MachineDeployment) (newIS : option MachineSet) (olds : list MachineSet) : bool :=
  match newIS with
  | None => false
  | Some _ =>
      match FilterActiveMachineSets (allSets newIS olds) with
      | [] => 0 <? md_replicas d
      | act => existsb (fun s => match ms_desired s with AnnInt n => negb (n =? md_replicas d) | _ => false end) act
      end
  end.

(** pkg/controller/deployment.go 532-548, not paused, no rollback requested, for
    the Recreate strategy; sync (deployment_sync.go 53-77) then only scales. *)
Definition reconcileRecreate (complete : bool) (d : MachineDeployment) (newIS : option MachineSet)
    (olds : list MachineSet) (mm : MachineMap) : option (list Call) :=
  if isScalingEvent d newIS olds then
    option_map (map (fun p => Resize (fst p) (snd p))) (scale d newIS olds)
  else rolloutRecreate complete d newIS olds mm.

(** A MachineSet with its template and its machines. Templates are numbers:
    equal number means equal template (pkg/controller/deployment_util.go 840-862). *)
Record RSet := mkRSet { r_template : nat; r_ms : MachineSet; r_machines : Z }.

(** The name of the set, machineset_types.go 26-40. *)
Definition r_name (x : RSet) : string := ms_name (r_ms x).

(** The cluster: current template and size of the MachineDeployment, its
    MachineSets. Input of pkg/controller/deployment_recreate.go 35-109. *)
Record World := mkWorld { w_template : nat; w_replicas : Z; w_limit : option Z; w_sets : list RSet }.

(** The API object seen by the controller
    (pkg/apis/machine/v1alpha1/machinedeployment_types.go 46-124). *)
Definition w_md (w : World) : MachineDeployment := mkMD (w_replicas w) Recreate (w_limit w) 0.

(** pkg/controller/deployment_util.go 864-877 FindNewMachineSet: the oldest set
    with the current template. *)
Definition findNew (w : World) : option RSet :=
  find (fun x => Nat.eqb (r_template x) (w_template w))
       (isort (fun a b => byCreation (r_ms a) (r_ms b)) (w_sets w)).

(** pkg/controller/deployment_util.go 881-896 FindOldMachineSets: all others. *)
Definition findOlds (w : World) : list MachineSet :=
  map r_ms (match findNew w with
            | None => w_sets w
            | Some n => filter (fun x => negb (String.eqb (r_name x) (r_name n))) (w_sets w)
            end).

(** One API write taking effect (pkg/controller/deployment_sync.go 331, 544-565,
    597). Creating a set under a name already in use is refused; the name is an
    input because it is a hash. *)
Definition applyCall (name : string) (now : Z) (w : World) (c : Call) : World :=
  match c with
  | Resize s n =>
      mkWorld (w_template w) (w_replicas w) (w_limit w)
        (map (fun x => if String.eqb (r_name x) (ms_name s)
                       then mkRSet (r_template x) (set_size (w_replicas w) (w_replicas w) (r_ms x) n) (r_machines x)
                       else x) (w_sets w))
  | Delete s =>
      mkWorld (w_template w) (w_replicas w) (w_limit w)
        (filter (fun x => negb (String.eqb (r_name x) (ms_name s))) (w_sets w))
  | CreateSet n =>
      if existsb (fun x => String.eqb (r_name x) name) (w_sets w) then w
      else mkWorld (w_template w) (w_replicas w) (w_limit w)
             (w_sets w ++ [mkRSet (w_template w)
                (mkMS name now false 1 0 n 0 0 0 (AnnInt (w_replicas w)) (AnnInt (w_replicas w))) 0])
  end.

(** What can happen. Reconcile: all inputs the controller does not decide, and
    how many of its writes succeed before the first failure or crash. The
    MachineSet controller adds a machine only below the requested size
    (pkg/controller/machineset.go 333-452); machines stop at any time; reports
    are arbitrary; the user edits template and size. *)
Inductive Event :=
| Reconcile (complete : bool) (name : string) (now : Z) (writes : nat)
| MachineUp (name : string)
| MachineDown (name : string)
| Report (name : string) (gen obsgen status avail : Z)
| SetTemplate (t : nat)
| SetReplicas (n : Z).

(** Change the set of the given name; harness of the model, no counterpart in
    /repo (pkg/controller/machineset.go 333-452 and 795-841 make such changes). *)
Definition onSet (name : string) (f : RSet -> RSet) (w : World) : World :=
  mkWorld (w_template w) (w_replicas w) (w_limit w)
    (map (fun x => if String.eqb (r_name x) name then f x else x) (w_sets w)).

(** One event. Reconcile follows pkg/controller/deployment.go 414-551. *)
Definition step (w : World) (e : Event) : World :=
  match e with
  | Reconcile complete name now writes =>
      match reconcileRecreate complete (w_md w) (option_map r_ms (findNew w)) (findOlds w)
              (map (fun x => (r_name x, r_machines x)) (w_sets w)) with
      | None => w
      | Some calls => fold_left (applyCall name now) (firstn writes calls) w
      end
  | MachineUp name => onSet name (fun x => if r_machines x <? ms_spec (r_ms x)
                                           then mkRSet (r_template x) (r_ms x) (r_machines x + 1) else x) w
  | MachineDown name => onSet name (fun x => if 0 <? r_machines x
                                             then mkRSet (r_template x) (r_ms x) (r_machines x - 1) else x) w
  | Report name g og st av =>
      onSet name (fun x => let s := r_ms x in
        mkRSet (r_template x) (mkMS (ms_name s) (ms_ctime s) (ms_deleting s) g og (ms_spec s) st av av (ms_desired s) (ms_max s))
               (r_machines x)) w
  | SetTemplate t => mkWorld t (w_replicas w) (w_limit w) (w_sets w)
  | SetReplicas n => if 0 <=? n then mkWorld (w_template w) n (w_limit w) (w_sets w) else w
  end.

(** A history (pkg/controller/deployment.go 414 is called again and again). *)
Definition run (w : World) (l : list Event) : World := fold_left step l w.
