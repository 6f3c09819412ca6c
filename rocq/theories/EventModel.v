(** Watch events of the two parent controllers: which MachineSets and MachineDeployments
    are queued when machines, MachineSets or MachineDeployments change.
    Models pkg/controller/machineset.go 77-318, deployment.go 56-345 and 379-412,
    deployment_util.go 67-96, and the registration in controller.go 108-147.
    Simplifications: labels are association lists, equal as maps when equal as lists;
    a selector is what its evaluation gives (invalid, empty, or a predicate on labels);
    keys are always computable (KeyFunc fails only for objects without metadata). *)
Require Import Coq.Lists.List Coq.Strings.String Coq.Bool.Bool Coq.Arith.PeanoNat.
Import ListNotations.
Open Scope string_scope.
Open Scope list_scope.

(** Labels of an object; read at pkg/controller/machineset.go 79, 102. *)
Definition Labels := list (string * string).

(** metav1.OwnerReference (external): kind, name, uid, controller flag, the remaining
    members. Read at pkg/controller/machineset.go 123-130. *)
Record Ref := mkRef { rf_kind : string; rf_name : string; rf_uid : nat; rf_ctrl : bool; rf_more : nat }.

(** A machine or MachineSet as a child: pkg/controller/machineset.go 162-268 and
    deployment.go 88-186 read these members. *)
Record Obj := mkObj { ob_ns : string; ob_name : string; ob_uid : nat; ob_rv : nat; ob_labels : Labels;
  ob_deleting : bool; ob_refs : list Ref }.

(** metav1.LabelSelectorAsSelector (external), called at pkg/controller/machineset.go 95
    and deployment_util.go 80: an error, an empty selector, or a predicate. *)
Inductive Sel := SInvalid | SEmpty | SMatch (f : Labels -> bool).

(** A MachineSet or MachineDeployment as a parent; [pa_recreate]: the strategy of a
    deployment is Recreate (pkg/controller/deployment.go 247). *)
Record Parent := mkParent { pa_ns : string; pa_name : string; pa_uid : nat; pa_sel : Sel; pa_recreate : bool }.

(** What handlers do: add a key to a queue (pkg/controller/machineset.go 311-318,
    deployment.go 266-274, machine_safety.go 288-290), or count for expectations
    (machineset.go 182, 306). *)
Inductive Eff :=
| QueueSet (ns name : string) | QueueDep (ns name : string) | QueueSafety
| CreationSeen (ns name : string) | DeletionSeen (ns name : string) (machine : string).

(** metav1.GetControllerOf (external): the first reference flagged as controller.
    Called at pkg/controller/machineset.go 172. *)
Definition GetControllerOf (o : Obj) : option Ref := find rf_ctrl (ob_refs o).

(** reflect.DeepEqual on references and labels; pkg/controller/machineset.go 217, 233. *)
Definition ref_eqb (a b : Ref) : bool :=
  String.eqb (rf_kind a) (rf_kind b) && String.eqb (rf_name a) (rf_name b) && Nat.eqb (rf_uid a) (rf_uid b) &&
  Bool.eqb (rf_ctrl a) (rf_ctrl b) && Nat.eqb (rf_more a) (rf_more b).
(** pkg/controller/machineset.go 233. *)
Definition oref_eqb (a b : option Ref) : bool :=
  match a, b with Some x, Some y => ref_eqb x y | None, None => true | _, _ => false end.
(** pkg/controller/machineset.go 217. *)
Fixpoint labels_eqb (a b : Labels) : bool :=
  match a, b with
  | [], [] => true
  | (k, v) :: a', (k', v') :: b' => String.eqb k k' && String.eqb v v' && labels_eqb a' b'
  | _, _ => false
  end.

(** A lookup by namespace and name: of the lister (pkg/controller/machineset.go 126) or
    at the API server (deployment.go 333). *)
Definition lookup (ps : list Parent) (ns name : string) : option Parent :=
  find (fun p => String.eqb (pa_ns p) ns && String.eqb (pa_name p) name) ps.

(** resolveMachineSetControllerRef, pkg/controller/machineset.go 120-136, and
    resolveDeploymentControllerRef, deployment.go 327-343. [get]: the answer to
    the lookup, [None] for any error. *)
Definition resolve (kind : string) (get : string -> string -> option Parent) (ns : string) (r : Ref) : option Parent :=
  if negb (String.eqb (rf_kind r) kind) then None
  else match get ns (rf_name r) with
       | None => None
       | Some p => if Nat.eqb (pa_uid p) (rf_uid r) then Some p else None
       end.

(** The loop over all parents, pkg/controller/machineset.go 91-106 with [inNs] the check
    92-94, and deployment_util.go 79-89 without it. [None]: an invalid selector. *)
Fixpoint matching (inNs : bool) (o : Obj) (ps : list Parent) : option (list Parent) :=
  match ps with
  | [] => Some []
  | p :: r =>
      if inNs && negb (String.eqb (pa_ns p) (ob_ns o)) then matching inNs o r
      else match pa_sel p with
           | SInvalid => None
           | SEmpty => matching inNs o r
           | SMatch f => match matching inNs o r with
                         | None => None
                         | Some l => Some (if f (ob_labels o) then p :: l else l)
                         end
           end
  end.

(** getMachineMachineSets, pkg/controller/machineset.go 77-115, and
    getMachineDeploymentsForMachineSet, deployment.go 119-137 with deployment_util.go
    67-96; all errors end in no parent. *)
Definition matchingParents (inNs : bool) (o : Obj) (ps : list Parent) : list Parent :=
  match ob_labels o with
  | [] => []
  | _ => match matching inNs o ps with Some l => l | None => [] end
  end.

(** What an informer hands to a delete handler: the object, a tombstone with it, a tombstone
    with something else, or something else (pkg/controller/machineset.go 272-291). *)
Inductive Deleted := DObj (o : Obj) | DTomb (o : Obj) | DOther.

(** deleteMachineToMachineSet, pkg/controller/machineset.go 272-308. *)
Definition deleteMachineToMachineSet (sets : list Parent) (d : Deleted) : list Eff :=
  match d with
  | DOther => []
  | DObj m | DTomb m =>
      match GetControllerOf m with
      | None => []
      | Some r =>
          match resolve "MachineSet" (lookup sets) (ob_ns m) r with
          | None => []
          | Some s => [DeletionSeen (pa_ns s) (pa_name s) (ob_name m); QueueSet (pa_ns s) (pa_name s)]
          end
      end
  end.

(** addMachineToMachineSet, pkg/controller/machineset.go 162-203. *)
Definition addMachineToMachineSet (sets : list Parent) (m : Obj) : list Eff :=
  if ob_deleting m then deleteMachineToMachineSet sets (DObj m)
  else match GetControllerOf m with
       | Some r =>
           match resolve "MachineSet" (lookup sets) (ob_ns m) r with
           | None => []
           | Some s => [CreationSeen (pa_ns s) (pa_name s); QueueSet (pa_ns s) (pa_name s)]
           end
       | None => map (fun s => QueueSet (pa_ns s) (pa_name s)) (matchingParents true m sets)
       end.

(** updateMachineToMachineSet, pkg/controller/machineset.go 208-268. *)
Definition updateMachineToMachineSet (sets : list Parent) (old cur : Obj) : list Eff :=
  if Nat.eqb (ob_rv cur) (ob_rv old) then []
  else
    let labelChanged := negb (labels_eqb (ob_labels cur) (ob_labels old)) in
    if ob_deleting cur then
      deleteMachineToMachineSet sets (DObj cur) ++
      (if labelChanged then deleteMachineToMachineSet sets (DObj old) else [])
    else
      let curRef := GetControllerOf cur in
      let oldRef := GetControllerOf old in
      let refChanged := negb (oref_eqb curRef oldRef) in
      (if refChanged then
         match oldRef with
         | Some r => match resolve "MachineSet" (lookup sets) (ob_ns old) r with
                     | Some s => [QueueSet (pa_ns s) (pa_name s)] | None => [] end
         | None => []
         end
       else []) ++
      match curRef with
      | Some r => match resolve "MachineSet" (lookup sets) (ob_ns cur) r with
                  | Some s => [QueueSet (pa_ns s) (pa_name s)] | None => [] end
      | None => if labelChanged || refChanged
                then map (fun s => QueueSet (pa_ns s) (pa_name s)) (matchingParents true cur sets) else []
      end.

(** deleteMachineSetToDeployment, pkg/controller/deployment.go 191-224. [get]: the live
    read (333). *)
Definition deleteMachineSetToDeployment (get : string -> string -> option Parent) (d : Deleted) : list Eff :=
  match d with
  | DOther => []
  | DObj s | DTomb s =>
      match GetControllerOf s with
      | None => []
      | Some r => match resolve "MachineDeployment" get (ob_ns s) r with
                  | None => [] | Some d => [QueueDep (pa_ns d) (pa_name d)] end
      end
  end.

(** addMachineSetToDeployment, pkg/controller/deployment.go 88-117. [deps]: the lister. *)
Definition addMachineSetToDeployment (get : string -> string -> option Parent) (deps : list Parent) (s : Obj) : list Eff :=
  if ob_deleting s then deleteMachineSetToDeployment get (DObj s)
  else match GetControllerOf s with
       | Some r => match resolve "MachineDeployment" get (ob_ns s) r with
                   | None => [] | Some d => [QueueDep (pa_ns d) (pa_name d)] end
       | None => map (fun d => QueueDep (pa_ns d) (pa_name d)) (matchingParents false s deps)
       end.

(** updateMachineSetToDeployment, pkg/controller/deployment.go 143-186. The two live reads
    may get different answers. *)
Definition updateMachineSetToDeployment (get get' : string -> string -> option Parent) (deps : list Parent) (old cur : Obj) : list Eff :=
  if Nat.eqb (ob_rv cur) (ob_rv old) then []
  else
    let curRef := GetControllerOf cur in
    let oldRef := GetControllerOf old in
    let refChanged := negb (oref_eqb curRef oldRef) in
    (if refChanged then
       match oldRef with
       | Some r => match resolve "MachineDeployment" get (ob_ns old) r with
                   | Some d => [QueueDep (pa_ns d) (pa_name d)] | None => [] end
       | None => []
       end
     else []) ++
    match curRef with
    | Some r => match resolve "MachineDeployment" get' (ob_ns cur) r with
                | Some d => [QueueDep (pa_ns d) (pa_name d)] | None => [] end
    | None => if negb (labels_eqb (ob_labels cur) (ob_labels old)) || refChanged
              then map (fun d => QueueDep (pa_ns d) (pa_name d)) (matchingParents false cur deps) else []
    end.

(** The world as deleteMachineToMachineDeployment reads it (pkg/controller/deployment.go
    247-263, 301-321, 379-412): live MachineSets, live deployments, machines in the cache. *)
Record View := mkView { vw_sets : list Obj; vw_deps : list Parent; vw_machines : list Obj }.

(** getMachineDeploymentForMachine, pkg/controller/deployment.go 298-322; reads answered. *)
Definition getMachineDeploymentForMachine (v : View) (m : Obj) : option Parent :=
  match GetControllerOf m with
  | None => None
  | Some r =>
      if negb (String.eqb (rf_kind r) "MachineSet") then None
      else match find (fun s => String.eqb (ob_ns s) (ob_ns m) && String.eqb (ob_name s) (rf_name r)) (vw_sets v) with
           | None => None
           | Some s => if negb (Nat.eqb (ob_uid s) (rf_uid r)) then None
                       else match GetControllerOf s with
                            | None => None
                            | Some r' => resolve "MachineDeployment" (lookup (vw_deps v)) (ob_ns s) r'
                            end
           end
  end.

(** Machines counted at pkg/controller/deployment.go 249-261: those of the deployment's
    MachineSets (ListMachineSets, deployment_util.go 761-782) that its selector matches
    (379-412). An invalid selector is an error: [None]. *)
Definition machinesOf (v : View) (d : Parent) : option (list Obj) :=
  match pa_sel d with
  | SInvalid => None
  | SEmpty => Some (filter (fun m => existsb (fun s =>
        String.eqb (ob_ns s) (pa_ns d) && match GetControllerOf s with Some r => Nat.eqb (rf_uid r) (pa_uid d) | None => false end &&
        match GetControllerOf m with Some r => Nat.eqb (rf_uid r) (ob_uid s) | None => false end) (vw_sets v)) (vw_machines v))
  | SMatch f => Some (filter (fun m => f (ob_labels m) && existsb (fun s =>
        String.eqb (ob_ns s) (pa_ns d) && f (ob_labels s) && match GetControllerOf s with Some r => Nat.eqb (rf_uid r) (pa_uid d) | None => false end &&
        match GetControllerOf m with Some r => Nat.eqb (rf_uid r) (ob_uid s) | None => false end) (vw_sets v)) (vw_machines v))
  end.

(** deleteMachineToMachineDeployment, pkg/controller/deployment.go 227-264. *)
Definition deleteMachineToMachineDeployment (v : View) (x : Deleted) : list Eff :=
  match x with
  | DOther => []
  | DObj m | DTomb m =>
      match getMachineDeploymentForMachine v m with
      | None => []
      | Some d => if pa_recreate d
                  then match machinesOf v d with Some [] => [QueueDep (pa_ns d) (pa_name d)] | _ => [] end
                  else []
      end
  end.

(** What an informer hands to deleteMachineDeployment, by type. Here machines and deployments
    meet: pkg/controller/controller.go 122, 134. *)
Inductive AnyDeleted := ADep (d : Parent) | AMachine (m : Obj) | ATombDep (d : Parent) | ATombMachine (m : Obj).

(** deleteMachineDeployment, pkg/controller/deployment.go 69-85: anything that is not a
    MachineDeployment is dropped. *)
Definition deleteMachineDeployment (x : AnyDeleted) : list Eff :=
  match x with
  | ADep d | ATombDep d => [QueueDep (pa_ns d) (pa_name d)]
  | _ => []
  end.

(** The handlers of a machine's deletion as registered: pkg/controller/controller.go
    108-112 and 121-123. *)
Definition onMachineDeleted (sets : list Parent) (x : Deleted) : list Eff :=
  deleteMachineToMachineSet sets x ++
  match x with
  | DObj m => deleteMachineDeployment (AMachine m)
  | DTomb m => deleteMachineDeployment (ATombMachine m)
  | DOther => []
  end.

(** The handlers of a new machine: pkg/controller/controller.go 108-112, 144-147 with
    machine_safety.go 282-290. *)
Definition onMachineAdded (sets : list Parent) (m : Obj) : list Eff := addMachineToMachineSet sets m ++ [QueueSafety].

(** The handlers of a changed machine: pkg/controller/controller.go 108-112. *)
Definition onMachineUpdated (sets : list Parent) (old cur : Obj) : list Eff := updateMachineToMachineSet sets old cur.

(** The handlers of MachineSets: pkg/controller/controller.go 114-118 (its own key, also on
    resync and deletion) and 125-129. *)
Definition onSetAdded (get : string -> string -> option Parent) (deps : list Parent) (s : Obj) : list Eff :=
  QueueSet (ob_ns s) (ob_name s) :: addMachineSetToDeployment get deps s.
(** pkg/controller/controller.go 114-118, 125-129, machineset.go 139-159. *)
Definition onSetUpdated (get get' : string -> string -> option Parent) (deps : list Parent) (old cur : Obj) : list Eff :=
  QueueSet (ob_ns cur) (ob_name cur) :: updateMachineSetToDeployment get get' deps old cur.
(** pkg/controller/controller.go 114-118, 125-129. A tombstone has the key of its object. *)
Definition onSetDeleted (get : string -> string -> option Parent) (x : Deleted) : list Eff :=
  match x with DObj s | DTomb s => [QueueSet (ob_ns s) (ob_name s)] | DOther => [] end ++ deleteMachineSetToDeployment get x.
