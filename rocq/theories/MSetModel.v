(** MachineSet controller: replica management.
    Models pkg/controller/machineset.go 333-452, 617-737, controller_utils.go
    731-787 and pkg/util/provider/machineutils/utils.go 100-121. *)
Require Import Coq.ZArith.ZArith Coq.Lists.List Coq.Strings.String Coq.Strings.Ascii Coq.Bool.Bool.
From Verif Require Import Sort.
Import ListNotations.
Open Scope string_scope.
Open Scope list_scope.
Open Scope Z_scope.

(** Machine as the MachineSet controller sees it
    (pkg/apis/machine/v1alpha1/machine_types.go): name, priority annotation
    (machinepriority.machine.sapcloud.io) and deletion-trigger annotation (both ""
    if absent), phase, creation time, whether the deletion timestamp is set. *)
Record Mach := mkMach {
  m_id : nat; m_prio : string; m_trigger : string; m_phase : string; m_ctime : Z; m_deleting : bool }.

(** strconv.Atoi of the Go library (external): optional sign, at least one digit,
    within int64. *)
Definition digit (a : ascii) : option Z :=
  let n := Z.of_nat (nat_of_ascii a) in if (48 <=? n) && (n <=? 57) then Some (n - 48) else None.
(** External; called at pkg/controller/controller_utils.go 731-787. *)
Fixpoint digits (acc : Z) (s : string) : option Z :=
  match s with
  | EmptyString => Some acc
  | String a r => match digit a with Some d => digits (acc * 10 + d) r | None => None end
  end.
(** External; called at pkg/controller/controller_utils.go 731-787. *)
Definition Atoi (s : string) : option Z :=
  let num t := match t with EmptyString => None | _ => digits 0 t end in
  let v := match s with
           | String "-" r => option_map Z.opp (num r)
           | String "+" r => num r
           | _ => num s
           end in
  match v with
  | Some z => if (-9223372036854775808 <=? z) && (z <=? 9223372036854775807) then Some z else None
  | None => None
  end.

(** The priority of a machine, pkg/controller/controller_utils.go 738-758. *)
Definition machinePriority (m : Mach) : Z :=
  match m_prio m with
  | EmptyString => 3
  | p => match Atoi p with Some n => n | None => 3 end
  end.

(** pkg/controller/controller_utils.go 763-771; a phase not in the map yields 0. *)
Definition phaseRank (p : string) : Z :=
  if String.eqb p "Terminating" then 0 else if String.eqb p "Failed" then 1
  else if String.eqb p "CrashLoopBackOff" then 2 else if String.eqb p "Unknown" then 3
  else if String.eqb p "Pending" then 4 else if String.eqb p "Available" then 5
  else if String.eqb p "Running" then 6 else 0.

(** pkg/controller/controller_utils.go 737-787 ActiveMachines.Less. *)
Definition Less (a b : Mach) : bool :=
  if negb (machinePriority a =? machinePriority b) then machinePriority a <? machinePriority b
  else if negb (phaseRank (m_phase a) =? phaseRank (m_phase b)) then phaseRank (m_phase a) <? phaseRank (m_phase b)
  else if negb (m_ctime a =? m_ctime b) then m_ctime a <? m_ctime b
  else false.

(** pkg/controller/machineset.go 645-655 getMachinesToDelete. The sort is any sort
    by [Less]; see Sort.v. *)
Definition getMachinesToDelete (l : list Mach) (diff : nat) : list Mach :=
  firstn diff (if Nat.ltb diff (List.length l) then isort (fun a b => negb (Less b a)) l else l).

(** pkg/util/provider/machineutils/utils.go 108-121. *)
Definition IsMachineActive (m : Mach) : bool :=
  negb (String.eqb (m_phase m) "Failed") && negb (String.eqb (m_phase m) "Terminating").
(** pkg/util/provider/machineutils/utils.go 108-121. *)
Definition IsMachineFailed (m : Mach) : bool := String.eqb (m_phase m) "Failed".
(** pkg/util/provider/machineutils/utils.go 108-121. *)
Definition IsMachineTriggeredForDeletion (m : Mach) : bool :=
  String.eqb (m_prio m) "1" || String.eqb (m_trigger m) "true".

(** pkg/controller/machineset.go 56-59. *)
Definition BurstReplicas : Z := 100.

(** pkg/controller/machineset.go 341-347. *)
Definition isStale (m : Mach) : bool := IsMachineFailed m || IsMachineTriggeredForDeletion m.
(** pkg/controller/machineset.go 341-347. *)
Definition isActive (m : Mach) : bool := negb (isStale m) && IsMachineActive m.

(** How many of the calls [from, from+n) succeed. pkg/controller/machineset.go 617-643. *)
Fixpoint succeeded (f : nat -> bool) (from n : nat) : nat :=
  match n with O => O | S k => (if f from then 1 else 0) + succeeded f (S from) k end.

(** pkg/controller/machineset.go 617-643 slowStartBatch: calls made, successes
    returned, whether an error is returned. [f i]: the i-th call succeeds. The
    calls of a batch run concurrently; only their number matters. [fuel] bounds the
    number of batches; [count] suffices. *)
Fixpoint slowLoop (fuel : nat) (f : nat -> bool) (done remaining batch : nat) : nat * nat * bool :=
  match fuel with
  | O => (O, O, false)
  | S fuel' =>
      match batch with
      | O => (O, O, false)
      | _ =>
          let ok := succeeded f done batch in
          if Nat.ltb ok batch then (batch, ok, true)
          else
            let remaining' := (remaining - batch)%nat in
            let '(c, s, e) := slowLoop fuel' f (done + batch) remaining' (Nat.min (2 * batch) remaining') in
            ((batch + c)%nat, (ok + s)%nat, e)
      end
  end.
(** pkg/controller/machineset.go 617-643. *)
Definition slowStartBatch (count initial : nat) (f : nat -> bool) : nat * nat * bool :=
  slowLoop (S count) f 0 count (Nat.min count initial).

(** What manageReplicas decides from its view of the machines
    (pkg/controller/machineset.go 333-452): the stale machines to terminate, the
    surplus machines to terminate, the number of machines to create. [spec]:
    spec.replicas; [frozen]: the label freeze is "True". It only runs while the
    MachineSet is not being deleted (545-548). *)
Record Plan := mkPlan { pl_stale : list Mach; pl_surplus : list Mach; pl_create : nat }.
(** pkg/controller/machineset.go 333-452. *)
Definition manageReplicas (spec : Z) (frozen : bool) (view : list Mach) : Plan :=
  let stale := filter isStale view in
  let active := filter isActive view in
  let diff := Z.of_nat (List.length active) - spec in
  if diff <? 0 then
    mkPlan stale [] (if frozen then 0 else Z.to_nat (Z.min (- diff) BurstReplicas))
  else if diff >? 0 then
    mkPlan stale (getMachinesToDelete active (Z.to_nat (Z.min diff BurstReplicas))) 0
  else mkPlan stale [] 0.

(** What the API server answers: the i-th create call, the delete call and the
    status update for a machine.
    External; calls at pkg/controller/machineset.go 376-423, 665-711. *)
Record Api := mkApi { a_create : nat -> bool; a_delete : nat -> bool; a_status : nat -> bool }.

(** pkg/controller/machineset.go 665-711 prepareMachineForDeletion: the effect on
    the stored machine; [seenDeleting]: the view shows a deletion timestamp. The
    machine has a finalizer, so it stays until that is removed. The status write
    happens also after a failed delete. Not modelled: updateMachineStatus (795-822)
    retries a failed write without bound. *)
Definition terminate (api : Api) (seenDeleting : bool) (m : Mach) : Mach :=
  if seenDeleting then m
  else mkMach (m_id m) (m_prio m) (m_trigger m) (if a_status api (m_id m) then "Terminating" else m_phase m)
              (m_ctime m) (m_deleting m || a_delete api (m_id m)).

(** Machines created by CreateMachinesWithControllerRef
    (pkg/controller/controller_utils.go 526-599) for a template without the two
    annotations: no phase yet. *)
Fixpoint created (now : Z) (from n : nat) : list Mach :=
  match n with O => [] | S k => mkMach from "" "" "" now false :: created now (S from) k end.

(** The MachineSet, its machines as stored and as the controller's cache shows
    them; [w_next] supplies fresh names. Input of pkg/controller/machineset.go 457-587. *)
Record World := mkW { w_spec : Z; w_frozen : bool; w_machines : list Mach; w_cache : list Mach; w_next : nat }.

(** One reconcile, pkg/controller/machineset.go 457-587 as far as machines go. *)
Definition reconcileMachineSet (api : Api) (now : Z) (w : World) : World :=
  let p := manageReplicas (w_spec w) (w_frozen w) (w_cache w) in
  let targets := pl_stale p ++ pl_surplus p in
  let ms := map (fun m => match find (fun t => Nat.eqb (m_id t) (m_id m)) targets with
                          | Some t => terminate api (m_deleting t) m
                          | None => m
                          end) (w_machines w) in
  let '(_, ok, _) := slowStartBatch (pl_create p) 1 (a_create api) in
  mkW (w_spec w) (w_frozen w) (ms ++ created now (w_next w) ok) (w_cache w) (w_next w + ok).

(** What can happen: a reconcile, the cache catching up, the user editing spec or
    the freeze label changing, a machine's phase changing, a machine marked for
    deletion vanishing. pkg/controller/machineset.go 457-587 and its surroundings. *)
Inductive Op :=
| OReconcile (api : Api) (now : Z)
| OObserve
| OScale (n : Z)
| OFreeze (b : bool)
| OPhase (id : nat) (phase : string)
| OGone (id : nat).

(** pkg/controller/machineset.go 457-587 and its surroundings. *)
Definition step (w : World) (o : Op) : World :=
  match o with
  | OReconcile api now => reconcileMachineSet api now w
  | OObserve => mkW (w_spec w) (w_frozen w) (w_machines w) (w_machines w) (w_next w)
  | OScale n => mkW n (w_frozen w) (w_machines w) (w_cache w) (w_next w)
  | OFreeze b => mkW (w_spec w) b (w_machines w) (w_cache w) (w_next w)
  | OPhase id ph => mkW (w_spec w) (w_frozen w)
      (map (fun m => if Nat.eqb (m_id m) id then mkMach (m_id m) (m_prio m) (m_trigger m) ph (m_ctime m) (m_deleting m) else m) (w_machines w))
      (w_cache w) (w_next w)
  | OGone id => mkW (w_spec w) (w_frozen w)
      (filter (fun m => negb (Nat.eqb (m_id m) id && m_deleting m)) (w_machines w)) (w_cache w) (w_next w)
  end.
(** Repeated reconciles (pkg/controller/machineset.go 457-587), any interleaving. *)
Definition run (w : World) (l : list Op) : World := fold_left step l w.
