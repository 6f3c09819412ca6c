(** Broken machines and their replacement: the health check and the termination of the machine
    controller, the rate limit and the MachineSet controller in one world, in any interleaving.
    Models pkg/util/provider/machinecontroller/machine_util.go 618-806 (HealthModel.v), 1526-1602
    and 1640-1669, machine.go 175-240, and pkg/controller/machineset.go 333-452 and 665-711
    (MSetModel.v). One MachineSet of one MachineDeployment. A write on an outdated copy of a machine
    is refused by the API server, so a pass works on the stored machine or writes nothing ([ok]).
    The waiting for permits is one answer (see PermitModel.v, RateModel.v). *)
Require Import Coq.ZArith.ZArith Coq.Lists.List Coq.Strings.String Coq.Bool.Bool.
From Verif Require Import MachModel HealthModel MSetModel.
Import ListNotations.
Open Scope string_scope.
Open Scope list_scope.
Open Scope Z_scope.

(** A machine: number, whether the deletion trigger is set (pkg/util/provider/machineutils/utils.go
    117-121), status, deletion timestamp, whether its VM exists, what the node lister answers for it
    (machine_util.go 626), creation time. *)
Record HM := mkHM { h_id : nat; h_marked : bool; h_st : MStatus; h_del : bool; h_vm : bool; h_node : NodeAns; h_ctime : Z }.
(** The time, the MachineSet and its machines. Input of pkg/controller/machineset.go 457-587. *)
Record HW := mkHW { k_now : Z; k_spec : Z; k_frozen : bool; k_ms : list HM; k_next : nat }.
(** The effective settings of the machines: creation timeout, health timeout, conditions that count
    as broken, texts. machine_util.go 701-707, 876-885. *)
Record HConf := mkHC { c_creation : Z; c_health : Z; c_bad : string; c_show : Show }.

(** The phase of a machine (machine_types.go 244). *)
Definition h_phase (m : HM) : string := cs_phase (ms_cur (h_st m)).
(** The machine as the MachineSet controller sees it. pkg/controller/machineset.go 341-347. *)
Definition asMach (m : HM) : Mach :=
  mkMach (h_id m) "" (if h_marked m then "true" else "") (h_phase m) (h_ctime m) (h_del m).
(** The machine as the health check sees it; names and labels play no role.
    machine_util.go 618-806. *)
Definition asObj (m : HM) : MObj := mkMO "" (h_id m) 0 (h_ctime m) None [] [] [] "" (h_st m).

(** The same machine with another status, as UpdateStatus stores it
    (machine_util.go 786, 1541; pkg/controller/machineset.go 813). *)
Definition setStatus (s : MStatus) (m : HM) : HM := mkHM (h_id m) (h_marked m) s (h_del m) (h_vm m) (h_node m) (h_ctime m).
(** The same status with another phase and time. pkg/controller/machineset.go 694-704. *)
Definition withPhase (now : Z) (ph : string) (s : MStatus) : MStatus := mkMS (ms_conds s) (ms_op s) (mkCur ph false now) (ms_lks s).
(** The machine with a number changes. Writes of machine_util.go 786, 1541 go to one object. *)
Definition onMach (i : nat) (f : HM -> HM) (w : HW) : HW :=
  mkHW (k_now w) (k_spec w) (k_frozen w) (map (fun m => if Nat.eqb (h_id m) i then f m else m) (k_ms w)) (k_next w).

(** machine_util.go 1554-1602 with maxReplacements = 1 (69): no machine of the list is in another
    phase than Unknown and Running. *)
Definition canMark (phases : list string) : bool := forallb (fun p => String.eqb p "Unknown" || String.eqb p "Running") phases.

(** One pass over a machine. machine.go 136-240: nothing for a machine being deleted (154-157), the
    health check for a machine with a phase (206-208; the label "node" is there once the VM is).
    [seen]: the phases that the lister shows of the machines of the deployment (1562);
    [permit]: TryPermit succeeds (1641); [ok]: the write is accepted (786, 1541). *)
Definition pass (c : HConf) (now : Z) (seen : list string) (permit ok : bool) (m : HM) : HM :=
  if h_del m || String.eqb (h_phase m) "" then m
  else match reconcileMachineHealth (c_show c) (c_creation c) (c_health c) (c_bad c) now (h_node m) (asObj m) with
       | HWrite s => if ok then setStatus s m else m
       | HTryFail d s => if permit && canMark seen && ok then setStatus (failedStatus now d (asObj m) s) m else m
       | _ => m
       end.

(** pkg/controller/machineset.go 665-711 on the stored machine; [seenDeleting]: see MSetModel.v. *)
Definition hTerminate (api : Api) (now : Z) (seenDeleting : bool) (m : HM) : HM :=
  if seenDeleting then m
  else mkHM (h_id m) (h_marked m) (if a_status api (h_id m) then withPhase now "Terminating" (h_st m) else h_st m)
            (h_del m || a_delete api (h_id m)) (h_vm m) (h_node m) (h_ctime m).
(** No status yet. machine_types.go 94-108. *)
Definition noStatus : MStatus := mkMS [] (mkOp "" "" 0 "" "") (mkCur "" false 0) "".
(** Machines created by pkg/controller/controller_utils.go 526-599. *)
Fixpoint hCreated (now : Z) (from n : nat) : list HM :=
  match n with O => [] | S k => mkHM from false noStatus false false NodeMissing now :: hCreated now (S from) k end.
(** One pass of the MachineSet controller over what its cache shows.
    pkg/controller/machineset.go 333-452, 457-587. *)
Definition setPass (api : Api) (view : list Mach) (w : HW) : HW :=
  let p := manageReplicas (k_spec w) (k_frozen w) view in
  let targets := pl_stale p ++ pl_surplus p in
  let ms := map (fun m => match find (fun t => Nat.eqb (m_id t) (h_id m)) targets with
                          | Some t => hTerminate api (k_now w) (m_deleting t) m
                          | None => m
                          end) (k_ms w) in
  let '(_, ok, _) := slowStartBatch (pl_create p) 1 (a_create api) in
  mkHW (k_now w) (k_spec w) (k_frozen w) (ms ++ hCreated (k_now w) (k_next w) ok) (k_next w + ok).

(** What can happen: time passes; the node of a machine, as the lister shows it, changes; a pass of
    the machine controller; the creation of a machine ends in a phase (machine.go 455-677: Pending
    with a VM, CrashLoopBackOff or Failed; only for machines without phase or in CrashLoopBackOff);
    a pass of the MachineSet controller; the user marks a machine; the termination of a machine
    that is being deleted writes its phase, deletes the VM, and removes the object once there is no
    VM (machine.go 682-779; C24). *)
Inductive HOp :=
| HTick (d : nat)
| HNode (i : nat) (ans : NodeAns)
| HPass (i : nat) (seen : list string) (permit ok : bool)
| HMade (i : nat) (ph : string) (vm : bool)
| HSet (api : Api) (view : list Mach)
| HMark (i : nat)
| HTerm (i : nat)
| HVm (i : nat)
| HGone (i : nat).

(** One step. machine.go 136-240 and 682-779, pkg/controller/machineset.go 457-587. *)
Definition hstep (c : HConf) (w : HW) (o : HOp) : HW :=
  match o with
  | HTick d => mkHW (k_now w + Z.of_nat d) (k_spec w) (k_frozen w) (k_ms w) (k_next w)
  | HNode i ans => onMach i (fun m => mkHM (h_id m) (h_marked m) (h_st m) (h_del m) (h_vm m) ans (h_ctime m)) w
  | HPass i seen permit ok => onMach i (pass c (k_now w) seen permit ok) w
  | HMade i ph vm => onMach i (fun m =>
      if negb (h_del m) && (String.eqb (h_phase m) "" || String.eqb (h_phase m) "CrashLoopBackOff") &&
         (String.eqb ph "Pending" || String.eqb ph "CrashLoopBackOff" || String.eqb ph "Failed")
      then mkHM (h_id m) (h_marked m) (withPhase (k_now w) ph (h_st m)) (h_del m) (h_vm m || vm) (h_node m) (h_ctime m) else m) w
  | HSet api view => setPass api view w
  | HMark i => onMach i (fun m => mkHM (h_id m) true (h_st m) (h_del m) (h_vm m) (h_node m) (h_ctime m)) w
  | HTerm i => onMach i (fun m => if h_del m then setStatus (withPhase (k_now w) "Terminating" (h_st m)) m else m) w
  | HVm i => onMach i (fun m => if h_del m then mkHM (h_id m) (h_marked m) (h_st m) (h_del m) false (h_node m) (h_ctime m) else m) w
  | HGone i => mkHW (k_now w) (k_spec w) (k_frozen w) (filter (fun m => negb (Nat.eqb (h_id m) i && h_del m && negb (h_vm m))) (k_ms w)) (k_next w)
  end.
(** Any interleaving of them. machine.go 136-240, pkg/controller/machineset.go 457-587. *)
Definition hrun (c : HConf) (w : HW) (l : list HOp) : HW := fold_left (hstep c) l w.
