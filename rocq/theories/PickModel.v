(** The autoscaler names machines and lowers the size: the MachineDeployment controller and the
    MachineSet controller on the way from the annotation to the deletions.
    Models pkg/controller/deployment.go 518-540 and 615-671, deployment_sync.go 402-421 and
    machineset.go 333-452 (MSetModel.v). One MachineSet with machines; names are numbers; a write on
    an outdated copy is refused by the API server, which is a failed call. *)
Require Import Coq.ZArith.ZArith Coq.Lists.List Coq.Strings.String Coq.Bool.Bool.
From Verif Require Import MSetModel.
Import ListNotations.
Open Scope string_scope.
Open Scope list_scope.
Open Scope Z_scope.

(** Time, wanted size and named machines of the deployment (annotation
    node.machine.sapcloud.io/trigger-deletion-by-mcm, pkg/util/annotations/annotations.go 76-88), size
    of its set, machines, next number. Input of pkg/controller/deployment.go 423-545. *)
Record PW := mkPW { p_now : Z; p_want : Z; p_names : list nat; p_size : Z; p_ms : list Mach; p_next : nat }.

(** pkg/controller/deployment.go 638-643: the annotation for priority 1. *)
Definition withPrio1 (i : nat) (m : Mach) : Mach :=
  if Nat.eqb (m_id m) i then mkMach (m_id m) "1" (m_trigger m) (m_phase m) (m_ctime m) (m_deleting m) else m.

(** pkg/controller/deployment.go 622-649: the machines, the names to be dropped, whether a call
    failed. [fails]: the update of the machine fails. *)
Fixpoint markNamed (fails : nat -> bool) (names : list nat) (ms : list Mach) : list Mach * list nat * bool :=
  match names with
  | [] => (ms, [], false)
  | i :: r =>
      match find (fun m => Nat.eqb (m_id m) i) ms with
      | None => let '(ms', skip, e) := markNamed fails r ms in (ms', i :: skip, e)
      | Some m =>
          if negb (IsMachineActive m) then let '(ms', skip, e) := markNamed fails r ms in (ms', i :: skip, e)
          else if String.eqb (m_prio m) "1" then markNamed fails r ms
          else if fails i then (ms, [], true)
          else markNamed fails r (map (withPrio1 i) ms)
      end
  end.

(** One pass of the MachineDeployment controller: pkg/controller/deployment.go 518-540 with 615-671,
    then the size of its only active set (deployment_sync.go 402-421). [depOk]: the update of the
    deployment succeeds; [sizeOk]: the update of the set does. *)
Definition depPass (fails : nat -> bool) (depOk sizeOk : bool) (w : PW) : PW :=
  let '(ms, skip, e) := markNamed fails (p_names w) (p_ms w) in
  if e then mkPW (p_now w) (p_want w) (p_names w) (p_size w) ms (p_next w)
  else
    let drop := match skip with [] => false | _ => true end in
    if drop && negb depOk then mkPW (p_now w) (p_want w) (p_names w) (p_size w) ms (p_next w)
    else mkPW (p_now w) (p_want w) (filter (fun i => negb (existsb (Nat.eqb i) skip)) (p_names w))
              (if sizeOk then p_want w else p_size w) ms (p_next w).

(** One pass of the MachineSet controller, which sees [size] and [view].
    pkg/controller/machineset.go 333-452, 457-587. *)
Definition setPass (api : Api) (size : Z) (view : list Mach) (w : PW) : PW :=
  let p := manageReplicas size false view in
  let targets := pl_stale p ++ pl_surplus p in
  let ms := map (fun m => match find (fun t => Nat.eqb (m_id t) (m_id m)) targets with
                          | Some t => terminate api (m_deleting t) m
                          | None => m
                          end) (p_ms w) in
  let '(_, ok, _) := slowStartBatch (pl_create p) 1 (a_create api) in
  mkPW (p_now w) (p_want w) (p_names w) (p_size w) (ms ++ created (p_now w) (p_next w) ok) (p_next w + ok).

(** What can happen: time passes; the autoscaler changes the deployment in one update; passes of the two
    controllers; the phase of a machine changes; a machine that is being deleted vanishes. pkg/controller/
    deployment.go 423-545, machineset.go 457-587. *)
Inductive POp :=
| PTick (d : nat)
| PAsk (want : Z) (names : list nat)
| PDep (fails : nat -> bool) (depOk sizeOk : bool)
| PSet (api : Api) (size : Z) (view : list Mach)
| PPhase (i : nat) (ph : string)
| PGone (i : nat).

(** One step. pkg/controller/deployment.go 423-545, machineset.go 457-587. *)
Definition pstep (w : PW) (o : POp) : PW :=
  match o with
  | PTick d => mkPW (p_now w + Z.of_nat d) (p_want w) (p_names w) (p_size w) (p_ms w) (p_next w)
  | PAsk want names => mkPW (p_now w) want names (p_size w) (p_ms w) (p_next w)
  | PDep fails depOk sizeOk => depPass fails depOk sizeOk w
  | PSet api size view => setPass api size view w
  | PPhase i ph => mkPW (p_now w) (p_want w) (p_names w) (p_size w)
                        (map (fun m => if Nat.eqb (m_id m) i then mkMach (m_id m) (m_prio m) (m_trigger m) ph (m_ctime m) (m_deleting m) else m) (p_ms w)) (p_next w)
  | PGone i => mkPW (p_now w) (p_want w) (p_names w) (p_size w) (filter (fun m => negb (Nat.eqb (m_id m) i && m_deleting m)) (p_ms w)) (p_next w)
  end.
(** Any interleaving of them. pkg/controller/deployment.go 423-545, machineset.go 457-587. *)
Definition prun (w : PW) (l : list POp) : PW := fold_left pstep l w.
