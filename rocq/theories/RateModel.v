(** The rate limit for replacing unhealthy machines, with the permits it relies on.
    Models machine_util.go 740-757 and 1525-1665. Any number of workers, machines and
    MachineDeployments. The store keeps all versions of each machine (only the phase, or
    its absence); the cache of the controller shows an older version. Simplifications: a
    worker reads the machine and has decided that the health timeout has passed in one step
    (the decision is [HealthModel]); the write succeeds only on the version that was read
    (optimistic locking of the API server); the list of canMarkMachineFailed is one step,
    as it is taken under the lock of the cache; the label "name" of a machine is fixed. *)
Require Import Coq.ZArith.ZArith Coq.Lists.List Coq.Strings.String Coq.Bool.Bool Coq.Arith.PeanoNat.
From Verif Require Import PermitModel.
Import ListNotations.
Open Scope string_scope.
Open Scope list_scope.
Open Scope nat_scope.

(** A machine: the MachineDeployment it belongs to (no counterpart, the code does not look at it),
    its label "name" if it has one (machine_util.go 1558, 1708), the phases of
    all its versions, oldest first ([None] when it does not exist), the number of versions
    that the cache has seen, and the number of the last version that was written by
    updateMachineToFailedState (0: none; only for the proofs). *)
Record RM := mkRM { rm_dep : string; rm_name : option string; rm_hist : list (option string); rm_seen : nat; rm_mark : nat }.
(** machine_util.go 1707-1709 getMachineDeploymentName: an absent label reads as "". *)
Definition rm_md (x : RM) : string := match rm_name x with Some n => n | None => "" end.

(** What a worker is doing: nothing; it has read a machine at a version whose health timeout
    has passed, and tries to get the permit; it has the permit (1642); it may mark the machine
    (1643-1648); it waits for the cache (1651); it is about to release the permit (1642). *)
Inductive WS := WIdle | WGot (m v : nat) | WIn (m v : nat) | WMark (m v : nat) | WWait (m : nat) | WOut.

(** Permits, machines and workers; worker [i] is goroutine [i] of the permits.
    Around machine_util.go 740-757 and 1525-1669. *)
Record RW := mkRW { r_p : PW; r_ms : list RM; r_ws : list WS }.

(** What can happen next. machine_util.go 740-757 and 1525-1669, lines at each case, else the surroundings. *)
Inductive ROp :=
| RStart (i m : nat)          (* worker i finds machine m unhealthy for too long, 742-745 *)
| RRegister (i : nat)         (* RegisterPermits(md, 1), 756 *)
| RTry (i : nat)              (* TryPermit loads the channel, 1641 *)
| RSend (i : nat)             (* TryPermit succeeds *)
| RGiveUp (i : nat)           (* TryPermit fails or times out, 1665 *)
| RList (i : nat)             (* canMarkMachineFailed, 1643 *)
| RWrite (i : nat) (lands acked : bool)  (* updateMachineToFailedState, 1649 *)
| RSeen (i : nat)             (* waitForFailedMachineCacheUpdate returns true, 1651 *)
| RTimedOut (i : nat)         (* it returns false and the sleep of 10 seconds is over, 1655 *)
| RRelease (i : nat)          (* the deferred release, 1642: load the channel *)
| RRecv (i : nat)             (* and take a value out *)
| RCheck (k : string)         (* the clean-up of the permits picks a key *)
| RClean                      (* and deletes it *)
| RTick (d : Z)               (* time passes *)
| REnv (m : nat) (ph : option string)  (* anybody else writes or removes the machine *)
| RNew (dep : string) (label : option string)  (* a further machine *)
| RSee (m : nat).             (* the cache sees the next version *)

(** No machine. No counterpart: default of the number of a machine of machine_util.go 1554-1602. *)
Definition noRM : RM := mkRM "" None [] 0 0.
(** The machine with a number. No counterpart: the store behind machine_util.go 1554-1602. *)
Definition mach (w : RW) (m : nat) : RM := nth m (r_ms w) noRM.
(** What a worker is doing. A call of machine_util.go 1640-1669. *)
Definition worker (w : RW) (i : nat) : WS := nth i (r_ws w) WIdle.
(** The phase of a version.
    No counterpart: versions of the store behind machine_util.go 1535-1541. *)
Definition phaseAt (x : RM) (v : nat) : option string :=
  match v with O => None | S n => nth n (rm_hist x) None end.
(** What the lister returns. machine_util.go 1554-1602. *)
Definition cachedPhase (x : RM) : option string := phaseAt x (rm_seen x).

(** machine_util.go 1574-1592: how much a machine of the cache adds to inProgress. *)
Definition inProgress1 (p : option string) : nat :=
  match p with
  | None => 0
  | Some ph =>
      if String.eqb ph "Unknown" || String.eqb ph "Running" then 0
      else if String.eqb ph "Terminating" then 2 else 1
  end.
(** The selector name=md of machine_util.go 1558-1561 (labels.Requirement, external): it does not
    match an object without the label, whatever md is. *)
Definition selects (md : string) (x : RM) : bool :=
  match rm_name x with Some n => String.eqb n md | None => false end.
(** machine_util.go 1554-1602, maxReplacements = 1 (69). *)
Definition canMarkMachineFailed (md : string) (ms : list RM) : bool :=
  Nat.ltb (fold_right plus 0 (map (fun x => if selects md x then inProgress1 (cachedPhase x) else 0) ms)) 1.
(** machine_util.go 1604-1619. *)
Definition cacheUpdated (x : RM) : bool :=
  match cachedPhase x with
  | None => true
  | Some ph => String.eqb ph "Failed" || String.eqb ph "Terminating"
  end.

(** A worker goes on. A call of machine_util.go 1640-1669. *)
Definition setW (w : RW) (i : nat) (s : WS) : RW := mkRW (r_p w) (r_ms w) (upd (r_ws w) i s).
(** The permits change. permits.go 25-177. *)
Definition setP (w : RW) (p : PW) : RW := mkRW p (r_ms w) (r_ws w).
(** A machine changes. No counterpart: the store behind machine_util.go 1535-1541. *)
Definition setM (w : RW) (m : nat) (x : RM) : RW := mkRW (r_p w) (upd (r_ms w) m x) (r_ws w).
(** A new version in the store. External: the API server behind machine_util.go 1535-1541. *)
Definition write (x : RM) (p : option string) : RM := mkRM (rm_dep x) (rm_name x) (rm_hist x ++ [p]) (rm_seen x) (rm_mark x).
(** A new version written by updateMachineToFailedState (machine_util.go 1535-1541). *)
Definition markFailed (x : RM) : RM :=
  mkRM (rm_dep x) (rm_name x) (rm_hist x ++ [Some "Failed"]) (rm_seen x) (S (List.length (rm_hist x))).

(** One step of the controller and its surroundings (machine_util.go 740-757, 1640-1665);
    impossible steps change nothing. *)
Definition rstep (stale : Z) (w : RW) (op : ROp) : RW :=
  match op with
  | RStart i m =>
      match worker w i, thread (r_p w) i, cachedPhase (mach w m) with
      | WIdle, Idle, Some ph => if String.eqb ph "Unknown" then setW w i (WGot m (rm_seen (mach w m))) else w
      | _, _, _ => w
      end
  | RRegister i =>
      match worker w i with WGot m _ => setP w (pstep stale (r_p w) (PRegister (rm_md (mach w m)) 1)) | _ => w end
  | RTry i =>
      match worker w i with WGot m _ => setP w (pstep stale (r_p w) (PTry i (rm_md (mach w m)))) | _ => w end
  | RSend i =>
      match worker w i with
      | WGot m v =>
          let p := pstep stale (r_p w) (PSend i) in
          match thread p i with Holding _ _ => setW (setP w p) i (WIn m v) | _ => setP w p end
      | _ => w
      end
  | RGiveUp i =>
      match worker w i with WGot _ _ => setW (setP w (pstep stale (r_p w) (PTimeout i))) i WIdle | _ => w end
  | RList i =>
      match worker w i with
      | WIn m v => setW w i (if canMarkMachineFailed (rm_md (mach w m)) (r_ms w) then WMark m v else WOut)
      | _ => w
      end
  | RWrite i lands acked =>
      match worker w i with
      | WMark m v =>
          if lands && Nat.eqb (List.length (rm_hist (mach w m))) v
          then setW (setM w m (markFailed (mach w m))) i (if acked then WWait m else WOut)
          else setW w i WOut
      | _ => w
      end
  | RSeen i =>
      match worker w i with WWait m => if cacheUpdated (mach w m) then setW w i WOut else w | _ => w end
  | RTimedOut i => match worker w i with WWait _ => setW w i WOut | _ => w end
  | RRelease i => match worker w i with WOut => setW (setP w (pstep stale (r_p w) (PRelease i))) i WIdle | _ => w end
  | RRecv i => match worker w i with WIdle => setP w (pstep stale (r_p w) (PRecv i)) | _ => w end
  | RCheck k => setP w (pstep stale (r_p w) (PCheck k))
  | RClean => setP w (pstep stale (r_p w) PClean)
  | RTick d => setP w (pstep stale (r_p w) (PTick d))
  | REnv m ph => setM w m (write (mach w m) ph)
  | RNew dep label => mkRW (r_p w) (r_ms w ++ [mkRM dep label [] 0 0]) (r_ws w)
  | RSee m =>
      let x := mach w m in
      if Nat.ltb (rm_seen x) (List.length (rm_hist x))
      then setM w m (mkRM (rm_dep x) (rm_name x) (rm_hist x) (S (rm_seen x)) (rm_mark x)) else w
  end.

(** A history. machine_util.go 740-757 and 1525-1669, any interleaving. *)
Definition rrun (stale : Z) (w : RW) (ops : list ROp) : RW := fold_left (rstep stale) ops w.
(** A new controller with [n] workers and no machines yet. machinecontroller/controller.go 84-98. *)
Definition rinit (now : Z) (n : nat) : RW := mkRW (pinit now n) [] (repeat WIdle n).
