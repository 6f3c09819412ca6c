(** How the status of a MachineSet is written: one reconcile at a time reads the set,
    computes its status and writes it, while others change, delete and re-create the set;
    and how the MachineSet controller writes the status of a machine it deletes.
    Models pkg/controller/deployment_machineset_util.go 39-90,
    pkg/controller/machineset.go 455-476, 549-568, 58-62, 686-706, 795-844.
    Simplifications: the conditions and the list of failed machines are compared as values
    (reflect.DeepEqual also tells a nil slice from an empty one); LastOperation of the
    MachineSet status is left out; every accepted write makes a new version. *)
Require Import Coq.ZArith.ZArith Coq.Lists.List Coq.Strings.String Coq.Bool.Bool Coq.Arith.PeanoNat.
From Verif Require Import Types StatusModel MachModel.
Import ListNotations.
Open Scope string_scope.
Open Scope list_scope.
Open Scope Z_scope.

(** The MachineSet object: UID, generation, the part of the spec that the status depends
    on, everything else that others write without a new generation, status and the
    generation in the status. machineset_types.go 27-40, 80-138. *)
Record PSet := mkPSet {
  p_uid : nat; p_gen : Z; p_replicas : Z; p_tmpl : list (string * string); p_meta : nat;
  p_status : SStatus; p_obs : Z }.

(** Equality as of reflect.DeepEqual. deployment_machineset_util.go 50-51. *)
Definition conds_eq (a b : list Cond) : bool := if list_eq_dec (fun x y : Cond => ltac:(decide equality; (apply string_dec || apply Z.eq_dec))) a b then true else false.
(** Equality as of reflect.DeepEqual. deployment_machineset_util.go 51. *)
Definition failed_eq (a b : option (list Summary)) : bool :=
  match a, b with
  | None, None => true
  | Some x, Some y => if list_eq_dec (fun x y : Summary => ltac:(decide equality; apply string_dec)) x y then true else false
  | _, _ => false
  end.

(** deployment_machineset_util.go 45-53: nothing has to be written. *)
Definition steady (is : PSet) (n : SStatus) : bool :=
  (st_replicas (p_status is) =? st_replicas n) && (st_labeled (p_status is) =? st_labeled n) &&
  (st_ready (p_status is) =? st_ready n) && (st_avail (p_status is) =? st_avail n) &&
  (p_gen is =? p_obs is) && conds_eq (st_conds (p_status is)) (st_conds n) && failed_eq (st_failed (p_status is)) (st_failed n).

(** Where the reconcile of the set is: not running; the set was read (machineset.go 468);
    try number [i] at writing the status [n] with generation [g] onto the copy read as
    version [v] (deployment_machineset_util.go 62-73); that try failed and the set is to be
    read again (deployment_machineset_util.go 78-83). *)
Inductive PC :=
| Idle
| Read (is : PSet)
| Trying (i : nat) (v : nat) (n : SStatus) (g : Z)
| Again (n : SStatus) (g : Z).

(** The set as stored with its version, the next version, the number of UIDs given out,
    and the reconcile. The version is the one the set was read with.
    External: the API server; the reconcile is machineset.go 452-587. *)
Record PW := mkPW { w_set : option (nat * PSet); w_next : nat; w_uids : nat; w_pc : PC; w_ver : nat }.

(** How a write ends: stored; not stored, an error is reported; stored, but an error is
    reported. External; the call is at deployment_machineset_util.go 71. *)
Inductive Fate := Applied | Dropped | Lost.

(** What can happen: others change the spec, metadata or conditions (machine_safety.go 307-310), delete the set, or
    create one under its name; the reconcile reads the set, lists its machines and computes
    the status, tries to write it, reads again; the process dies.
    machineset.go 452-587 where the controller acts. *)
Inductive POp :=
| ESpec (replicas : Z) (tmpl : list (string * string))
| EMeta (n : nat)
| EStatus (c : list Cond)
| EDelete
| ECreate (replicas : Z) (tmpl : list (string * string)) (n : nat)
| OBegin
| OCompute (now : Z) (l : list SMachine) (err : option string)
| OPut (f : Fate)
| OGet (ok : bool)
| OCrash.

(** A new version is stored. External: API server; the calls are at deployment_machineset_util.go 71. *)
Definition stored_ (w : PW) (o : PSet) : PW := mkPW (Some (w_next w, o)) (S (w_next w)) (w_uids w) (w_pc w) (w_ver w).
(** The reconcile goes on. No counterpart: the place in machineset.go 452-587. *)
Definition goto (w : PW) (pc : PC) : PW := mkPW (w_set w) (w_next w) (w_uids w) pc (w_ver w).

(** The set with another status and observed generation. deployment_machineset_util.go 58, 70. *)
Definition withSt (n : SStatus) (g : Z) (o : PSet) : PSet :=
  mkPSet (p_uid o) (p_gen o) (p_replicas o) (p_tmpl o) (p_meta o) n g.

(** UpdateStatus: accepted if the set is there in the version of the copy; of the copy only
    the status is stored. External; called at deployment_machineset_util.go 71. *)
Definition updateStatus (w : PW) (v : nat) (n : SStatus) (g : Z) (f : Fate) : PW * bool :=
  match w_set w, f with
  | _, Dropped => (w, false)
  | None, _ => (w, false)
  | Some (v', o), _ =>
      if Nat.eqb v v' then (stored_ w (withSt n g o), match f with Lost => false | _ => true end) else (w, false)
  end.

(** machineset.go 62. *)
Definition statusUpdateRetries : nat := 1.

(** One step. A change of the spec gives a new generation (external: API server).
    Lines at each case: machineset.go 468-476 (begin), 564-568 and
    deployment_machineset_util.go 45-58 (compute), 70-77 (try), 79-83 (read again). *)
Definition pstep (w : PW) (op : POp) : PW :=
  match op with
  | ESpec r t =>
      match w_set w with
      | Some (_, o) => stored_ w (mkPSet (p_uid o) (p_gen o + 1) r t (p_meta o) (p_status o) (p_obs o))
      | None => w
      end
  | EMeta n =>
      match w_set w with
      | Some (_, o) => stored_ w (mkPSet (p_uid o) (p_gen o) (p_replicas o) (p_tmpl o) n (p_status o) (p_obs o))
      | None => w
      end
  | EStatus c =>
      match w_set w with
      | Some (_, o) =>
          let s := p_status o in
          stored_ w (withSt (mkSStatus (st_replicas s) (st_labeled s) (st_ready s) (st_avail s) (st_failed s) c) (p_obs o) o)
      | None => w
      end
  | EDelete => mkPW None (w_next w) (w_uids w) (w_pc w) (w_ver w)
  | ECreate r t n =>
      match w_set w with
      | Some _ => w
      | None => mkPW (Some (w_next w, mkPSet (S (w_uids w)) 1 r t n (mkSStatus 0 0 0 0 None []) 0)) (S (w_next w)) (S (w_uids w)) (w_pc w) (w_ver w)
      end
  | OBegin =>
      match w_pc w, w_set w with
      | Idle, Some (v, o) => mkPW (w_set w) (w_next w) (w_uids w) (Read o) v
      | _, _ => w
      end
  | OCompute now l err =>
      match w_pc w with
      | Read is =>
          let n := calculateMachineSetStatus now (p_tmpl is) (p_replicas is) (p_status is) l err in
          if steady is n then goto w Idle else goto w (Trying 0 (w_ver w) n (p_gen is))
      | _ => w
      end
  | OPut f =>
      match w_pc w with
      | Trying i v n g =>
          let '(w', ok) := updateStatus w v n g f in
          if ok then goto w' Idle
          else if Nat.leb statusUpdateRetries i then goto w' Idle else goto w' (Again n g)
      | _ => w
      end
  | OGet ok =>
      match w_pc w with
      | Again n g =>
          match ok, w_set w with
          | true, Some (v, _) => goto w (Trying 1 v n g)
          | _, _ => goto w Idle
          end
      | _ => w
      end
  | OCrash => goto w Idle
  end.

(** A history. machineset.go 452-587 in any interleaving with others. *)
Definition prun (w : PW) (ops : list POp) : PW := fold_left pstep ops w.
(** No set, nothing running. machineset.go 452-587 at the start. *)
Definition pinit : PW := mkPW None 1 0 Idle 0.

(** ** The status of a machine that is to be deleted *)

(** machineset.go 824-844: [s1] the new status, [s2] the one in the cache. *)
Definition isMachineStatusEqual (now : Z) (s1 s2 : MStatus) : bool :=
  if (lo_time (ms_op s1) <? now - 1800) || (lo_time (ms_op s2) <? now - 1800) then false
  else if (cs_time (ms_cur s1) <? now - 1800) || (cs_time (ms_cur s2) <? now - 1800) then false
  else String.eqb (lo_code (ms_op s1)) (lo_code (ms_op s2)) && String.eqb (lo_state (ms_op s1)) (lo_state (ms_op s2)) &&
       String.eqb (lo_type (ms_op s1)) (lo_type (ms_op s2)) && String.eqb (cs_phase (ms_cur s1)) (cs_phase (ms_cur s2)) &&
       Bool.eqb (cs_timeoutActive (ms_cur s1)) (cs_timeoutActive (ms_cur s2)).

(** One round of the loop of machineset.go 795-822: what the Get answers (the stored
    machine, or nothing), and whether the write that may follow is stored and is answered.
    External: API server. *)
Record MRound := mkMRound { mr_get : option MObj; mr_time : Z; mr_stored : bool; mr_answer : bool }.

(** How the loop ends: an error of the Get; nothing to write; written; it is still at it
    after these rounds. machineset.go 802-821. *)
Inductive MEnd := MErr | MSame | MWritten | MStill.

(** machineset.go 795-822: the statuses written on the way, and the end. The status of the
    machine in the cache is compared, [cached]; [op] and [cur] are the new ones. *)
Fixpoint updateMachineStatus (cached : MStatus) (op : LastOp) (cur : CurSt) (rounds : list MRound) : list MObj * MEnd :=
  match rounds with
  | [] => ([], MStill)
  | r :: rest =>
      match mr_get r with
      | None => ([], MErr)
      | Some m =>
          let s := mkMS (ms_conds (mo_status m)) op cur (ms_lks (mo_status m)) in
          if isMachineStatusEqual (mr_time r) s cached then ([], MSame)
          else
            let w := if mr_stored r then [withStatus s m] else [] in
            if mr_stored r && mr_answer r then (w, MWritten)
            else let '(l, e) := updateMachineStatus cached op cur rest in (w ++ l, e)
      end
  end.

(** machineset.go 686-706: what is written when a machine is deleted at time [now]. *)
Definition markTerminating (now : Z) (cached : MStatus) (rounds : list MRound) : list MObj * MEnd :=
  updateMachineStatus cached (mkOp "Deleting machine from cloud provider" "" now "Processing" "Delete") (mkCur "Terminating" false now) rounds.
