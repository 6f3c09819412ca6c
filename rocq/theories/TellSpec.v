(** What the status of a machine should tell about errors. *)
Require Import Coq.ZArith.ZArith Coq.Lists.List Coq.Strings.String Coq.Bool.Bool Coq.NArith.NArith.
From Verif Require Import CodesModel MachModel LevSpec LifeModel.
Import ListNotations.
Open Scope string_scope.
Open Scope list_scope.
Open Scope Z_scope.

(** What is left of a reconcile after the answers to its first calls. *)
Fixpoint after (p : prog) (rs : list Reply) {struct rs} : prog :=
  match rs with
  | [] => p
  | r :: rs' => match p with Do _ k => after (k r) rs' | _ => Done end
  end.

(** The next call. *)
Definition asks (p : prog) : option Call := match p with Do c _ => Some c | _ => None end.

(** The text of an error is in a description, from its first to its last letter. *)
Definition mentions (e s : string) : Prop := exists a b, s = (a ++ e ++ b)%string.

(** The stored status of [m] says nearly the same: it was written within the last half
    hour, has the same code, state, type and phase, and its description can be turned into
    the new one by changing less than a quarter of the letters. *)
Definition said_already (now : Z) (m : MObj) (op : LastOp) (cur : CurSt) : Prop :=
  let old := ms_op (mo_status m) in
  now - 1800 <= lo_time old /\
  lo_code op = lo_code old /\ lo_state op = lo_state old /\ lo_type op = lo_type old /\
  cs_phase cur = cs_phase (ms_cur (mo_status m)) /\
  (lo_desc op = lo_desc old \/
   forall n, distance (lo_desc op) (lo_desc old) n ->
     8 * Z.of_nat n < Z.of_nat (String.length (lo_desc op)) + Z.of_nat (String.length (lo_desc old))).

(** The reconcile looks at the clock and then either writes a status of [m] as described by
    [good], with the present time, or such a status is stored already. It does nothing
    else. Conditions, metadata and specification of the machine stay. *)
Definition reports (m : MObj) (good : Z -> LastOp -> CurSt -> Prop) (p : prog) : Prop :=
  exists k, p = Do CNow k /\ forall now, exists op cur lks,
    good now op cur /\ lo_time op = now /\
    ((exists k', k (RTime now) = Do (WStatus (withStatus (mkMS (ms_conds (mo_status m)) op cur lks) m)) k' /\ forall r, k' r = Done) \/
     (k (RTime now) = Done /\ said_already now m op cur)).

(** Deletion: the last operation is a failed deletion whose description has the text of
    the error; the phase stays. *)
Definition deletion_failed (m : MObj) (e : string) (now : Z) (op : LastOp) (cur : CurSt) : Prop :=
  mentions e (lo_desc op) /\ lo_state op = "Failed" /\ lo_type op = "Delete" /\ cur = ms_cur (mo_status m).

(** Creation: a failed creation with the text and the code of the error; the phase is
    Failed once the time for creation is over, until then CrashLoopBackOff. *)
Definition creation_failed (cf : Cfg) (m : MObj) (e : string) (now : Z) (op : LastOp) (cur : CurSt) : Prop :=
  mentions e (lo_desc op) /\ lo_state op = "Failed" /\ lo_type op = "Create" /\
  lo_code op = codeString (s_code (fst (FromError e))) /\
  (mo_created m + cf_creation cf < now -> cs_phase cur = "Failed") /\
  (now <= mo_created m + cf_creation cf -> cs_phase cur = "CrashLoopBackOff") /\
  cs_timeoutActive cur = false /\ cs_time cur = now.

(** A forced drain that failed: the text is there, but the state is not Failed. *)
Definition drain_failed_going_on (m : MObj) (e : string) (now : Z) (op : LastOp) (cur : CurSt) : Prop :=
  mentions e (lo_desc op) /\ lo_state op = "Processing" /\ lo_type op = "Delete" /\ cur = ms_cur (mo_status m).

(** The code of an error of the driver, if it can be read. *)
Definition code_is (e : string) (c : N) : Prop := snd (FromError e) = true /\ s_code (fst (FromError e)) = c.

(** Errors of GetMachineStatus after which the deletion goes on, and those that are taken
    for passing ones. *)
Definition goes_on (e : string) : Prop :=
  code_is e cUnimplemented \/ code_is e cNotFound \/ code_is e cUninitialized.
Definition passing (e : string) : Prop :=
  code_is e cUnknown \/ code_is e cDeadlineExceeded \/ code_is e cAborted \/ code_is e cUnavailable.

(** What has to happen when a call of the deletion is answered with an error. *)
Definition deletion_tells (m : MObj) (c : Call) (k : Reply -> prog) : Prop :=
  match c with
  | CDelete m' => m' = m /\ forall e resp, ~ code_is e cNotFound -> reports m (deletion_failed m e) (k (PFail e resp))
  | CDeleteNode m' | CDrain m' false => m' = m /\ forall e, reports m (deletion_failed m e) (k (RErr e))
  | CDrain m' true => m' = m /\ forall e, reports m (drain_failed_going_on m e) (k (RErr e))
  | CNodeCond m' => m' = m /\ forall e,
      reports m (deletion_failed m e) (k (RErr e)) \/ (exists k', k (RErr e) = Do (CDrain m true) k')
  | CGetStatus m' => m' = m /\ forall e resp, ~ goes_on e -> ~ passing e -> reports m (deletion_failed m e) (k (PFail e resp))
  | _ => True
  end.

(** What has to happen when a call of the creation is answered with an error. *)
Definition creation_tells (cf : Cfg) (m : MObj) (c : Call) (k : Reply -> prog) : Prop :=
  match c with
  | CCreate m' => m' = m /\ forall e resp, reports m (creation_failed cf m e) (k (PFail e resp))
  | CGetStatus m' => m' = m /\ forall e resp, snd (FromError e) = true -> ~ goes_on e -> reports m (creation_failed cf m e) (k (PFail e resp))
  | CInit m' => forall e resp, snd (FromError e) = true -> ~ code_is e cUnimplemented -> reports m' (creation_failed cf m' e) (k (PFail e resp))
  | _ => True
  end.

(** The text of an answer that is an error. *)
Definition error_text (r : Reply) : option string :=
  match r with RErr e => Some e | PFail e _ => Some e | _ => None end.

(** The calls of a reconcile and their answers, the newest first. *)
Fixpoint calls (p : prog) (rs : list Reply) (h : list (Call * Reply)) {struct rs} : list (Call * Reply) :=
  match rs with
  | [] => h
  | r :: rs' => match p with Do c k => calls (k r) rs' ((c, r) :: h) | _ => h end
  end.

(** The call before the last look at the clock failed with an error that the description
    mentions. *)
Definition because_of_error (h : list (Call * Reply)) (d : string) : Prop :=
  exists now c r e h', h = (CNow, RTime now) :: (c, r) :: h' /\ error_text r = Some e /\ mentions e d.

(** GetMachineStatus failed with an error that is taken for a passing one. *)
Definition because_unreachable (h : list (Call * Reply)) : Prop :=
  exists now m e resp h', h = (CNow, RTime now) :: (CGetStatus m, PFail e resp) :: h' /\ passing e.

(** The new VM got the name of a node that exists and is not the machine's name. *)
Definition because_of_old_node (h : list (Call * Reply)) (m : MObj) : Prop :=
  exists now m1 m2 r node pid lks h',
    h = (CNow, RTime now) :: (CDelete m1, r) :: (CStaleNode node, RBool true) :: (CCreate m2, POk node pid lks) :: h' /\
    node <> mo_name m.

(** The health check found the time over that a machine has to join or to recover; in
    the second case it got the permit to replace the machine. *)
Definition because_of_health (cf : Cfg) (h : list (Call * Reply)) (m : MObj) : Prop :=
  exists now n h',
    (h = (CNow, RTime now) :: (CNode m, RNode n) :: h' /\ phase m = "Pending" /\
       cs_time (ms_cur (mo_status m)) + cf_creation cf < now) \/
    (h = (CMayFail m, RBool true) :: (CNow, RTime now) :: (CNode m, RNode n) :: h' /\ phase m = "Unknown" /\
       cs_time (ms_cur (mo_status m)) + cf_health cf < now).

(** The calls whose errors end the reconcile; nothing is written about them. *)
Definition mute (c : Call) (k : Reply -> prog) : Prop :=
  match c with
  | CClass | CSecret _ | CSync _ | CVolumes _ | CLiveVA _ | CDelVA _ | WStatus _ => forall e, k (RErr e) = Done
  | _ => True
  end.
