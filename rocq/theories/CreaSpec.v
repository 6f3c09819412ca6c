(* What a user expects of the creation of a machine (C95), in terms of the calls a
   reconcile makes and their answers. *)
Require Import List String Bool ZArith.
From Verif Require Import CodesModel MachModel LifeModel.
Import ListNotations.
Open Scope string_scope.
Open Scope list_scope.
Open Scope Z_scope.

(* After the calls [h] with their answers the reconcile makes the call. *)
Inductive makes : prog -> list (Call * Reply) -> Call -> Prop :=
| makes_now : forall c k, makes (Do c k) [] c
| makes_later : forall c k r h c', makes (k r) h c' -> makes (Do c k) ((c, r) :: h) c'.

(* The answer carries an error with this code. *)
Definition failsWith (r : Reply) (code : N) : Prop :=
  exists text resp m, r = PFail text resp /\ FromError text = (mkStatus code m, true).

(* The codes after which the same call may succeed. *)
Definition worthRetrying (text : string) : Prop :=
  exists c m, FromError text = (mkStatus c m, true) /\ In c [cUnknown; cDeadlineExceeded; cAborted; cUnavailable].

(* Everything that has to be recorded about the VM is. *)
Definition recorded (m : MObj) : Prop :=
  get "node" (mo_labels m) <> None /\ get MachinePriority (mo_annots m) <> None /\ mo_pid m <> "".

(* The machine has not reached Pending yet. *)
Definition inCreation (m : MObj) : Prop := phase m = "" \/ phase m = "CrashLoopBackOff".

(* The machine is to be failed for good: its creation took longer than allowed. *)
Definition late (cf : Cfg) (m : MObj) (now : Z) : Prop := mo_created m + cf_creation cf < now.

(* A status that reports a failed call of the provider while the machine is created. *)
Definition reportsFailure (cf : Cfg) (m : MObj) (now : Z) (text : string) (s : MStatus) : Prop :=
  lo_type (ms_op s) = "Create" /\ lo_state (ms_op s) = "Failed" /\ lo_time (ms_op s) = now /\
  lo_code (ms_op s) = codeString (s_code (fst (FromError text))) /\ (exists a b, lo_desc (ms_op s) = (a ++ text ++ b)%string) /\
  cs_timeoutActive (ms_cur s) = false /\ cs_time (ms_cur s) = now /\
  ((cs_phase (ms_cur s) = "Failed" /\ late cf m now) \/ (cs_phase (ms_cur s) = "CrashLoopBackOff" /\ ~ late cf m now)).

(* Recording node name and provider ID of the VM changes nothing else; the default
   priority is filled in where there is none. *)
Definition recordsVM (m : MObj) (node pid : string) (x : MObj) : Prop :=
  mo_name x = mo_name m /\ mo_uid x = mo_uid m /\ mo_rv x = mo_rv m /\ mo_created x = mo_created m /\ mo_dt x = mo_dt m /\ mo_fins x = mo_fins m /\
  mo_status x = mo_status m /\ mo_pid x = pid /\
  (forall k, get k (mo_labels x) = if String.eqb k "node" then Some node else get k (mo_labels m)) /\
  (forall k, k <> MachinePriority -> get k (mo_annots x) = get k (mo_annots m)) /\
  get MachinePriority (mo_annots x) =
    (match get MachinePriority (mo_annots m) with None | Some "" => Some "3" | Some v => Some v end).

(* The provider gave this node name and provider ID for the machine: it found the VM,
   created it, or found it uninitialized. *)
Definition providerGave (m : MObj) (node pid : string) (h : list (Call * Reply)) : Prop :=
  exists r, (In (CGetStatus m, r) h \/ In (CCreate m, r) h) /\
    ((exists l, r = POk node pid l) \/ (failsWith r cUninitialized /\ exists text l, r = PFail text (Some (node, pid, l)))).

(* A status that is consistent in itself and not from the future. *)
Definition saneStatus (now : Z) (s : MStatus) : Prop :=
  (cs_timeoutActive (ms_cur s) = true <-> cs_phase (ms_cur s) = "Pending") /\
  In (cs_phase (ms_cur s)) [""; "Pending"; "Running"; "Unknown"; "Failed"; "CrashLoopBackOff"; "Terminating"] /\
  In (lo_state (ms_op s)) [""; "Processing"; "Failed"; "Successful"] /\
  In (lo_type (ms_op s)) [""; "Create"; "HealthCheck"; "Delete"] /\
  (cs_phase (ms_cur s) = "" -> cs_time (ms_cur s) = 0 /\ lo_time (ms_op s) = 0) /\
  (cs_phase (ms_cur s) <> "" -> cs_time (ms_cur s) <= now /\ lo_time (ms_op s) <= now).

(* The status of a machine whose VM exists and is to join the cluster. *)
Definition pendingStatus (m : MObj) (now : Z) : MStatus :=
  mkMS (ms_conds (mo_status m)) (mkOp "Creating machine on cloud provider" "" now "Processing" "Create") (mkCur "Pending" true now) (ms_lks (mo_status m)).

(* The statuses that may be written while machine [m] is created, after the calls [h]: the
   VM is there and everything about it is recorded; a call of the provider failed (the last
   known state is the one it reported, else the old one if a retry may help or it was the
   initialization); the VM came up under the name of a foreign node and was deleted. *)
Definition statusCase (cf : Cfg) (m : MObj) (h : list (Call * Reply)) (now : Z) (y : MObj) (s : MStatus) : Prop :=
  (y = m /\ recorded m /\ inCreation m /\ s = pendingStatus m now /\
     exists r, In (CGetStatus m, r) h /\ ((exists node pid l, r = POk node pid l) \/ failsWith r cNotFound \/ failsWith r cUnimplemented)) \/
  (exists text resp, reportsFailure cf y now text s /\ ms_conds s = ms_conds (mo_status y) /\
     ((y = m /\ In (CGetStatus m, PFail text resp) h /\ (forall c, In c [cNotFound; cUnimplemented; cUninitialized] -> ~ failsWith (PFail text resp) c) /\
         ((worthRetrying text /\ ms_lks s = ms_lks (mo_status m)) \/ (~ worthRetrying text /\ ms_lks s = ""))) \/
      (y = m /\ In (CCreate m, PFail text resp) h /\
         let l := match resp with Some (_, _, l) => l | None => "" end in
         ((l <> "" /\ ms_lks s = l) \/ (l = "" /\ worthRetrying text /\ ms_lks s = ms_lks (mo_status m)) \/ (l = "" /\ ~ worthRetrying text /\ ms_lks s = ""))) \/
      (In (CInit y, PFail text resp) h /\ ~ failsWith (PFail text resp) cUnimplemented /\ ms_lks s = ms_lks (mo_status y) /\
         (y = m \/ exists w, In (WMeta w, RObj y) h)))) \/
  (y = m /\ exists node pid l r, node <> mo_name m /\ In (CCreate m, POk node pid l) h /\ In (CStaleNode node, RBool true) h /\ In (CDelete (withPid pid m), r) h /\
     s = mkMS (ms_conds (mo_status m)) (mkOp "VM using old node obj" "" now "Failed" "Create") (mkCur "Failed" false now) (ms_lks (mo_status m))).

(* The status already reports a failed creation with this code, not older than 30 minutes. *)
Definition alreadyReports (m : MObj) (now : Z) (code : string) : Prop :=
  lo_state (ms_op (mo_status m)) = "Failed" /\ lo_type (ms_op (mo_status m)) = "Create" /\ lo_code (ms_op (mo_status m)) = code /\
  now - 1800 <= lo_time (ms_op (mo_status m)) /\ cs_timeoutActive (ms_cur (mo_status m)) = false /\
  In (phase m) ["Failed"; "CrashLoopBackOff"].

(* The provider has no VM for the machine, and none was recorded. *)
Definition noVM (m : MObj) (r : Reply) : Prop := get "node" (mo_labels m) = None /\ (failsWith r cNotFound \/ failsWith r cUnimplemented).

(* The VM was created under a node name of its own, or found uninitialized. *)
Definition vmUp (m : MObj) (node pid : string) (h : list (Call * Reply)) : Prop :=
  (exists text l, h = [(CSecret m, RUnit); (CGetStatus m, PFail text (Some (node, pid, l)))] /\ failsWith (PFail text (Some (node, pid, l))) cUninitialized) \/
  (exists r l found, h = [(CSecret m, RUnit); (CGetStatus m, r); (CCreate m, POk node pid l); (CStaleNode node, RBool found)] /\ noVM m r /\
     (found = false \/ node = mo_name m)).
