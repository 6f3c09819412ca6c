(** What the status of a machine tells about errors (C112): theorems. *)
Require Import Coq.ZArith.ZArith Coq.Lists.List Coq.Strings.String Coq.Bool.Bool Coq.NArith.NArith Lia.
From Verif Require Import CodesModel MachModel LevModel HealthModel LifeModel TellSpec TellProofs.
Import ListNotations.
Open Scope string_scope.
Open Scope list_scope.
Open Scope Z_scope.

(** C112, deletion: when the provider cannot delete the VM or tell its state, when the
    drain or the update of the node fails, or the node object cannot be deleted, the status
    of the machine says that the deletion failed and has the text of the error; unless the
    stored status says nearly the same. A forced drain goes on, but the text is there.
    Missing: errors of GetMachineStatus that are taken for passing ones, those of other
    calls, and a condition that cannot be set before a forced drain (see below). *)
Theorem C112_deletion_partial : forall cf m rs c k,
  after (reconcileTermination cf m) rs = Do c k -> deletion_tells m c k.
Proof. intros cf m rs c k E. exact (all_after _ _ _ _ _ (deletion_all cf m) E). Qed.
Print Assumptions C112_deletion_partial.

Definition tl_cf : Cfg := mkCfg 7200 1200 600 "KernelDeadlock" (mkShow (fun _ => "") (fun _ => "")).
Definition tl_gone (d : string) (t : Z) : MObj :=
  mkMO "m" 1 7 1000 (Some 5000) [MCM] [("node", "n1")] [] "vm-1" (mkMS [] (mkOp d "" t "Processing" "Delete") (mkCur "Terminating" false 5000) "").
Definition tl_new : MObj := mkMO "m" 1 7 1000 None [MCM] [] [] "" (mkMS [] (mkOp "" "" 0 "" "") (mkCur "" false 0) "").

(* The provider refuses to delete the VM; the drain fails on a disruption budget. *)
Definition tl_locked : string := errorText (mkStatus 13%N "disk is locked").
Definition tl_none : Reply := PFail (errorText (mkStatus cNotFound "no VM")) None.
Definition tl_op (p : prog) : option LastOp := match p with Do (WStatus m') _ => Some (ms_op (mo_status m')) | _ => None end.
Definition tl_cur (p : prog) : option CurSt := match p with Do (WStatus m') _ => Some (ms_cur (mo_status m')) | _ => None end.

Example C112_deletion_partial_case :
  let p := reconcileTermination tl_cf (tl_gone InitiateVMDeletion 5010) in
  let q := reconcileTermination tl_cf (tl_gone InitiateDrain 5010) in
  asks (after p [RUnit]) = Some (CDelete (tl_gone InitiateVMDeletion 5010)) /\
  ~ code_is tl_locked cNotFound /\
  tl_op (after p [RUnit; PFail tl_locked None; RTime 5020]) =
    Some (mkOp ("VM deletion failed due to - " ++ tl_locked ++ ". Aborting operation. Initiate VM deletion") "" 5020 "Failed" "Delete") /\
  asks (after q [RUnit; RTime 5020; RUnit]) = Some (CDrain (tl_gone InitiateDrain 5010) false) /\
  tl_op (after q [RUnit; RTime 5020; RUnit; RErr "timed out"; RTime 5030]) =
    Some (mkOp "Drain failed due to - timed out. Will retry in next sync. Initiate node drain" "" 5030 "Failed" "Delete").
Proof.
  repeat split; try (vm_compute; reflexivity). intros [_ H]. vm_compute in H. discriminate.
Qed.

(** C112, creation: an error of CreateMachine, and one of GetMachineStatus or
    InitializeMachine with a code that can be read and does not mean to go on, is put into
    the status with its text and code; the phase is CrashLoopBackOff until the time for the
    creation is over, then Failed; unless the stored status says nearly the same.
    Missing: errors without a readable code, and those of other calls (see below). *)
Theorem C112_creation_partial : forall cf m rs c k,
  after (reconcileMachine cf m) rs = Do c k -> creation_tells cf m c k.
Proof. intros cf m rs c k E. exact (all_after _ _ _ _ _ (creation_all cf m) E). Qed.
Print Assumptions C112_creation_partial.

(* No capacity; the time for the creation is over. *)
Definition tl_quota : string := errorText (mkStatus 8%N "no capacity").
Example C112_creation_partial_case :
  let p := reconcileMachine tl_cf tl_new in
  let rs := [RBool false; RUnit; RUnit; tl_none] in
  asks (after p rs) = Some (CCreate tl_new) /\
  tl_op (after p (rs ++ [PFail tl_quota None; RTime 2300])) =
    Some (mkOp ("Cloud provider message - " ++ tl_quota) "ResourceExhausted" 2300 "Failed" "Create") /\
  tl_cur (after p (rs ++ [PFail tl_quota None; RTime 2300])) = Some (mkCur "Failed" false 2300) /\
  tl_cur (after p (rs ++ [PFail tl_quota None; RTime 1300])) = Some (mkCur "CrashLoopBackOff" false 1300).
Proof. repeat split; vm_compute; reflexivity. Qed.

(** C112, in all executions, with any failures, restarts, outdated caches and changes by
    others: what was said above holds at each call of the reconciles that run. *)
Theorem C112_executions : forall cf now ops c k, let w := run cf (init now) ops in
  (w_t w = Some (Do c k) -> exists m, deletion_tells m c k) /\
  (w_c w = Some (Do c k) -> exists m, creation_tells cf m c k).
Proof.
  intros cf now ops c k w. destruct (running_run cf ops (init now) (running_init cf now)) as [T C]. split; intros E.
  - destruct (T _ E) as [m [rs P]]. exists m. exact (C112_deletion_partial cf m rs c k (eq_sym P)).
  - destruct (C _ E) as [m [rs P]]. exists m. exact (C112_creation_partial cf m rs c k (eq_sym P)).
Qed.
Print Assumptions C112_executions.

(* A machine is created and its first VM requested. *)
Example C112_executions_case : exists m,
  match w_c (run tl_cf (init 1000) [OCreate [] [] [MCM] ""; OAdvance; OStart false;
    OStep false (RBool false) Applied []; OStep false RUnit Applied []; OStep false RUnit Applied [];
    OStep false tl_none Applied []]) with Some p => asks p = Some (CCreate m) | None => False end.
Proof. eexists. vm_compute. reflexivity. Qed.

(** C112, the other direction, deletion: a deletion is called failed only if the call
    before failed, and the description has the text of that error (for GetMachineStatus it
    may be missing, if the error is taken for a passing one). *)
Theorem C112_only_deletion : forall cf m rs m' k,
  after (reconcileTermination cf m) rs = Do (WStatus m') k ->
  lo_state (ms_op (mo_status m')) = "Failed" ->
  let h := calls (reconcileTermination cf m) rs [] in
  because_of_error h (lo_desc (ms_op (mo_status m'))) \/ because_unreachable h.
Proof. intros cf m rs m' k E. exact (allh_after _ _ _ _ _ _ (blamed_deletion cf m) E). Qed.
Print Assumptions C112_only_deletion.

(** C112, the other direction, creation and health: a machine is newly called failed only
    if the call before failed, with the text of that error; or its VM came up as a node that
    exists; or its time to join or to recover is over. *)
Theorem C112_only_creation : forall cf m rs m' k,
  after (reconcileMachine cf m) rs = Do (WStatus m') k ->
  lo_state (ms_op (mo_status m')) = "Failed" ->
  let h := calls (reconcileMachine cf m) rs [] in
  ms_op (mo_status m') = ms_op (mo_status m) \/
  because_of_error h (lo_desc (ms_op (mo_status m'))) \/ because_of_old_node h m \/ because_of_health cf h m.
Proof. intros cf m rs m' k E. exact (allh_after _ _ _ _ _ _ (blamed_creation cf m) E). Qed.
Print Assumptions C112_only_creation.

Example C112_only_case :
  tl_op (after (reconcileTermination tl_cf (tl_gone InitiateNodeDeletion 5010)) [RUnit; RErr "forbidden"; RTime 5020]) =
    Some (mkOp "Deletion of Node Object ""n1"" failed due to error: forbidden. Initiate node object deletion" "" 5020 "Failed" "Delete") /\
  tl_op (after (reconcileMachine tl_cf tl_new)
       [RBool false; RUnit; RUnit; tl_none; POk "n0" "vm-1" ""; RBool true; POk "" "" ""; RTime 1100]) =
    Some (mkOp "VM using old node obj" "" 1100 "Failed" "Create").
Proof. split; vm_compute; reflexivity. Qed.

(** What is not told: errors of the machine class or the secret, of the synchronisation with
    the node, and of the volume attachments end the reconcile, in all states; so does one of
    writing the status. *)
Theorem C112_silent : forall cf m rs c k,
  (after (reconcileTermination cf m) rs = Do c k \/ after (reconcileMachine cf m) rs = Do c k) -> mute c k.
Proof.
  intros cf m rs c k [E|E]; [exact (all_after _ _ _ _ _ (mute_deletion cf m) E)|exact (all_after _ _ _ _ _ (mute_creation cf m) E)].
Qed.
Print Assumptions C112_silent.

(** C112 fails: a machine whose class is gone shows nothing of it, neither when it is to be
    created nor when it is to be deleted; nor that its volumes cannot be detached. *)
Theorem C112_silent_refuted : exists cf mc md mv rc rd rv,
  (asks (after (reconcileMachine cf mc) rc) = Some CClass /\
   after (reconcileMachine cf mc) (rc ++ [RErr "class not found"]) = Done) /\
  (asks (after (reconcileTermination cf md) rd) = Some CClass /\
   after (reconcileTermination cf md) (rd ++ [RErr "class not found"]) = Done) /\
  (asks (after (reconcileTermination cf mv) rv) = Some (CDelVA mv) /\
   after (reconcileTermination cf mv) (rv ++ [RErr "forbidden"]) = Done).
Proof.
  exists tl_cf, tl_new, (tl_gone InitiateDrain 5010), (tl_gone DelVolumesAttachments 5010), [RBool false], [], [RUnit; RBool true; RBool true].
  repeat split; vm_compute; reflexivity.
Qed.
Print Assumptions C112_silent_refuted.

(** C112 fails: an error of GetMachineStatus or InitializeMachine that has no readable code
    ends the creation without a word. *)
Theorem C112_unreadable_refuted : exists cf m r1 r2 m' e,
  asks (after (reconcileMachine cf m) r1) = Some (CGetStatus m) /\
  after (reconcileMachine cf m) (r1 ++ [PFail e None]) = Done /\
  asks (after (reconcileMachine cf m) r2) = Some (CInit m') /\
  after (reconcileMachine cf m) (r2 ++ [PFail e None]) = Done.
Proof.
  exists tl_cf, tl_new, [RBool false; RUnit; RUnit],
    [RBool false; RUnit; RUnit; tl_none; POk "m" "vm-1" ""; RBool false; RErr "conflict"], tl_new,
    "connection refused".
  repeat split; vm_compute; reflexivity.
Qed.
Print Assumptions C112_unreadable_refuted.

(** C112 fails: when the state of the VM cannot be read because the provider is not
    reachable, the deletion is called failed, but the text of the error is dropped; the
    description speaks of a problem with decoding. *)
Theorem C112_text_dropped_refuted : exists cf m rs e now,
  passing e /\ asks (after (reconcileTermination cf m) rs) = Some (CGetStatus m) /\
  tl_op (after (reconcileTermination cf m) (rs ++ [PFail e None; RTime now])) =
    Some (mkOp "Error occurred with decoding machine error status while getting VM status, aborting with retry. Set machine status to termination. Now, getting VM Status"
            "" now "Failed" "Delete").
Proof.
  exists tl_cf, (mkMO "m" 1 7 1000 (Some 5000) [MCM] [] [] "vm-1" (mkMS [] (mkOp GetVMStatus "" 5000 "Processing" "Delete") (mkCur "Terminating" false 5000) "")),
    [RUnit; RErr "no node"], (errorText (mkStatus cUnavailable "endpoint is down")), 5010.
  split; [right; right; right; split; vm_compute; reflexivity|]. split; vm_compute; reflexivity.
Qed.
Print Assumptions C112_text_dropped_refuted.

(** C112 fails: within half an hour a different error is not told, if it is short against
    the words around it. Here the VM was locked, and now the credentials are refused. *)
Theorem C112_hidden_refuted : exists cf m rs e1 e2 now,
  asks (after (reconcileTermination cf m) rs) = Some (CDelete m) /\
  lo_desc (ms_op (mo_status m)) = ("VM deletion failed due to - " ++ e1 ++ ". Aborting operation. Initiate VM deletion")%string /\
  ~ mentions e2 (lo_desc (ms_op (mo_status m))) /\
  lo_time (ms_op (mo_status m)) + 1700 < now /\
  asks (after (reconcileTermination cf m) (rs ++ [PFail e2 None])) = Some CNow /\
  after (reconcileTermination cf m) (rs ++ [PFail e2 None; RTime now]) = Done.
Proof.
  exists tl_cf, (mkMO "m" 1 7 1000 (Some 5000) [MCM] [("node", "n1")] [] "vm-1"
    (mkMS [] (mkOp "VM deletion failed due to - machine codes error: code = [Internal] message = [locked]. Aborting operation. Initiate VM deletion" "" 5000 "Failed" "Delete")
       (mkCur "Terminating" false 5000) "")), [RUnit],
    (errorText (mkStatus 13%N "locked")), (errorText (mkStatus 16%N "key expired")), 6790.
  split; [vm_compute; reflexivity|]. split; [vm_compute; reflexivity|]. split.
  - intros M. apply mentions_contains in M. vm_compute in M. discriminate.
  - repeat split; vm_compute; reflexivity.
Qed.
Print Assumptions C112_hidden_refuted.

(** C112 fails: that the VM created for a node that exists could not be deleted is told to
    nobody; what follows does not depend on the answer. *)
Theorem C112_leftover_refuted : exists cf m rs m', let p := reconcileMachine cf m in
  asks (after p rs) = Some (CDelete m') /\ mo_pid m' = "vm-1" /\
  forall r1 r2 rest, after p (rs ++ r1 :: rest) = after p (rs ++ r2 :: rest).
Proof.
  exists tl_cf, tl_new, [RBool false; RUnit; RUnit; tl_none; POk "n0" "vm-1" ""; RBool true], (withPid "vm-1" tl_new).
  cbv zeta. split; [vm_compute; reflexivity|]. split; [reflexivity|]. intros r1 r2 rest.
  rewrite (after_cons_app _ _ r1), (after_cons_app _ _ r2). f_equal.
Qed.
Print Assumptions C112_leftover_refuted.
