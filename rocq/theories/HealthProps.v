(** Properties of the health check: C28. *)
Require Import Coq.ZArith.ZArith Coq.Lists.List Coq.Strings.String Coq.Strings.Ascii Coq.Bool.Bool Coq.micromega.Lia.
From Verif Require Import MachModel HealthModel HealthSpec HealthProofs.
Import ListNotations.
Open Scope string_scope.
Open Scope list_scope.
Open Scope Z_scope.

(** C28: what a written status may say about the phase. Partial: the claim that a failed
    machine or one being terminated is never brought back is refuted below. *)
Theorem C28_phases_partial : forall sh creation health bad now node m s,
  reconcileMachineHealth sh creation health bad now node m = HWrite s ->
  phase_of s = phase m \/
  (phase_of s = "Running" /\ phase m <> "Running" /\ no_problem bad (ms_conds s) /\
     exists conds critical, node = NodeIs conds critical /\ (phase m = "Pending" -> critical = false)) \/
  (phase_of s = "Unknown" /\ phase m = "Running" /\
     (node = NodeMissing \/ (exists conds critical, node = NodeIs conds critical /\ ~ no_problem bad (ms_conds s)))) \/
  (phase_of s = "Failed" /\ phase m = "Pending" /\ cs_time (ms_cur (mo_status m)) + creation < now).
Proof. exact phases. Qed.
Print Assumptions C28_phases_partial.

(** C28: a machine is proposed to be failed for bad health only when Unknown for longer
    than the health timeout and still unhealthy or without node. *)
Theorem C28_failed_after_timeout : forall sh creation health bad now node m d c,
  reconcileMachineHealth sh creation health bad now node m = HTryFail d c ->
  phase m = "Unknown" /\ cs_time (ms_cur (mo_status m)) + health < now /\
  (node = NodeMissing \/ exists conds critical, node = NodeIs conds critical /\ ~ no_problem bad (ms_conds c)).
Proof. exact try_fail. Qed.
Print Assumptions C28_failed_after_timeout.

(** C28: the conditions a decision is based on and that end up on the machine are, type
    by type, those of the node. *)
Theorem C28_conditions_recorded : forall sh creation health bad now conds critical m,
  NoDup (map nc_type (ms_conds (mo_status m))) -> NoDup (map nc_type conds) ->
  match reconcileMachineHealth sh creation health bad now (NodeIs conds critical) m with
  | HWrite s | HTryFail _ s => agrees (ms_conds s) conds
  | _ => agrees (ms_conds (mo_status m)) conds
  end.
Proof. exact recorded. Qed.
Print Assumptions C28_conditions_recorded.

(** C28: a machine with a healthy node is made Running (from Pending once the taint for
    critical components is gone). *)
Theorem C28_healthy_runs : forall sh creation health bad now conds critical m,
  NoDup (map nc_type (ms_conds (mo_status m))) -> NoDup (map nc_type conds) ->
  no_problem bad conds -> phase m <> "Running" -> (phase m = "Pending" -> critical = false) ->
  exists s, reconcileMachineHealth sh creation health bad now (NodeIs conds critical) m = HWrite s /\ phase_of s = "Running".
Proof. exact must_run. Qed.
Print Assumptions C28_healthy_runs.

(** C28: a Running machine that has ever reported conditions and whose node is missing or
    unhealthy is made Unknown. *)
Theorem C28_unhealthy_noticed : forall sh creation health bad now node m,
  NoDup (map nc_type (ms_conds (mo_status m))) ->
  phase m = "Running" -> ms_conds (mo_status m) <> [] ->
  (node = NodeMissing \/ exists conds critical, node = NodeIs conds critical /\ NoDup (map nc_type conds) /\ ~ no_problem bad conds) ->
  exists s, reconcileMachineHealth sh creation health bad now node m = HWrite s /\ phase_of s = "Unknown".
Proof. exact must_unknown. Qed.
Print Assumptions C28_unhealthy_noticed.

(** C28: a machine without node does not stay Pending or Unknown beyond its timeout. *)
Theorem C28_timeout_enforced : forall sh creation health bad now m,
  (phase m = "Pending" -> cs_time (ms_cur (mo_status m)) + creation < now ->
    exists s, reconcileMachineHealth sh creation health bad now NodeMissing m = HWrite s /\ phase_of s = "Failed") /\
  (phase m = "Unknown" -> cs_time (ms_cur (mo_status m)) + health < now ->
    exists d c, reconcileMachineHealth sh creation health bad now NodeMissing m = HTryFail d c).
Proof. exact must_fail. Qed.
Print Assumptions C28_timeout_enforced.

Definition hp_show := mkShow (fun _ => "conds") (fun _ => "10m").
Definition hp_m (ph : string) (dt : option Z) (conds : list NCond) : MObj :=
  mkMO "m" 1 1 0 dt ["machine.sapcloud.io/machine-controller-manager"] [("node", "n")] [] "id"
    (mkMS conds (mkOp "d" "" 100 "Processing" "Create") (mkCur ph false 100) "").
Definition hp_ready (s : string) := mkNCond "Ready" s "" "" 90.
Definition hp_disk (s : string) := mkNCond "DiskPressure" s "" "" 90.
Definition hp_out (ph : string) (old : list NCond) (now : Z) (n : NodeAns) : option string :=
  match reconcileMachineHealth hp_show 1200 600 "KernelDeadlock,DiskPressure" now n (hp_m ph None old) with
  | HWrite s => Some (phase_of s) | HTryFail _ _ => Some "rate limit" | HNone => Some "same" | HWait => Some "wait" | HErr => None
  end.

Example C28_case :
  hp_out "Pending" [] 200 (NodeIs [hp_ready "True"; hp_disk "False"] false) = Some "Running" /\
  hp_out "Pending" [] 200 (NodeIs [hp_ready "True"; hp_disk "False"] true) = Some "Pending" /\
  hp_out "Running" [hp_ready "True"] 200 (NodeIs [hp_ready "True"; hp_disk "True"] false) = Some "Unknown" /\
  hp_out "Running" [hp_ready "True"] 200 NodeMissing = Some "Unknown" /\
  hp_out "Unknown" [hp_ready "False"] 200 (NodeIs [hp_ready "False"] false) = Some "wait" /\
  hp_out "Unknown" [hp_ready "False"] 701 (NodeIs [hp_ready "False"] false) = Some "rate limit" /\
  hp_out "Pending" [] 1301 NodeMissing = Some "Failed" /\
  hp_out "Running" [hp_ready "True"] 1301 (NodeIs [hp_ready "True"] false) = Some "same".
Proof. repeat split. Qed.

Lemma hp_healthy : no_problem "KernelDeadlock,DiskPressure" [hp_ready "True"; hp_disk "False"].
Proof. apply healthy_iff. reflexivity. Qed.

Example C28_healthy_runs_case :
  NoDup (map nc_type [hp_ready "True"; hp_disk "False"]) /\ no_problem "KernelDeadlock,DiskPressure" [hp_ready "True"; hp_disk "False"].
Proof. split; [repeat constructor; cbn; intuition discriminate | exact hp_healthy]. Qed.

(** C28 fails: a machine marked failed, to be replaced, is made Running again when its
    node recovers, and so is one already in phase Terminating (the MachineSet controller
    writes that phase even if its delete call failed, see C55). *)
Theorem C28_brought_back_refuted : forall ph, In ph ["Failed"; "Terminating"] ->
  exists now conds m s, phase m = ph /\
    reconcileMachineHealth hp_show 1200 600 "KernelDeadlock,DiskPressure" now (NodeIs conds false) m = HWrite s /\ phase_of s = "Running".
Proof.
  intros ph H. exists 200, [hp_ready "True"; hp_disk "False"], (hp_m ph None [hp_ready "False"]).
  destruct H as [<- | [<- | []]]; eexists; repeat split; reflexivity.
Qed.
Print Assumptions C28_brought_back_refuted.

(** C28 fails for nodes that do not report readiness at all: such a node counts as
    healthy. *)
Theorem C28_never_ready_refuted : exists now conds m s,
  (forall c, In c conds -> nc_type c <> "Ready") /\ phase m = "Pending" /\
  reconcileMachineHealth hp_show 1200 600 "KernelDeadlock,DiskPressure" now (NodeIs conds false) m = HWrite s /\ phase_of s = "Running".
Proof.
  exists 200, [hp_disk "False"], (hp_m "Pending" None []). eexists.
  split; [intros c [<- | []]; discriminate | repeat split; reflexivity].
Qed.
Print Assumptions C28_never_ready_refuted.

(** C28: a status that does not change the phase leaves the last operation and the current
    status as they are; one that does carries the time, switches the timer off and names
    the operation, its state and the reason; the last known state is kept. *)
Theorem C28_said : forall sh creation health bad now node m s, let st := mo_status m in
  reconcileMachineHealth sh creation health bad now node m = HWrite s ->
  ms_lks s = ms_lks st /\
  (phase_of s = phase m -> ms_op s = ms_op st /\ ms_cur s = ms_cur st) /\
  (phase_of s <> phase m -> cs_timeoutActive (ms_cur s) = false /\ cs_time (ms_cur s) = now /\ lo_time (ms_op s) = now /\ lo_code (ms_op s) = "") /\
  (phase_of s <> phase m -> phase_of s = "Running" -> lo_state (ms_op s) = "Successful" /\
     ((lo_type (ms_op st) = "Create" /\ lo_state (ms_op st) <> "Successful" /\ lo_type (ms_op s) = "Create" /\
         lo_desc (ms_op s) = ("Machine " ++ mo_name m ++ " successfully joined the cluster")%string) \/
      (~ (lo_type (ms_op st) = "Create" /\ lo_state (ms_op st) <> "Successful") /\ lo_type (ms_op s) = "HealthCheck" /\
         lo_desc (ms_op s) = ("Machine " ++ mo_name m ++ " successfully re-joined the cluster")%string))) /\
  (phase_of s <> phase m -> phase_of s = "Unknown" -> lo_state (ms_op s) = "Processing" /\ lo_type (ms_op s) = "HealthCheck" /\
     lo_desc (ms_op s) = match node with
       | NodeMissing => ("Node object went missing. Machine " ++ mo_name m ++ " is unhealthy - changing MachinePhase to Unknown")%string
       | _ => ("Machine " ++ mo_name m ++ " is unhealthy - changing MachinePhase to Unknown. Node conditions: " ++ sh_conds sh (ms_conds s))%string
       end) /\
  (phase_of s <> phase m -> phase_of s = "Failed" -> lo_state (ms_op s) = "Failed" /\ lo_type (ms_op s) = lo_type (ms_op st) /\
     lo_desc (ms_op s) = ("Machine " ++ mo_name m ++ " failed to join the cluster in " ++ sh_dur sh creation ++ " minutes.")%string).
Proof. exact said. Qed.
Print Assumptions C28_said.

(** C28: and so does the status of a machine marked failed under the rate limit. *)
Theorem C28_failed_said : forall now d m c,
  phase_of (failedStatus now d m c) = "Failed" /\ cs_timeoutActive (ms_cur (failedStatus now d m c)) = false /\
  cs_time (ms_cur (failedStatus now d m c)) = now /\ lo_time (ms_op (failedStatus now d m c)) = now /\
  lo_state (ms_op (failedStatus now d m c)) = "Failed" /\ lo_type (ms_op (failedStatus now d m c)) = lo_type (ms_op (mo_status m)) /\
  lo_desc (ms_op (failedStatus now d m c)) = d /\ lo_code (ms_op (failedStatus now d m c)) = "" /\
  ms_conds (failedStatus now d m c) = ms_conds c /\ ms_lks (failedStatus now d m c) = ms_lks c.
Proof. intros. repeat split. Qed.
Print Assumptions C28_failed_said.

Example C28_said_case :
  match reconcileMachineHealth hp_show 1200 600 "KernelDeadlock" 200 (NodeIs [hp_ready "True"] false) (hp_m "Pending" None []) with
  | HWrite s => ms_op s = mkOp "Machine m successfully joined the cluster" "" 200 "Successful" "Create" /\ ms_cur s = mkCur "Running" false 200
  | _ => False
  end /\
  match reconcileMachineHealth hp_show 1200 600 "KernelDeadlock" 701 NodeMissing (hp_m "Unknown" None [hp_ready "True"]) with
  | HTryFail d c => ms_op (failedStatus 701 d (hp_m "Unknown" None []) c) =
      mkOp "Machine m health checks failing since last 10m minutes. Updating machine phase to Failed. Node Conditions: conds" "" 701 "Failed" "Create"
  | _ => False
  end.
Proof. repeat split. Qed.
