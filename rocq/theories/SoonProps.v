(** A machine is looked at again in time (C113): theorems. *)
Require Import Coq.ZArith.ZArith Coq.Lists.List Coq.Strings.String Coq.Bool.Bool Coq.NArith.NArith Lia.
From Verif Require Import CodesModel MachModel LevModel HealthModel LifeModel SoonModel SoonSpec SoonProofs.
Import ListNotations.
Open Scope string_scope.
Open Scope list_scope.
Open Scope Z_scope.

(** C113, the reconciles are those of LifeModel: with the results taken away they make the
    same calls, whatever the answers. *)
Theorem C113_same_calls : forall cf m,
  same (rReconcileMachine cf m) (reconcileMachine cf m) /\ same (rReconcileTermination cf m) (reconcileTermination cf m).
Proof. intros cf m. split; [apply same_machine|apply same_termination]. Qed.
Print Assumptions C113_same_calls.

(** C113, periods: whatever the answers, a machine is to be looked at again after 0.2 s, 5 s,
    3 min or 10 min; at once only while the deletion is at the stage of the volume
    attachments. *)
Theorem C113_periods : forall cf m d f,
  (returns any (rReconcileMachine cf m) d f -> d = 200 \/ d = 5000 \/ d = 180000 \/ d = 600000) /\
  (returns any (rReconcileTermination cf m) d f -> (d = 0 /\ contains "Delete Volume Attachments" (lo_desc (ms_op (mo_status m))) = true) \/
    d = 200 \/ d = 5000 \/ d = 180000 \/ d = 600000).
Proof.
  intros cf m d f. split; intros R.
  - exact (ends_returns _ _ _ _ _ (ends_machine cf m) R).
  - exact (ends_returns _ _ _ _ _ (ends_termination cf m) R).
Qed.
Print Assumptions C113_periods.

Definition so_cf : Cfg := mkCfg 7200 1200 600 "KernelDeadlock" (mkShow (fun _ => "") (fun _ => "")).
Definition so_gone (d : string) : MObj :=
  mkMO "m" 1 7 1000 (Some 5000) [MCM] [("node", "n1")] [] "vm-1" (mkMS [] (mkOp d "" 5010 "Processing" "Delete") (mkCur "Terminating" false 5000) "").
Definition so_wait (ph : string) : MObj :=
  mkMO "m" 1 7 1000 None [MCM] [("node", "n1")] [(MachinePriority, "3")] "vm-1"
    (mkMS [] (mkOp "Creating machine on cloud provider" "" 1010 "Processing" "Create") (mkCur ph true 1010) "").
Definition so_locked : string := errorText (mkStatus 13%N "disk is locked").
Definition so_busy : string := errorText (mkStatus 14%N "try again").

(* Results of a reconcile, computed; for answers that pass a test. *)
Fixpoint so_result (okb : Call -> Reply -> bool) (p : rprog) (rs : list Reply) {struct rs} : option (Z * bool) :=
  match p with
  | RDone d f => Some (d, f)
  | RDo c k => match rs with r :: rs' => if okb c r then so_result okb (k r) rs' else None | [] => None end
  | _ => None
  end.
Lemma so_result_sound : forall (ok : Call -> Reply -> Prop) okb, (forall c r, okb c r = true -> ok c r) ->
  forall rs p d f, so_result okb p rs = Some (d, f) -> returns ok p d f.
Proof.
  intros ok okb S. induction rs as [|r rs IH]; intros [x g| |x p|c k] d f H; cbn in H; try discriminate.
  - injection H as <- <-. apply ret_done.
  - injection H as <- <-. apply ret_done.
  - destruct (okb c r) eqn:E; [|discriminate]. apply ret_do with r; auto.
Qed.
Definition so_any (c : Call) (r : Reply) : bool := true.
Definition so_fine (c : Call) (r : Reply) : bool :=
  match c, r with
  | CClass, RUnit | WMeta _, RObj _ | WStatus _, RObj _ | CDelete _, POk _ _ _ | CNow, RTime _ => true
  | _, _ => false
  end.
Lemma so_fine_sound : forall c r, so_fine c r = true -> fine c r.
Proof. intros c r H. destruct c; try discriminate; destruct r; try discriminate; cbn; eauto. Qed.

(* A conflict, a passing error, one that is called permanent, a node without volumes; a
   creation that the provider refuses. *)
Example C113_periods_case :
  returns any (rReconcileTermination so_cf (so_gone InitiateVMDeletion)) 200 true /\
  returns any (rReconcileTermination so_cf (so_gone InitiateVMDeletion)) 5000 true /\
  returns any (rReconcileTermination so_cf (so_gone InitiateVMDeletion)) 600000 true /\
  returns any (rReconcileTermination so_cf (so_gone DelVolumesAttachments)) 0 false /\
  returns any (rReconcileMachine so_cf (so_wait "CrashLoopBackOff")) 180000 true.
Proof.
  split; [|split; [|split; [|split]]].
  - apply (so_result_sound any so_any (fun _ _ _ => Logic.I) [RUnit; PFail so_locked None; RTime 5020; RErr "conflict"]). vm_compute. reflexivity.
  - apply (so_result_sound any so_any (fun _ _ _ => Logic.I) [RUnit; PFail so_busy None; RTime 5020; RObj (so_gone "")]). vm_compute. reflexivity.
  - apply (so_result_sound any so_any (fun _ _ _ => Logic.I) [RUnit; PFail so_locked None; RTime 5020; RObj (so_gone "")]). vm_compute. reflexivity.
  - apply (so_result_sound any so_any (fun _ _ _ => Logic.I) [RUnit; RBool false; RTime 5020; RObj (so_gone "")]). vm_compute. reflexivity.
  - apply (so_result_sound any so_any (fun _ _ _ => Logic.I)
      [RBool false; RUnit; RNode NodeMissing; RTime 1020; RUnit; RUnit; PFail so_locked None; RTime 5020; RObj (so_gone "")]). vm_compute. reflexivity.
Qed.

(** C113, error periods: wherever in a reconcile a call fails, and the update that tells of
    it is stored: the reconcile fails, and a deletion whose error passes by (unknown,
    deadline exceeded, aborted, unavailable) goes on after 5 s, as after a VM that is not
    found; other errors of the provider wait 3 or 10 min; errors of the creation that do not
    pass wait 3 min, those of the initialization 5 s if they can be read; errors of drain,
    node, secret and cache 5 s; an error of the class 10 min, a missing class 5 s; a frozen
    controller looks again after 10 min. *)
Theorem C113_error_periods : forall cf m c k,
  (reaches (rReconcileTermination cf m) (RDo c k) -> deletion_period c k) /\
  (reaches (rReconcileMachine cf m) (RDo c k) -> creation_period c k).
Proof.
  intros cf m c k. split; intros R.
  - exact (rall_reaches _ _ _ R (periods_termination cf m) c k eq_refl).
  - exact (rall_reaches _ _ _ R (periods_machine cf m) c k eq_refl).
Qed.
Print Assumptions C113_error_periods.

(* The deletion of the VM is reached after the class; its failure with a lock waits ten
   minutes, one with a busy provider 5 s. A creation that is refused waits three minutes. *)
Definition so_stored (c : Call) (r : Reply) : bool :=
  match c, r with
  | WMeta _, RObj _ | WStatus _, RObj _ | CNow, RTime _ => true
  | WMeta _, _ | WStatus _, _ | CNow, _ => false
  | _, _ => true
  end.
Lemma so_stored_sound : forall c r, so_stored c r = true -> stored c r.
Proof. intros c r H. destruct c; cbn; trivial; destruct r; try discriminate; eauto. Qed.
Definition so_after (p : rprog) (rs : list Reply) : rprog :=
  fold_left (fun q r => match q with RDo _ k => k r | RLater _ (RDo _ k) => k r | _ => q end) rs p.
Lemma so_after_reaches : forall rs p, reaches p (so_after p rs).
Proof.
  induction rs as [|r rs IH]; intros p; [apply re_here|].
  cbn. destruct p as [| |x p|c k]; try apply IH.
  - destruct p; try apply IH. apply re_later. apply re_do with r. apply IH.
  - apply re_do with r. apply IH.
Qed.
Example C113_error_periods_case :
  (exists k, reaches (rReconcileTermination so_cf (so_gone InitiateVMDeletion)) (RDo (CDelete (so_gone InitiateVMDeletion)) k) /\
     returns stored (k (PFail so_locked None)) 600000 true /\ returns stored (k (PFail so_busy None)) 5000 true) /\
  (exists k, reaches (rReconcileMachine so_cf (so_wait "CrashLoopBackOff")) (RDo (CGetStatus (so_wait "CrashLoopBackOff")) k) /\
     returns stored (k (PFail so_locked None)) 180000 true).
Proof.
  split.
  - pose proof (so_after_reaches [RUnit] (rReconcileTermination so_cf (so_gone InitiateVMDeletion))) as R.
    eexists. split; [exact R|].
    split; (apply (so_result_sound stored so_stored so_stored_sound [RTime 5020; RObj (so_gone "")]); vm_compute; reflexivity).
  - pose proof (so_after_reaches [RBool false; RUnit; RNode NodeMissing; RTime 1020; RUnit; RUnit] (rReconcileMachine so_cf (so_wait "CrashLoopBackOff"))) as R.
    eexists. split; [exact R|].
    apply (so_result_sound stored so_stored so_stored_sound [RTime 5020; RObj (so_gone "")]); vm_compute; reflexivity.
Qed.

(** C113, never left alone: in every execution, for both queues, however the calls are
    answered, however often they fail and whatever the handlers do: unless a reconcile is
    at work on the key, or the key is in the queue, less than ten minutes have passed since
    the last reconcile ended; provided this one found a machine it is responsible for, and
    the process has not panicked. *)
Theorem C113_not_left_alone : forall cf t now v ops w, w = zrun cf t (zinit now v) ops ->
  z_dead w = false -> z_run w = None -> z_queued w = false -> z_gone w = false ->
  z_now w < z_end w + 600000.
Proof. exact not_left. Qed.
Print Assumptions C113_not_left_alone.

(* A deletion fails twenty times with an error that is called permanent: at the sixteenth
   failure the worker drops the key, and it is still looked at again. The delays are those
   of client-go's limiter: 5 ms, doubled each time. *)
Definition so_round (m : MObj) (e : string) (lim : Z) : list ZOp :=
  [ZStart; ZStep RUnit 0; ZStep (PFail e None) 0; ZStep RUnit 0; ZStep (RObj m) 0; ZStep RUnit lim].
Fixpoint so_rounds (n : nat) (m : MObj) (e : string) (lim : Z) : list ZOp :=
  match n with O => [] | S n' => so_round m e lim ++ [ZTick lim] ++ so_rounds n' m e (2 * lim) end.
Definition so_deletions (w : ZW) : list Z :=
  rev (flat_map (fun e => match e with (t, CDelete _, _) => [t] | _ => [] end) (z_log w)).

Example C113_not_left_alone_case :
  let m := so_gone InitiateVMDeletion in
  let w := zrun so_cf true (zinit 5020000 (Some m)) (so_rounds 15 m so_locked 5 ++ so_round m so_locked 163840) in
  z_dead w = false /\ z_run w = None /\ z_queued w = false /\ z_gone w = false /\ z_fails w = 0%nat /\
  z_due w = Some (z_now w + 600000) /\
  List.length (so_deletions w) = 16%nat /\
  let w' := zrun so_cf true w [ZTick 600000] in z_queued w' = true /\ z_run w' = None.
Proof. vm_compute. repeat split. Qed.

(** C113, failed in time: a machine is Pending (or Unknown) since [t0]; the controller sees
    it at a time at which its key is in the queue. From then on the cache keeps showing
    it, the controller is not frozen, the class can be read, its node does not come, and
    the limit on replacements does not stand in the way; all other answers are free. Keys
    wait at most [delta] for a worker, a reconcile takes at most [eps]. Then the status
    Failed is sent to the API server no later than one minute (and delta and twice eps)
    after the timeout, or after that time if it is the later one. *)
Theorem C113_failed_in_time : forall cf m t0 limit delta eps t v before ops w0 w,
  waiting cf m t0 limit -> 0 <= delta -> 0 <= eps ->
  w0 = zrun cf false (zinit t v) before -> z_dead w0 = false -> z_queued w0 = true -> z_view w0 = Some m ->
  quiet cf m w0 ops -> Forall (prompt delta eps) (zstates cf false w0 ops) ->
  w = zrun cf false w0 ops ->
  Z.max ((t0 + limit + 1) * 1000) (z_now w0) + 60000 + delta + 2 * eps < z_now w ->
  failed_since (z_now w0) m w.
Proof.
  intros cf m t0 limit delta eps t v before ops w0 w W de ep E D Q V QU PR -> L.
  destruct (failed_in_time cf m t0 limit delta eps t v before ops w0 W de ep E D Q V QU PR) as [F|N]; [exact F|lia].
Qed.
Print Assumptions C113_failed_in_time.

(* A new machine with 20 minutes to join, seen 30 s before they are over: a first look, the
   next one after a minute, at which it is marked as failed. The reconcile goes on to the
   end with the machine's next look ten minutes later. *)
Definition so_look : list ZOp := [ZStart; ZStep (RBool false) 0; ZStep RUnit 0; ZStep (RNode NodeMissing) 0; ZStep RUnit 0].
Definition so_ops : list ZOp :=
  so_look ++ [ZStep RUnit 0; ZStep RUnit 0; ZStep RUnit 0; ZTick 60000] ++ so_look ++ [ZStep (RObj (so_wait "Failed")) 0; ZTick 31000].

Fixpoint so_all (f : ZW -> bool) (cf : Cfg) (w : ZW) (ops : list ZOp) : bool :=
  f w && match ops with [] => true | op :: r => so_all f cf (zstep cf false w op) r end.
Definition so_promptb (delta eps : Z) (w : ZW) : bool :=
  (negb (z_queued w) || match z_run w with Some _ => true | None => false end || (z_now w <=? z_ready w + delta)) &&
  (match z_run w with Some _ => false | None => true end || (z_now w <=? z_began w + eps)).
Lemma so_prompt_sound : forall delta eps cf ops w, so_all (so_promptb delta eps) cf w ops = true -> Forall (prompt delta eps) (zstates cf false w ops).
Proof.
  intros delta eps cf.
  assert (P : forall w, so_promptb delta eps w = true -> prompt delta eps w).
  { intros w H. unfold so_promptb in H. apply andb_true_iff in H. destruct H as [A B]. split.
    - intros Q R. rewrite Q, R in A. cbn in A. lia.
    - intros R. destruct (z_run w); [cbn in B; lia|congruence]. }
  induction ops as [|op ops IH]; intros w H; cbn in H; apply andb_true_iff in H; destruct H as [A B]; cbn; constructor; auto.
Qed.

Definition so_quiet1 (w : ZW) (op : ZOp) : bool :=
  match op with
  | ZSee _ => false
  | ZStep r _ =>
      match z_run w with
      | Some (RDo CFrozen _) => match r with RBool false => true | _ => false end
      | Some (RDo CClass _) => match r with RUnit => true | _ => false end
      | Some (RDo (CNode _) _) => match r with RNode NodeMissing => true | _ => false end
      | Some (RDo (CMayFail _) _) => match r with RBool true => true | _ => false end
      | _ => true
      end
  | _ => true
  end.
Fixpoint so_quiet (cf : Cfg) (w : ZW) (ops : list ZOp) : bool :=
  match ops with [] => true | op :: r => so_quiet1 w op && so_quiet cf (zstep cf false w op) r end.
Lemma so_quiet_sound : forall cf m ops w, so_quiet cf w ops = true -> quiet cf m w ops.
Proof.
  intros cf m. induction ops as [|op ops IH]; intros w H; [exact Logic.I|]. cbn in H. apply andb_true_iff in H. destruct H as [A B].
  split; [|apply IH, B]. unfold so_quiet1, undisturbed in *. destruct op as [d|v| | |r lim]; try exact Logic.I; [discriminate|].
  destruct (z_run w) as [[x f| |x p|c k]|]; try exact Logic.I.
  destruct c; try exact Logic.I; destruct r as [| | |[]| |[]| | | |]; try discriminate; try reflexivity.
  exists NodeMissing. split; [reflexivity|now left].
Qed.

Example C113_failed_in_time_case :
  let m := so_wait "Pending" in
  let w0 := zinit 2180000 (Some m) in
  waiting so_cf m 1010 1200 /\ z_dead w0 = false /\ z_queued w0 = true /\ z_view w0 = Some m /\
  quiet so_cf m w0 so_ops /\ Forall (prompt 0 31000) (zstates so_cf false w0 so_ops) /\
  z_now (zrun so_cf false w0 so_ops) = 2271000 /\
  (map (fun e => fst (fst e)) (filter (fun e => match e with (_, WStatus m', _) => String.eqb (phase m') "Failed" | _ => false end)
     (z_log (zrun so_cf false w0 so_ops)))) = [2240000].
Proof.
  cbv zeta. split; [|split; [reflexivity|split; [reflexivity|split; [reflexivity|split; [|split; [|split]]]]]].
  - repeat split; cbn; auto. discriminate.
  - apply so_quiet_sound. vm_compute. reflexivity.
  - apply so_prompt_sound. vm_compute. reflexivity.
  - vm_compute. reflexivity.
  - vm_compute. reflexivity.
Qed.

(** C113, without errors each stage of a deletion is followed by the next one within five
    seconds: if all calls of a reconcile in the termination queue succeed, the period is at
    most 5 s; unless the machine has no finalizer of the controller, or its finalizer has
    just been removed. *)
Theorem C113_deletion_goes_on : forall cf m d f,
  returns fine (rReconcileTermination cf m) d f ->
  d <= 5000 \/ ~ In MCM (mo_fins m) \/ (contains "Initiate machine object finalizer removal" (desc m) = true /\ d = 600000 /\ f = false).
Proof. intros cf m d f R. exact (ends_returns _ _ _ _ _ (ends_fine cf m) R). Qed.
Print Assumptions C113_deletion_goes_on.

Example C113_deletion_goes_on_case :
  returns fine (rReconcileTermination so_cf (so_gone InitiateVMDeletion)) 5000 true /\
  returns fine (rReconcileTermination so_cf (so_gone InitiateFinalizerRemoval)) 600000 false.
Proof.
  split.
  - apply (so_result_sound fine so_fine so_fine_sound [RUnit; POk "n1" "vm-1" ""; RTime 5020; RObj (so_gone "")]). vm_compute. reflexivity.
  - apply (so_result_sound fine so_fine so_fine_sound [RUnit; RObj (so_gone "")]). vm_compute. reflexivity.
Qed.

(** C113, periods are kept by the machine queue: when a reconcile has ended and neither the
    key was added meanwhile nor an earlier time is set, the next time is exactly the period
    away; an error makes no difference. *)
Theorem C113_kept : forall cf w d f r lim,
  z_dead w = false -> z_run w = Some (RDone d f) -> 0 < d -> z_queued w = false -> z_due w = None ->
  let w' := zstep cf false w (ZStep r lim) in
  z_run w' = None /\ z_queued w' = false /\ z_due w' = Some (z_now w + d).
Proof.
  intros cf w d f r lim D R P Q U. cbv zeta. unfold zstep. rewrite D. unfold zStep. rewrite R.
  unfold zFinish, zClose, zWorker, zAfter, zFails. replace (d <=? 0) with false by (symmetry; apply Z.leb_gt; lia).
  cbn. rewrite U, Q. repeat split.
Qed.
Print Assumptions C113_kept.

Example C113_kept_case :
  let w := zrun so_cf false (zinit 2180000 (Some (so_wait "Running"))) [ZStart; ZStep (RBool true) 0] in
  z_dead w = false /\ z_run w = Some (RDone 600000 true) /\ z_queued w = false /\ z_due w = None.
Proof. vm_compute. repeat split. Qed.

(** C113, periods are not kept in the termination queue: the error is also given back to the
    worker, whose rate limiter adds the key after milliseconds. A VM whose deletion was
    answered with an error that is called permanent ("Aborting operation", to be looked at
    again after 10 minutes) is asked for again after 5 ms, and 15 times in less than three
    minutes. *)
Theorem C113_hold_refuted : exists ops m e, let w := zrun so_cf true (zinit 5020000 (Some m)) ops in
  deleteRetry e = 600000 /\
  (exists r, In (5020000, CDelete m, PFail e None) (z_log w) /\ In (5020005, CDelete m, r) (z_log w)) /\
  List.length (so_deletions w) = 16%nat /\ (forall t, In t (so_deletions w) -> 5020000 <= t <= 5020000 + 180000).
Proof.
  exists (so_rounds 15 (so_gone InitiateVMDeletion) so_locked 5 ++ so_round (so_gone InitiateVMDeletion) so_locked 163840),
    (so_gone InitiateVMDeletion), so_locked. cbv zeta.
  split; [vm_compute; reflexivity|]. split; [|split].
  - exists (PFail so_locked None). split; vm_compute; tauto.
  - vm_compute. reflexivity.
  - assert (A : forallb (fun t => (5020000 <=? t) && (t <=? 5200000))%bool
        (so_deletions (zrun so_cf true (zinit 5020000 (Some (so_gone InitiateVMDeletion)))
           (so_rounds 15 (so_gone InitiateVMDeletion) so_locked 5 ++ so_round (so_gone InitiateVMDeletion) so_locked 163840))) = true) by (vm_compute; reflexivity).
    intros t I. rewrite forallb_forall in A. specialize (A t I). lia.
Qed.
Print Assumptions C113_hold_refuted.

(** C113, after a freeze: the hypothesis that the controller is not frozen is needed, and a
    short freeze is enough. A reconcile that finds it frozen sets the next look ten minutes
    away; that the freeze is over wakes nobody. Here a machine's time is over after 30 s,
    the freeze lasts a moment, all else is as above, workers are prompt, and after more
    than nine minutes nobody has looked. *)
Theorem C113_frozen_refuted : exists m w0 op ops, let w := zrun so_cf false (zstep so_cf false w0 op) ops in
  waiting so_cf m 1010 1200 /\ w0 = zrun so_cf false (zinit 2180000 (Some m)) [ZStart] /\
  op = ZStep (RBool true) 0 /\ quiet so_cf m (zstep so_cf false w0 op) ops /\
  Forall (prompt 0 0) (zstates so_cf false (zstep so_cf false w0 op) ops) /\
  (1010 + 1200) * 1000 + 540000 < z_now w /\ z_log w = [(2180000, CFrozen, RBool true)].
Proof.
  exists (so_wait "Pending"), (zrun so_cf false (zinit 2180000 (Some (so_wait "Pending"))) [ZStart]), (ZStep (RBool true) 0),
    [ZStep RUnit 0; ZTick 599999]. cbv zeta.
  split; [repeat split; cbn; auto; discriminate|]. split; [reflexivity|]. split; [reflexivity|].
  split; [apply so_quiet_sound; vm_compute; reflexivity|]. split; [apply so_prompt_sound; vm_compute; reflexivity|]. split; vm_compute; reflexivity.
Qed.
Print Assumptions C113_frozen_refuted.
