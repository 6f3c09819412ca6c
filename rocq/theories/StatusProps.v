(** Properties C13, C14, C49, C52, C53, C54, C70, C71: conditions, progress, counts. *)
Require Import Coq.ZArith.ZArith Coq.Lists.List Coq.Strings.String Coq.Bool.Bool Coq.Sorting.Permutation Coq.micromega.Lia.
From Verif Require Import Types RolloutModel RolloutSpec RolloutProofs StatusModel StatusSpec StatusProofs.
Import ListNotations.
Open Scope string_scope.
Open Scope list_scope.
Open Scope Z_scope.

(** C13, MachineDeployment. If there was at most one condition of the type before,
    there is exactly one after, with the given status and reason, and the others
    are untouched. *)
Theorem C13_set : forall l c, (List.length (of_type (c_type c) l) <= 1)%nat ->
  (exists x, of_type (c_type c) (SetMachineDeploymentCondition l c) = [x] /\ c_status x = c_status c /\ c_reason x = c_reason c) /\
  others (c_type c) (SetMachineDeploymentCondition l c) = others (c_type c) l.
Proof. exact (gset_spec true). Qed.
Print Assumptions C13_set.

(** C13, MachineSet. *)
Theorem C13_set_ms : forall l c, (List.length (of_type (c_type c) l) <= 1)%nat ->
  (exists x, of_type (c_type c) (SetCondition l c) = [x] /\ c_status x = c_status c /\ c_reason x = c_reason c) /\
  others (c_type c) (SetCondition l c) = others (c_type c) l.
Proof. exact (gset_spec false). Qed.
Print Assumptions C13_set_ms.

(** The transition time moves only if the status did. *)
Theorem C13_transition_time : forall l c x y, shows l (c_type c) x ->
  shows (SetMachineDeploymentCondition l c) (c_type c) y -> c_status x = c_status y -> c_trans y = c_trans x.
Proof. exact gset_trans. Qed.
Print Assumptions C13_transition_time.

(** Setting twice is setting once. *)
Theorem C13_idempotent : forall l c,
  SetMachineDeploymentCondition (SetMachineDeploymentCondition l c) c = SetMachineDeploymentCondition l c /\
  SetCondition (SetCondition l c) c = SetCondition l c.
Proof. intros; split; [exact (gset_idem true l c)|exact (gset_idem false l c)]. Qed.
Print Assumptions C13_idempotent.

(** Removal removes all of the type and nothing else. *)
Theorem C13_remove : forall l ty, of_type ty (RemoveMachineDeploymentCondition l ty) = [] /\
  others ty (RemoveMachineDeploymentCondition l ty) = others ty l /\
  of_type ty (RemoveCondition l ty) = [] /\ others ty (RemoveCondition l ty) = others ty l.
Proof. intros. destruct (remove_spec l ty). auto. Qed.
Print Assumptions C13_remove.

(** Any sequence of operations keeps the types distinct. *)
Theorem C13_sequences : forall ops l, (forall ty, (List.length (of_type ty l) <= 1)%nat) ->
  forall ty, (List.length (of_type ty (crun_md l ops)) <= 1)%nat /\ (List.length (of_type ty (crun_ms l ops)) <= 1)%nat.
Proof. intros ops l H ty; split; [exact (grun_unique true ops l H ty)|exact (grun_unique false ops l H ty)]. Qed.
Print Assumptions C13_sequences.

Example C13_case :
  let a := mkCond "Progressing" "True" 1 1 "r1" "" in let b := mkCond "Available" "True" 2 2 "r2" "" in
  let c := mkCond "Progressing" "True" 5 5 "r3" "" in let e := mkCond "Progressing" "False" 6 6 "r3" "" in
  crun_md [] [CSet a; CSet b; CSet c] = [b; mkCond "Progressing" "True" 5 1 "r3" ""] /\
  crun_md [] [CSet a; CSet b; CSet c; CSet e] = [b; e] /\ crun_md [] [CSet a; CSet b; CRemove "Available"] = [a].
Proof. vm_compute. repeat split. Qed.

(** What a deployment's readers see of it: whatever a pass reports about the rollout, the
    transition time shown is the earlier one if the status shown is the earlier one, and the
    time of the pass (whole seconds) otherwise. *)
Theorem C13_progressing_time : forall now all n d c,
  shows (ds_conds (rolloutStatus now all n d)) "Progressing" c ->
  (forall k, shows (ds_conds (sd_status d)) "Progressing" k ->
     (c_status k = c_status c -> c_trans c = c_trans k) /\ (c_status k <> c_status c -> c_trans c = stored now)) /\
  ((forall k, ~ shows (ds_conds (sd_status d)) "Progressing" k) -> c_trans c = stored now).
Proof.
  intros now all n d c H. unfold shows in *. rewrite <- !get_of_type in *. rewrite rollout_progressing in H.
  apply progress_moved in H; [|apply calc_progressing]. unfold moved in H.
  destruct (GetMachineDeploymentCondition (ds_conds (sd_status d)) "Progressing") as [k|] eqn:K.
  - split; [intros k' E; injection E as <-; exact H|]. intros N. exfalso. apply (N k). reflexivity.
  - split; [discriminate|]. intros _. exact H.
Qed.
Print Assumptions C13_progressing_time.

(** C13 fails for lists that already hold a type twice: setting the first one's
    status and reason again leaves both. *)
Theorem C13_duplicates_refuted : exists l c, (List.length (of_type (c_type c) (SetMachineDeploymentCondition l c)) = 2)%nat.
Proof. exists [mkCond "A" "True" 0 0 "r" ""; mkCond "A" "False" 0 0 "s" ""], (mkCond "A" "True" 1 1 "r" ""). reflexivity. Qed.
Print Assumptions C13_duplicates_refuted.

(** C13 fails for MachineSets: a new reason with the same status moves the
    transition time. *)
Theorem C13_transition_time_ms_refuted : exists l c x y, (List.length (of_type (c_type c) l) <= 1)%nat /\
  shows l (c_type c) x /\ shows (SetCondition l c) (c_type c) y /\ c_status x = c_status y /\ c_trans y <> c_trans x.
Proof.
  exists [mkCond "ReplicaFailure" "True" 0 3 "FailedCreate" ""], (mkCond "ReplicaFailure" "True" 0 9 "FailedDelete" ""),
    (mkCond "ReplicaFailure" "True" 0 3 "FailedCreate" ""), (mkCond "ReplicaFailure" "True" 0 9 "FailedDelete" "").
  vm_compute. repeat split; auto; discriminate.
Qed.
Print Assumptions C13_transition_time_ms_refuted.

(** C14: a rollout not yet reported complete is reported complete by the next
    reconcile whose write succeeds exactly if its counts and generation say so. *)
Theorem C14_complete : forall d now all n, ~ shows_reason d "NewMachineSetAvailable" ->
  let d' := pstep d (now, PSync true all n) in
  let k := calculateDeploymentStatus now all n d in
  (shows_reason d' "NewMachineSetAvailable" <-> all_done d k).
Proof. exact complete_reported. Qed.
Print Assumptions C14_complete.

(** C14: in every history with a clock that does not go back, when a reconcile
    newly reports the deadline as exceeded, the rollout was not reported complete,
    a deadline is set, and it has passed since the recorded time and since every
    progress stored in that history (times as stored: whole seconds). *)
Theorem C14_deadline : forall d t0 l now ok all n, clocked t0 l now ->
  let d1 := prun d l in let d2 := pstep d1 (now, PSync ok all n) in
  ~ shows_reason d1 "ProgressDeadlineExceeded" -> shows_reason d2 "ProgressDeadlineExceeded" ->
  ~ shows_reason d1 "NewMachineSetAvailable" /\
  exists s, sd_deadline d1 = Some s /\
   (exists c, shows (ds_conds (sd_status d1)) "Progressing" c /\ c_update c + s * second < now) /\
   forall l1 t ok' a b l2, l = l1 ++ (t, PSync ok' a b) :: l2 ->
     progressed (sd_status (prun d l1)) (sd_status (prun d (l1 ++ [(t, PSync ok' a b)]))) ->
     stored t + s * second < now.
Proof. exact deadline_lemma. Qed.
Print Assumptions C14_deadline.

(** C14: once reported, it stays until the rollout completes or progresses, or a
    new MachineSet is created or fails to be. *)
Theorem C14_timed_out_stays : forall d now o, shows_reason d "ProgressDeadlineExceeded" ->
  match o with PCreated | PCreateFailed => False | _ => True end ->
  let d' := pstep d (now, o) in
  shows_reason d' "ProgressDeadlineExceeded" \/ all_done d (sd_status d') \/ progressed (sd_status d) (sd_status d').
Proof. exact timed_out_stays. Qed.
Print Assumptions C14_timed_out_stays.

(** C14: a stuck rollout does get reported: if a reconcile finds nothing to write
    and asks to be run again after a time, then running it at that time with
    nothing changed reports the deadline as exceeded. *)
Theorem C14_stuck_is_reported : forall now d all n after,
  let k := rolloutStatus now all n d in
  statusUpdateRequired (sd_status d) k = false ->
  requeueStuckMachineDeployment now d k = RequeueAfter after ->
  ~ shows_reason d "NewMachineSetAvailable" ->
  shows_reason (pstep d (now + after, PSync true all n)) "ProgressDeadlineExceeded".
Proof. exact requeue_lemma. Qed.
Print Assumptions C14_stuck_is_reported.

Definition st_ms (name : string) (spec status avail : Z) : SSet :=
  mkSSet (mkMS name 1 false 1 1 spec status avail avail (AnnInt 3) (AnnInt 4)) (mkSStatus status status avail avail None []).
Definition st_dep := mkSDep (mkMD 3 (RollingUpdate (Some (IOSInt 1)) (Some (IOSInt 0))) None 0) 2 (Some 600)
  (mkDStatus 0 0 0 0 0 0 [] []).
Definition st_hist : list (Z * POp) :=
  [(1 * second, PCreated); (5 * second, PSync true [st_ms "a" 3 3 3; st_ms "b" 1 0 0] (Some (st_ms "b" 1 0 0)));
   (9 * second, PSync true [st_ms "a" 3 3 3; st_ms "b" 1 1 0] (Some (st_ms "b" 1 1 0)))].

Example C14_case :
  let stuck := PSync true [st_ms "a" 3 3 3; st_ms "b" 1 1 0] (Some (st_ms "b" 1 1 0)) in
  let d := prun st_dep st_hist in
  map (fun t => option_map c_reason (getp (pstep d (t * second, stuck)))) [608; 609; 610] =
    [Some "MachineSetUpdated"; Some "MachineSetUpdated"; Some "ProgressDeadlineExceeded"] /\
  requeueStuckMachineDeployment (200 * second) d (rolloutStatus (200 * second) [st_ms "a" 3 3 3; st_ms "b" 1 1 0] (Some (st_ms "b" 1 1 0)) d) = RequeueAfter (410 * second) /\
  statusUpdateRequired (sd_status d) (rolloutStatus (200 * second) [st_ms "a" 3 3 3; st_ms "b" 1 1 0] (Some (st_ms "b" 1 1 0)) d) = false /\
  option_map c_reason (getp (pstep d (20 * second, PSync true [st_ms "a" 0 0 0; st_ms "b" 3 3 3] (Some (st_ms "b" 3 3 3))))) = Some "NewMachineSetAvailable".
Proof. vm_compute. repeat split. Qed.

(** The case of [C13_progressing_time]: the rollout stalls (the status turns False at 610 s)
    and goes on (True at 700 s; and the time stays at 720 s). *)
Example C13_progressing_time_case :
  let dep := prun st_dep (st_hist ++ [(610 * second, PSync true [st_ms "a" 3 3 3; st_ms "b" 1 1 0] (Some (st_ms "b" 1 1 0)))]) in
  let on := pstep dep (700 * second, PSync true [st_ms "a" 3 3 3; st_ms "b" 1 1 1] (Some (st_ms "b" 1 1 1))) in
  let on2 := pstep on (720 * second, PSync true [st_ms "a" 2 2 2; st_ms "b" 2 2 2] (Some (st_ms "b" 2 2 2))) in
  map (fun x => option_map (fun c => (c_status c, c_trans c)) (getp x)) [dep; on; on2] =
  [Some ("False", 610 * second); Some ("True", 700 * second); Some ("True", 700 * second)].
Proof. vm_compute. reflexivity. Qed.

(** C14: what pausing and resuming do to the report. A reported stall stays. A pause is shown as
    DeploymentPaused, the end of a pause that is shown as DeploymentResumed, and otherwise the
    report stays. Conditions of other types stay in every case. *)
Theorem C14_paused : forall now paused l, (List.length (of_type "Progressing" l) <= 1)%nat ->
  let l' := checkPausedConditions now paused l in
  let was r := exists c, shows l "Progressing" c /\ c_reason c = r in
  let now_ r := exists c, shows l' "Progressing" c /\ c_reason c = r /\ c_status c = "Unknown" in
  others "Progressing" l' = others "Progressing" l /\
  (was "ProgressDeadlineExceeded" -> l' = l) /\
  (~ was "ProgressDeadlineExceeded" -> paused = true -> ~ was "DeploymentPaused" -> now_ "DeploymentPaused") /\
  (paused = true -> was "DeploymentPaused" -> l' = l) /\
  (paused = false -> was "DeploymentPaused" -> now_ "DeploymentResumed") /\
  (paused = false -> ~ was "DeploymentPaused" -> l' = l).
Proof.
  intros now paused l L l' was now_. unfold was, now_, l', shows, checkPausedConditions. rewrite <- !get_of_type.
  pose proof (gset_spec true l (NewMachineDeploymentCondition now "Progressing" "Unknown" "DeploymentPaused" "Deployment is paused") L) as ((x & X1 & X2 & X3) & X4).
  pose proof (gset_spec true l (NewMachineDeploymentCondition now "Progressing" "Unknown" "DeploymentResumed" "Deployment is resumed") L) as ((y & Y1 & Y2 & Y3) & Y4).
  cbn [gset c_type c_status c_reason NewMachineDeploymentCondition] in X1, X2, X3, X4, Y1, Y2, Y3, Y4.
  assert (GX : GetMachineDeploymentCondition (SetMachineDeploymentCondition l (NewMachineDeploymentCondition now "Progressing" "Unknown" "DeploymentPaused" "Deployment is paused")) "Progressing" = Some x) by (rewrite get_of_type, X1; reflexivity).
  assert (GY : GetMachineDeploymentCondition (SetMachineDeploymentCondition l (NewMachineDeploymentCondition now "Progressing" "Unknown" "DeploymentResumed" "Deployment is resumed")) "Progressing" = Some y) by (rewrite get_of_type, Y1; reflexivity).
  destruct (GetMachineDeploymentCondition l "Progressing") as [c|] eqn:C.
  - destruct (String.eqb_spec (c_reason c) "ProgressDeadlineExceeded") as [E|E].
    + split; [reflexivity|]. repeat split; intros; try reflexivity; exfalso.
      * apply H. exists c. auto.
      * destruct H0 as (c' & F & G). injection F as <-. congruence.
    + destruct (String.eqb_spec (c_reason c) "DeploymentPaused") as [F|F]; destruct paused; cbn [andb negb].
      * repeat split; intros; try reflexivity; try discriminate. exfalso. apply H1. exists c. auto.
      * split; [exact Y4|]. repeat split; intros; try discriminate.
        -- exfalso. destruct H as (c' & G & K). injection G as <-. congruence.
        -- exists y. auto.
        -- exfalso. apply H0. exists c. auto.
      * split; [exact X4|]. repeat split; intros; try discriminate.
        -- exfalso. destruct H as (c' & G & K). injection G as <-. congruence.
        -- exists x. auto.
        -- exfalso. destruct H0 as (c' & G & K). injection G as <-. congruence.
      * repeat split; intros; try reflexivity; try discriminate. exfalso. destruct H0 as (c' & G & K). injection G as <-. congruence.
  - destruct paused; cbn [andb negb].
    + split; [exact X4|]. repeat split; intros; try discriminate.
      * destruct H as (c' & G & _). discriminate.
      * exists x. auto.
      * destruct H0 as (c' & G & _). discriminate.
    + repeat split; intros; try reflexivity; try discriminate. destruct H0 as (c' & G & _). discriminate.
Qed.
Print Assumptions C14_paused.

Example C14_paused_case :
  let d := prun st_dep st_hist in
  let p := pstep d (20 * second, PCheckPaused true) in let r := pstep p (30 * second, PCheckPaused false) in
  map (fun x => option_map c_reason (getp x)) [d; p; r; pstep d (20 * second, PCheckPaused false)] =
  [Some "MachineSetUpdated"; Some "DeploymentPaused"; Some "DeploymentResumed"; Some "MachineSetUpdated"].
Proof. vm_compute. reflexivity. Qed.

(** C14: what the search for the set of the current template says. A set that is found is shown
    as FoundNewMachineSet if nothing about the progress is shown yet, and changes nothing
    otherwise; a set that was created is shown as progress, one that could not be created as a
    failure. Conditions of other types stay in every case. *)
Theorem C14_lookup : forall now l, (List.length (of_type "Progressing" l) <= 1)%nat ->
  let says l' s r := exists c, shows l' "Progressing" c /\ c_status c = s /\ c_reason c = r in
  (of_type "Progressing" l <> [] -> foundCondition now l = l) /\
  (of_type "Progressing" l = [] -> says (foundCondition now l) "True" "FoundNewMachineSet") /\
  says (createdCondition now l) "True" "NewMachineSetCreated" /\
  says (createFailedCondition now l) "False" "MachineSetCreateError" /\
  (forall f, In f [foundCondition; createdCondition; createFailedCondition] ->
     others "Progressing" (f now l) = others "Progressing" l).
Proof.
  intros now l L says. unfold says, shows.
  assert (G : forall s r m, (exists c, hd_error (of_type "Progressing" (SetMachineDeploymentCondition l (NewMachineDeploymentCondition now "Progressing" s r m))) = Some c /\ c_status c = s /\ c_reason c = r) /\
    others "Progressing" (SetMachineDeploymentCondition l (NewMachineDeploymentCondition now "Progressing" s r m)) = others "Progressing" l).
  { intros s r m. pose proof (gset_spec true l (NewMachineDeploymentCondition now "Progressing" s r m) L) as ((x & X1 & X2 & X3) & X4).
    cbn [gset c_type c_status c_reason NewMachineDeploymentCondition] in X1, X2, X3, X4.
    split; [|exact X4]. exists x. rewrite X1. auto. }
  assert (F : (of_type "Progressing" l <> [] -> foundCondition now l = l) /\
              (of_type "Progressing" l = [] -> foundCondition now l = SetMachineDeploymentCondition l (NewMachineDeploymentCondition now "Progressing" "True" "FoundNewMachineSet" "Found new machine set"))).
  { unfold foundCondition. rewrite get_of_type. destruct (of_type "Progressing" l); cbn; split; congruence. }
  destruct F as (F1 & F2). split; [exact F1|]. split; [intros E; rewrite (F2 E); apply G|]. split; [apply G|]. split; [apply G|].
  intros f [<-|[<-|[<-|[]]]]; [|apply G|apply G].
  destruct (of_type "Progressing" l) eqn:E; [rewrite (F2 eq_refl); apply G | rewrite F1 by discriminate; reflexivity].
Qed.
Print Assumptions C14_lookup.

Example C14_lookup_case :
  let d := pstep st_dep (5 * second, PCreated) in
  map (fun x => option_map (fun c => (c_status c, c_reason c)) (getp x))
    [d; pstep d (6 * second, PFound); pstep d (6 * second, PCreateFailed)] =
  [Some ("True", "NewMachineSetCreated"); Some ("True", "NewMachineSetCreated"); Some ("False", "MachineSetCreateError")].
Proof. vm_compute. reflexivity. Qed.

(** C14 fails as an equivalence over time: completeness stays reported when the
    machines are lost again, and during a rollback to an existing set; such a
    rollback without progress never exceeds its deadline either. *)
Theorem C14_complete_is_sticky_refuted : exists d now all n,
  shows_reason (pstep d (now, PSync true all n)) "NewMachineSetAvailable" /\
  ~ all_done d (sd_status (pstep d (now, PSync true all n))) /\
  sd_deadline d = Some 600 /\ 1000000 * second < now /\ ds_updated (sd_status (pstep d (now, PSync true all n))) = 0.
Proof.
  set (d0 := prun st_dep (st_hist ++ [(20 * second, PSync true [st_ms "a" 0 0 0; st_ms "b" 3 3 3] (Some (st_ms "b" 3 3 3)))])).
  exists d0, (2000000 * second), [st_ms "a" 0 0 0; st_ms "b" 3 3 3], (Some (st_ms "a" 0 0 0)).
  split; [|split; [|split; [|split]]]; vm_compute; try reflexivity.
  - eexists. split; [reflexivity|reflexivity].
  - intros (H & _). discriminate H.
Qed.
Print Assumptions C14_complete_is_sticky_refuted.

(** C14 fails if the creation of a MachineSet counts as progress: a second template
    change before any progress does not renew the recorded time, so its rollout is
    reported as stuck right after it started. *)
Theorem C14_second_creation_refuted : exists d all n t1 t2 s,
  sd_deadline d = Some s /\ t2 < t1 + 2 * second /\ 0 < s /\
  shows_reason (prun d [(1 * second, PCreated); (t1, PCreated); (t2, PSync true all n)]) "ProgressDeadlineExceeded".
Proof.
  exists st_dep, [st_ms "b" 1 0 0], (Some (st_ms "b" 1 0 0)), (605 * second), (606 * second), 600.
  vm_compute. repeat split. eexists. split; reflexivity.
Qed.
Print Assumptions C14_second_creation_refuted.

(** C49, MachineSet: the counts count what they say. *)
Theorem C49_machineset_counts : forall now sel spec old l err,
  let s := calculateMachineSetStatus now sel spec old l err in
  st_replicas s = Z.of_nat (List.length l) /\
  st_labeled s = countb (fun m => selectorMatches sel (sm_labels m)) l /\
  st_ready s = countb (fun m => String.eqb (sm_phase m) "Running") l /\
  st_avail s = countb (fun m => String.eqb (sm_phase m) "Available" || String.eqb (sm_phase m) "Running") l /\
  0 <= st_labeled s <= st_replicas s /\ 0 <= st_ready s /\ st_ready s <= st_avail s <= st_replicas s.
Proof. exact ms_counts. Qed.
Print Assumptions C49_machineset_counts.

(** C49, MachineDeployment: totals are sums over its sets. *)
Theorem C49_deployment_counts : forall now all n d, let s := calculateDeploymentStatus now all n d in
  ds_replicas s = sumZ (map (fun x => ms_status (ss_ms x)) all) /\
  ds_ready s = sumZ (map (fun x => ms_ready (ss_ms x)) all) /\
  ds_avail s = sumZ (map (fun x => ms_avail (ss_ms x)) all) /\
  ds_updated s = match n with Some x => ms_status (ss_ms x) | None => 0 end /\
  ds_unavail s = Z.max 0 (sumZ (map (fun x => ms_spec (ss_ms x)) all) - ds_avail s) /\
  ds_obs s = sd_gen d.
Proof. exact md_counts. Qed.
Print Assumptions C49_deployment_counts.

Definition st_m (name phase state : string) (owner : option string) := mkSM name [("a", "1"); ("b", "2")] phase ("id-" ++ name)%string "some operation" state owner.

Example C49_case :
  let s := calculateMachineSetStatus 0 [("a", "1")] 4 (mkSStatus 0 0 0 0 None [])
    [st_m "x" "Running" "Successful" (Some "s"); st_m "y" "Pending" "Failed" (Some "s"); st_m "z" "Available" "Processing" (Some "s")] None in
  (st_replicas s, st_labeled s, st_ready s, st_avail s, st_failed s) =
  (3, 3, 1, 2, Some [mkSum "y" "id-y" "some operation" "Failed" "s"]).
Proof. reflexivity. Qed.

(** C52: for machines that have a controller, the summaries are exactly those of
    the failed machines, in order. With no failed machine the list is cleared if
    the ready count equals the previously reported replicas.
    Partial: otherwise the list stays (C52_stale_summary_refuted), and without a controller the owner of another machine is shown (C52_owner_leak_refuted). *)
Theorem C52_failed_summaries_partial : forall now sel spec old l err,
  (forall m, In m l -> sm_state m = "Failed" -> sm_owner m <> None) ->
  let s := calculateMachineSetStatus now sel spec old l err in
  let want := map (fun m => summary_of m (match sm_owner m with Some o => o | None => "" end)) (filter (fun m => String.eqb (sm_state m) "Failed") l) in
  (want <> [] -> st_failed s = Some want) /\
  (want = [] -> st_ready s = st_replicas old -> st_failed s = None) /\
  (want = [] -> st_ready s <> st_replicas old -> st_failed s = st_failed old).
Proof. exact failed_lemma. Qed.
Print Assumptions C52_failed_summaries_partial.

Example C52_case :
  let s0 := mkSStatus 3 3 1 1 (Some [mkSum "y" "id-y" "some operation" "Failed" "s"]) [] in
  st_failed (calculateMachineSetStatus 0 [] 3 s0 [st_m "x" "Running" "Successful" (Some "s"); st_m "y" "Running" "Successful" (Some "s"); st_m "z" "Running" "Successful" (Some "s")] None) = None.
Proof. reflexivity. Qed.

(** C52 fails: with nothing failed any more, the old summary stays, naming a
    machine that no longer exists. *)
Theorem C52_stale_summary_refuted : exists old l x, 
  st_failed (calculateMachineSetStatus 0 [] 2 old l None) = Some [x] /\
  ~ In (su_name x) (map sm_name l) /\ (forall m, In m l -> sm_state m <> "Failed").
Proof.
  exists (mkSStatus 2 2 1 1 (Some [mkSum "gone" "" "d" "Failed" "s"]) []), [st_m "x" "Running" "Successful" (Some "s"); st_m "y" "Pending" "Processing" (Some "s")], (mkSum "gone" "" "d" "Failed" "s").
  split; [reflexivity|]. split; simpl; [intros [H|[H|[]]]; discriminate|]. intros m [<-|[<-|[]]]; discriminate.
Qed.
Print Assumptions C52_stale_summary_refuted.

(** C52 fails for a machine without controller: it gets the owner of the failed
    machine before it. *)
Theorem C52_owner_leak_refuted : exists l, 
  st_failed (calculateMachineSetStatus 0 [] 2 (mkSStatus 0 0 0 0 None []) l None) =
  Some [mkSum "x" "id-x" "some operation" "Failed" "other"; mkSum "y" "id-y" "some operation" "Failed" "other"] /\
  In (st_m "y" "Pending" "Failed" None) l.
Proof. exists [st_m "x" "Pending" "Failed" (Some "other"); st_m "y" "Pending" "Failed" None]. split; [reflexivity|right; left; reflexivity]. Qed.
Print Assumptions C52_owner_leak_refuted.

(** C53: when the status is not written, all counts, the generation and the
    conditions were up to date, and so were names and descriptions of the failed
    machines. *)
Theorem C53_published : forall o n, NoDup (map su_name (ds_failed n)) -> statusUpdateRequired o n = false ->
  ds_avail o = ds_avail n /\ ds_ready o = ds_ready n /\ ds_replicas o = ds_replicas n /\ ds_updated o = ds_updated n /\
  ds_unavail o = ds_unavail n /\ ds_obs o = ds_obs n /\ ds_conds o = ds_conds n /\
  (forall x, In x (map su_name (ds_failed o)) <-> In x (map su_name (ds_failed n))) /\
  (forall m, In m (ds_failed n) -> exists k, In k (ds_failed o) /\ su_name k = su_name m /\ su_desc k = su_desc m).
Proof. exact published_lemma. Qed.
Print Assumptions C53_published.

(** C53, the other way round: a status that is already stored is not written again. *)
Theorem C53_quiet : forall o n, NoDup (map su_name (ds_failed o)) -> NoDup (map su_name (ds_failed n)) ->
  ds_avail o = ds_avail n -> ds_ready o = ds_ready n -> ds_replicas o = ds_replicas n -> ds_updated o = ds_updated n ->
  ds_unavail o = ds_unavail n -> ds_obs o = ds_obs n -> ds_conds o = ds_conds n ->
  (forall x, In x (map su_name (ds_failed o)) <-> In x (map su_name (ds_failed n))) ->
  (forall m, In m (ds_failed n) -> exists k, In k (ds_failed o) /\ su_name k = su_name m /\ su_desc k = su_desc m) ->
  statusUpdateRequired o n = false.
Proof.
  intros o n NO NN A R P U V O C N D. unfold statusUpdateRequired. rewrite A, R, P, U, V, O, C.
  assert (CR : forall l, conds_eqb l l = true).
  { induction l as [|c l IH]; [reflexivity|]. cbn. rewrite IH. unfold cond_eqb. rewrite ?String.eqb_refl, ?Z.eqb_refl. reflexivity. }
  assert (L : List.length (ds_failed o) = List.length (ds_failed n)).
  { rewrite <- (map_length su_name (ds_failed o)), <- (map_length su_name (ds_failed n)). apply Permutation_length. apply NoDup_Permutation; assumption. }
  rewrite L, CR, Nat.eqb_refl, !Z.eqb_refl. cbn [andb].
  match goal with |- ?b = false => destruct b eqn:E end; [|reflexivity].
  apply existsb_exists in E. destruct E as (m & I & F). apply negb_true_iff in F. destruct (D m I) as (k & K & E1 & E2).
  rewrite <- not_true_iff_false in F. destruct F. apply existsb_exists. exists k. split; [exact K|]. rewrite E1, E2, !String.eqb_refl. reflexivity.
Qed.
Print Assumptions C53_quiet.

Example C53_case :
  let s f := mkDStatus 1 3 1 2 2 1 [] f in let a d := mkSum "a" "" d "Failed" "s" in let b := mkSum "b" "" "e" "Failed" "s" in
  statusUpdateRequired (s [a "d"; b]) (s [b; a "d"]) = false /\ statusUpdateRequired (s [a "d"; b]) (s [b; a "x"]) = true /\
  statusUpdateRequired (s [a "d"; b]) (s [b]) = true.
Proof. repeat split. Qed.

(** C54: the Available condition says whether at least replicas minus allowed
    unavailable machines are reported available. *)
Theorem C54_available_condition : forall now all n d, exists c,
  shows (ds_conds (calculateDeploymentStatus now all n d)) "Available" c /\
  (c_status c = "True" <-> md_replicas (sd_md d) - MaxUnavailable (sd_md d) <= sumZ (map (fun x => ms_avail (ss_ms x)) all)) /\
  (c_status c = "True" /\ c_reason c = "MinimumReplicasAvailable" \/
   c_status c = "False" /\ c_reason c = "MinimumReplicasUnavailable").
Proof.
  intros. destruct (available_condition now all n d) as (c & H1 & H2 & H3). exists c. unfold shows. rewrite <- get_of_type.
  destruct (md_counts now all n d) as (_ & _ & E & _). rewrite <- E. auto.
Qed.
Print Assumptions C54_available_condition.

Example C54_case :
  map c_status (ds_conds (calculateDeploymentStatus 0 [st_ms "a" 3 3 3] None st_dep)) = ["True"] /\
  map c_status (ds_conds (calculateDeploymentStatus 0 [st_ms "a" 3 3 2] None st_dep)) = ["False"].
Proof. split; reflexivity. Qed.

(** C54, in terms of the configuration: with Recreate every machine must be there, in a
    rolling update all but those the budget gives up. *)
Theorem C54_available_means : forall now all n d k, allows_unavailable (sd_md d) k -> exists c,
  shows (ds_conds (calculateDeploymentStatus now all n d)) "Available" c /\
  (c_status c = "True" <-> md_replicas (sd_md d) - k <= sumZ (map (fun x => ms_avail (ss_ms x)) all)) /\
  (c_status c = "True" /\ c_reason c = "MinimumReplicasAvailable" \/
   c_status c = "False" /\ c_reason c = "MinimumReplicasUnavailable").
Proof.
  intros now all n d k A. destruct (C54_available_condition now all n d) as (c & H1 & H2 & H3). exists c.
  assert (E : MaxUnavailable (sd_md d) = k).
  { unfold allows_unavailable in A. destruct (md_strategy (sd_md d)) as [|s u|s u|s] eqn:E; try (unfold MaxUnavailable; rewrite E; symmetry; exact A).
    destruct A as (A1 & A2 & A3 & surge & A4). symmetry. exact (proj2 (is_budget_fun _ _ _ _ _ E A1 A2 A3 A4)). }
  rewrite E in H2. auto.
Qed.
Print Assumptions C54_available_means.

Example C54_available_means_case :
  let d := mkSDep (mkMD 3 Recreate None 3) (sd_gen st_dep) (sd_deadline st_dep) (sd_status st_dep) in
  allows_unavailable (sd_md d) 0 /\
  map c_status (ds_conds (calculateDeploymentStatus 0 [st_ms "a" 3 3 3] None d)) = ["True"] /\
  map c_status (ds_conds (calculateDeploymentStatus 0 [st_ms "a" 3 3 2] None d)) = ["False"].
Proof. repeat split. Qed.

(** C70: a pass without error leaves no ReplicaFailure condition on the MachineSet; a
    pass with an error leaves one, and one that appears for the first time carries
    the error and says whether machines were missing or too many. *)
Theorem C70_failure_condition_partial : forall now sel spec old l err,
  let n := calculateMachineSetStatus now sel spec old l err in let k := Z.of_nat (List.length l) in
  (err = None -> of_type "ReplicaFailure" (st_conds n) = []) /\
  (err <> None -> of_type "ReplicaFailure" (st_conds n) <> []) /\
  others "ReplicaFailure" (st_conds n) = others "ReplicaFailure" (st_conds old) /\
  (forall msg, err = Some msg -> of_type "ReplicaFailure" (st_conds old) = [] ->
     exists c, of_type "ReplicaFailure" (st_conds n) = [c] /\ c_status c = "True" /\ c_msg c = msg /\
       c_trans c = stored now /\ (k < spec -> c_reason c = "FailedCreate") /\ (spec < k -> c_reason c = "FailedDelete")).
Proof. exact failure_condition. Qed.
Print Assumptions C70_failure_condition_partial.

Example C70_case :
  let old := mkSStatus 0 0 0 0 None [mkCond "Other" "True" 0 0 "r" "m"] in
  let s1 := calculateMachineSetStatus 5000000000 [] 2 old [] (Some "quota") in
  st_conds s1 = [mkCond "Other" "True" 0 0 "r" "m"; mkCond "ReplicaFailure" "True" 0 5000000000 "FailedCreate" "quota"] /\
  st_conds (calculateMachineSetStatus 6000000000 [] 2 s1 [] None) = [mkCond "Other" "True" 0 0 "r" "m"].
Proof. split; reflexivity. Qed.

(** Missing for the full claim: a later, different failure does not replace the
    condition, so it goes on reporting a failed creation while deletions fail; and
    when machines are neither missing nor too many, the reason is empty. *)
Theorem C70_failure_condition_refuted :
  (exists now1 now2 sel spec1 spec2 old l1 l2, let s1 := calculateMachineSetStatus now1 sel spec1 old l1 (Some "create failed") in
     let s2 := calculateMachineSetStatus now2 sel spec2 s1 l2 (Some "delete failed") in
     st_conds old = [] /\ spec2 < Z.of_nat (List.length l2) /\
     exists c, st_conds s2 = [c] /\ c_reason c = "FailedCreate" /\ c_msg c = "create failed") /\
  (exists now sel spec old l, let s := calculateMachineSetStatus now sel spec old l (Some "delete failed") in
     st_conds old = [] /\ exists c, st_conds s = [c] /\ c_reason c = "").
Proof.
  pose (m := mkSM "m" [] "Running" "" "" "" None). split.
  - exists 0, 0, [], 1, 0, (mkSStatus 0 0 0 0 None []), [], [m]. cbv zeta. split; [reflexivity|]. split; [reflexivity|].
    eexists. vm_compute. repeat split.
  - exists 0, [], 1, (mkSStatus 0 0 0 0 None []), [m]. split; [reflexivity|]. eexists. vm_compute. repeat split.
Qed.
Print Assumptions C70_failure_condition_refuted.

(** C71: the MachineDeployment shows a ReplicaFailure condition exactly while one of
    its MachineSets has one; status and reason are those of a MachineSet, and of
    the new MachineSet if that one fails.
    Partial: not the message (C71_failure_message_refuted). *)
Theorem C71_failures_surface_partial : forall now all n d,
  let own s := of_type "ReplicaFailure" (st_conds (ss_st s)) in
  let r := ds_conds (rolloutStatus now all n d) in
  (of_type "ReplicaFailure" r = [] <-> forall s, In s all \/ n = Some s -> own s = []) /\
  (forall c, shows r "ReplicaFailure" c -> exists s x, (In s all \/ n = Some s) /\ In x (own s) /\
     c_status c = c_status x /\ c_reason c = c_reason x /\
     (forall s', n = Some s' -> own s' <> [] -> s = s' /\ hd_error (own s') = Some x)).
Proof. exact failure_surfaces. Qed.
Print Assumptions C71_failures_surface_partial.

Example C71_case :
  let bad n r := mkSSet (ss_ms (st_ms n 1 1 1)) (mkSStatus 1 1 1 1 None [mkCond "ReplicaFailure" "True" 0 0 r "quota"]) in
  map c_reason (of_type "ReplicaFailure" (ds_conds (rolloutStatus 0 [bad "a" "FailedCreate"; st_ms "b" 1 1 1] (Some (st_ms "b" 1 1 1)) st_dep))) = ["FailedCreate"] /\
  map c_reason (of_type "ReplicaFailure" (ds_conds (rolloutStatus 0 [bad "a" "FailedCreate"; bad "b" "FailedDelete"] (Some (bad "b" "FailedDelete")) st_dep))) = ["FailedDelete"] /\
  of_type "ReplicaFailure" (ds_conds (rolloutStatus 0 [st_ms "b" 1 1 1] None st_dep)) = [].
Proof. repeat split. Qed.

(** Missing for the full claim: the message. It is not replaced while status and
    reason stay, so it may be that of a MachineSet that no longer fails. *)
Theorem C71_failure_message_refuted : exists now all n d c s x,
  shows (ds_conds (rolloutStatus now all (Some n) d)) "ReplicaFailure" c /\
  all = [s; n] /\ of_type "ReplicaFailure" (st_conds (ss_st s)) = [] /\
  st_conds (ss_st n) = [x] /\ c_msg x = "quota of zone b" /\ c_msg c = "quota of zone a".
Proof.
  pose (x := mkCond "ReplicaFailure" "True" 0 0 "FailedCreate" "quota of zone b").
  pose (y := mkCond "ReplicaFailure" "True" 0 0 "FailedCreate" "quota of zone a").
  pose (s := st_ms "a" 1 1 1). pose (n := mkSSet (ss_ms (st_ms "b" 1 1 1)) (mkSStatus 1 1 1 1 None [x])).
  exists 0, [s; n], n, (mkSDep (sd_md st_dep) (sd_gen st_dep) None
    (let k := sd_status st_dep in mkDStatus (ds_obs k) (ds_replicas k) (ds_updated k) (ds_ready k) (ds_avail k) (ds_unavail k) [y] [])), y, s, x.
  vm_compute. repeat split.
Qed.
Print Assumptions C71_failure_message_refuted.
