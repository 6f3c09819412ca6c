(** C31. The API-server safety check. *)
Require Import Coq.ZArith.ZArith Coq.Lists.List Coq.Strings.String Coq.Bool.Bool Coq.micromega.Lia.
From Verif Require Import QueueModel SafeModel SafeSpec SafeProofs.
Import ListNotations.
Open Scope string_scope.
Open Scope list_scope.
Open Scope Z_scope.

(** C31, the freeze: the controller freezes only in a check that finds a server unreachable,
    and only if an earlier check, more than the configured time before, found the same; the
    controller was not frozen then either. Missing: that no check in between found both servers up. *)
Theorem C31_freezes_partial : forall timeout now store ops op,
  let w := srun timeout (sinit now store) ops in
  s_frozen w = false -> s_frozen (sstep timeout w op) = true ->
  down op /\
  exists ops1 op1 ops2, ops ++ [op] = ops1 ++ op1 :: ops2 /\ down op1 /\
    s_frozen (srun timeout (sinit now store) ops1) = false /\
    timeout < s_now w - s_now (srun timeout (sinit now store) ops1).
Proof.
  intros timeout now store ops op w F F'. destruct (freezes timeout w op F F') as (D & t & E & L & N). split; [exact D|].
  pose proof (witnessed_run timeout (sinit now store) eq_refl (ops ++ [op])) as W. unfold witnessed in W.
  rewrite srun_app in W. change (srun timeout (srun timeout (sinit now store) ops) [op]) with (sstep timeout w op) in W.
  destruct (W t E) as (_ & o1 & o & o2 & EQ & D1 & N1 & F1). exists o1, o, o2. split; [exact EQ|]. split; [exact D1|]. split; [exact F1|]. rewrite N1. exact L.
Qed.
Print Assumptions C31_freezes_partial.

(** C31, the freeze does come: if a check finds a server unreachable, none after it finds both up,
    and another one finds the same more than the configured time after the first, the controller is
    frozen then, whatever happened before and whatever the workers did meanwhile. *)
Theorem C31_does_freeze : forall timeout now store ops0 op1 ops op2,
  let w := srun timeout (sinit now store) ops0 in
  s_scheduled w = true -> down op1 -> Forall (fun o => ~ up o) ops -> down op2 ->
  timeout < s_now (srun timeout w (op1 :: ops)) - s_now w ->
  s_frozen (srun timeout w (op1 :: ops ++ [op2])) = true.
Proof. exact does_freeze. Qed.
Print Assumptions C31_does_freeze.

Example C31_does_freeze_case :
  let w := srun 30 (sinit 0 []) [STick 4] in
  let op := SProbe Broken Fine true (fun _ => true) (fun _ => true) in
  s_scheduled w = true /\ down op /\ Forall (fun o => ~ up o) [STick 20; op; STick 11] /\ 30 < s_now (srun 30 w [op; STick 20; op; STick 11]) - s_now w /\
  s_frozen (srun 30 w [op; STick 20; op; STick 11]) = false.
Proof.
  cbv zeta. split; [reflexivity|]. split; [left; reflexivity|]. split; [|split; reflexivity].
  repeat (apply Forall_cons; [cbn; intros X; try destruct X; congruence|]). apply Forall_nil.
Qed.

(** C31, while frozen and as long as the servers are unreachable: a machine that is not being
    deleted and has no reconcile under way keeps its state, whatever the workers do.
    Partial: reconciles under way still write (C31_in_flight_refuted). *)
Theorem C31_frozen_no_change_partial : forall timeout w n x ops,
  s_frozen w = true -> find1 n (s_store w) = Some x -> find1 n (s_cache w) = Some x -> x_deleting x = false ->
  ~ In n (s_running w) -> Forall (outage n) ops ->
  let w' := srun timeout w ops in
  s_frozen w' = true /\ find1 n (s_store w') = Some x /\ ~ In n (s_running w').
Proof.
  intros timeout w n x ops F S0 C ND R O w'. destruct (quiet_run timeout n x ND ops w (Build_Quiet _ _ _ F S0 C R) O) as [A B _ D]. auto.
Qed.
Print Assumptions C31_frozen_no_change_partial.

(** C31, the end of the freeze: when both servers respond and all calls go through, the check
    unfreezes, forgets the outage, gives every machine that is Unknown in the cache a fresh
    health timeout, leaves the others alone, puts every machine into the queue and is
    scheduled again. *)
Theorem C31_unfreezes : forall timeout w control target get upd,
  s_frozen w = true -> s_scheduled w = true -> control <> Broken -> target <> Broken ->
  (forall x, In x (s_cache w) -> x_phase x = "Unknown" ->
     get (x_name x) = true /\ upd (x_name x) = true /\ find1 (x_name x) (s_store w) <> None) ->
  let w' := sstep timeout w (SProbe control target true get upd) in
  s_frozen w' = false /\ s_down w' = None /\ s_scheduled w' = true /\ s_later w' = s_later w ++ map x_name (s_cache w) /\
  (forall n x y, In x (s_cache w) -> x_name x = n -> x_phase x = "Unknown" -> find1 n (s_store w) = Some y ->
     exists z, find1 n (s_store w') = Some z /\ x_phase z = "Running" /\ x_since z = s_now w /\ x_timeout z = false /\
       x_state z = "Successful" /\ x_type z = "HealthCheck" /\ x_optime z = s_now w /\
       x_spec z = x_spec y /\ x_deleting z = x_deleting y) /\
  (forall n, (forall x, In x (s_cache w) -> x_name x = n -> x_phase x <> "Unknown") -> find1 n (s_store w') = find1 n (s_store w)).
Proof.
  intros timeout w control target get upd F S0 C T H. cbv zeta. cbn [sstep]. rewrite S0.
  assert (UP : isAPIServerUp control target = true) by (apply up_true; auto).
  destruct (resetAll_ok (s_now w) get upd (s_cache w) (s_store w) (s_later w) H) as (st & E & R1 & R2).
  unfold probe, reconcileAPIServer. rewrite F, UP, E. unfold afterRun.
  cbn [s_frozen s_down s_scheduled s_later s_store s_now negb orb].
  split; [reflexivity|]. split; [reflexivity|]. split; [reflexivity|]. split; [reflexivity|]. split.
  - intros n x y I0 NX U FY. exists (reset (s_now w) y).
    split; [apply R1; [exists x; auto | exact FY]|]. repeat (split; [reflexivity|]). reflexivity.
  - intros n NN. apply R2. intros (x & I0 & U & NX). apply (NN x I0 NX U).
Qed.
Print Assumptions C31_unfreezes.

Definition mk (n p : string) (t : Z) : SM := mkSM n false p false t "" "" "" t "spec".
Definition ok : string -> bool := fun _ => true.
(** An outage of an hour with a timeout of 30 s: freeze, nothing changes, unfreeze. *)
Definition hourly : list SOp :=
  [SProbe Fine NotFound true ok ok; SProbe NotFound Broken true ok ok; STick 6; SProbe Broken Fine true ok ok; STick 31; SProbe Broken Broken true ok ok].
Definition store0 : list SM := [mk "a" "Running" 0; mk "b" "Unknown" 0].
(** C31, the check goes on: a check that changes nothing because it is not its turn to act (both
    servers up and not frozen, or a server down) comes again without any failure counted against
    it; a check that cannot read the machines leaves the freeze and every machine as they are and
    comes again unless it is the sixteenth failure in a row. *)
Theorem C31_goes_on : forall timeout w control target listOk get upd, s_scheduled w = true ->
  let w' := sstep timeout w (SProbe control target listOk get upd) in
  (down (SProbe control target listOk get upd) \/ s_frozen w = false ->
     s_scheduled w' = true /\ s_requeues w' = 0%nat /\ s_store w' = s_store w /\ s_later w' = s_later w) /\
  (up (SProbe control target listOk get upd) -> s_frozen w = true -> listOk = false ->
     s_frozen w' = true /\ s_store w' = s_store w /\ s_later w' = s_later w /\ s_down w' = s_down w /\
     (s_scheduled w' = true <-> (s_requeues w < 15)%nat)) /\
  (up (SProbe control target listOk get upd) -> s_frozen w = false -> s_frozen w' = false).
Proof.
  intros timeout w control target listOk get upd S w'. unfold w'. cbn [sstep]. rewrite S. unfold probe, reconcileAPIServer.
  assert (U : (isAPIServerUp control target = true /\ control <> Broken /\ target <> Broken) \/
              (isAPIServerUp control target = false /\ (control = Broken \/ target = Broken)))
    by (destruct control, target; cbn; auto; left; repeat split; discriminate).
  cbn [down up]. destruct U as [(-> & U1 & U2)|(-> & U)].
  - destruct (s_frozen w) eqn:F.
    + split; [intros [[?|?]|?]; [contradiction|contradiction|discriminate]|]. split; [|discriminate].
      intros _ _ ->. unfold afterRun, DefaultMaxRetries. destruct (Nat.ltb_spec (s_requeues w) 15); cbn; rewrite F.
      * repeat split; auto.
      * repeat split; auto; [discriminate|lia].
    + cbn. rewrite F. repeat split; discriminate.
  - destruct (s_frozen w); cbn.
    + repeat split; intros; exfalso; destruct U; intuition.
    + repeat split; intros; try discriminate. exfalso; destruct U; intuition.
Qed.
Print Assumptions C31_goes_on.

Example C31_case :
  let w := srun 30 (sinit 0 store0) hourly in
  s_frozen w = true /\ s_frozen (srun 30 (sinit 0 store0) (removelast hourly)) = false /\
  Forall (outage "b") [SBegin "b"; SWrite (mk "b" "Failed" 40); STick 3600; SProbe Broken Fine true ok ok] /\
  let w1 := srun 30 w [SBegin "b"; SWrite (mk "b" "Failed" 40); STick 3600; SProbe Broken Fine true ok ok] in
  s_store w1 = store0 /\
  let w2 := sstep 30 w1 (SProbe Fine NotFound true ok ok) in
  s_frozen w2 = false /\ find1 "b" (s_store w2) = Some (reset 3637 (mk "b" "Unknown" 0)) /\ find1 "a" (s_store w2) = Some (mk "a" "Running" 0).
Proof.
  split; [reflexivity|]. split; [reflexivity|]. split.
  - repeat (apply Forall_cons; [cbn; auto; discriminate|]). apply Forall_nil.
  - repeat (split; [reflexivity|]). reflexivity.
Qed.

Example C31_goes_on_case :
  let w := srun 30 (sinit 0 store0) hourly in
  s_frozen w = true /\ s_scheduled w = true /\
  let w' := sstep 30 w (SProbe Fine Fine false ok ok) in
  s_frozen w' = true /\ s_scheduled w' = true /\ s_requeues w' = 1%nat /\
  s_requeues (sstep 30 w' (SProbe Broken Fine true ok ok)) = 0%nat.
Proof. repeat (split; [reflexivity|]). reflexivity. Qed.

(** C31 is false: the time of the first failed check is kept when the servers are up again
    before the freeze (machine_safety.go 106-127), so one failed check much later freezes at
    once. *)
Theorem C31_not_continuous_refuted : exists ops op,
  let w := srun 30 (sinit 0 store0) ops in
  s_frozen w = false /\ up (last ops op) /\ s_frozen (sstep 30 w op) = true /\
  s_now w = s_now (srun 30 (sinit 0 store0) (removelast ops)).
Proof.
  exists [SProbe Broken Fine true ok ok; STick 5; SProbe Fine Fine true ok ok; STick 1000000; SProbe Fine Fine true ok ok],
         (SProbe Broken Fine true ok ok).
  split; [reflexivity|]. split; [split; discriminate|]. split; reflexivity.
Qed.
Print Assumptions C31_not_continuous_refuted.

(** C31 is false: a reconcile that has started before the freeze writes while frozen. *)
Theorem C31_in_flight_refuted : exists ops x,
  let w := srun 30 (sinit 0 store0) ops in
  s_frozen w = true /\ find1 "b" (s_store w) = Some (mk "b" "Unknown" 0) /\
  find1 "b" (s_store (sstep 30 w (SWrite x))) = Some (mk "b" "Failed" 40).
Proof. exists (SBegin "b" :: hourly), (mk "b" "Failed" 40). split; [reflexivity|]. split; reflexivity. Qed.
Print Assumptions C31_in_flight_refuted.

(** The check resets what the cache shows as Unknown, whatever the API server returns
    (machine_safety.go 71-89): a machine that is being deleted meanwhile goes back from
    Terminating to Running and loses the record of how far its deletion is. *)
Theorem C31_resets_terminating_refuted : exists w,
  let x := mkSM "b" true "Terminating" false 10 "Drain successful. Initiate VM deletion" "Processing" "Delete" 10 "spec" in
  s_frozen w = true /\ s_scheduled w = true /\ find1 "b" (s_store w) = Some x /\
  exists z, find1 "b" (s_store (sstep 30 w (SProbe Fine Fine true ok ok))) = Some z /\ x_deleting z = true /\
    x_phase z = "Running" /\ x_type z = "HealthCheck".
Proof.
  exists (srun 30 (sinit 0 store0) (hourly ++ [SEnv (mkSM "b" true "Terminating" false 10 "Drain successful. Initiate VM deletion" "Processing" "Delete" 10 "spec")])).
  split; [reflexivity|]. split; [reflexivity|]. split; [reflexivity|].
  eexists. split; [reflexivity|]. split; [reflexivity|]. split; reflexivity.
Qed.
Print Assumptions C31_resets_terminating_refuted.

(** C31 is false: if the status of one Unknown machine cannot be written sixteen times in a
    row, the worker drops the check, nothing schedules it again, and the controller stays
    frozen for ever although both servers respond. *)
Theorem C31_frozen_for_ever_refuted : exists ops,
  (forall op, In op (skipn 6 ops) -> up op) /\
  (forall more, s_frozen (srun 30 (sinit 0 store0) (ops ++ more)) = true).
Proof.
  exists (hourly ++ repeat (SProbe Fine Fine true ok (fun n => negb (String.eqb n "b"))) 16).
  split.
  - intros op I0. change (skipn 6 (hourly ++ repeat (SProbe Fine Fine true ok (fun n => negb (String.eqb n "b"))) 16))
      with (repeat (SProbe Fine Fine true ok (fun n => negb (String.eqb n "b"))) 16) in I0.
    apply repeat_spec in I0. subst op. split; discriminate.
  - intros more. rewrite srun_app. apply stuck; vm_compute; reflexivity.
Qed.
Print Assumptions C31_frozen_for_ever_refuted.
