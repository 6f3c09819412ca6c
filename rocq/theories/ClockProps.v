(** How long a drain takes (C121). *)
Require Import Coq.Lists.List Coq.Arith.PeanoNat Coq.Bool.Bool Coq.ZArith.ZArith.
Require Import Coq.micromega.Lia.
From Verif Require Import DrainModel ClockModel ClockSpec ClockProofs.
Import ListNotations.
Local Open Scope nat_scope.

(** C121. Whatever the API server, the pods, their budgets and their volumes do, a drain whose
    preparation is done before its time-out has returned less than 25 seconds after the time-out. *)
Theorem C121_ends : forall l support a b prep t, prep < l_timeout l ->
  runDrain l support a b prep t < t + l_timeout l + 25.
Proof. exact runDrain_ends. Qed.
Print Assumptions C121_ends.

(** A pod with nothing special about it. *)
Definition plain : TPod := mkTPod (Some 30) (fun _ => AOk) (fun _ => false) (fun _ => SThere) false
  (fun _ => NFree) (fun _ => None).
(** A pod that a budget protects for ever. *)
Definition guarded : TPod := mkTPod (Some 30) (fun _ => ATooMany) (fun _ => false) (fun _ => SThere) false
  (fun _ => NFree) (fun _ => None).
(** A pod that is evicted at once and whose volume stays attached. *)
Definition stuck : TPod := mkTPod (Some 30) (fun _ => AOk) (fun _ => false) (fun _ => SThere) true
  (fun _ => NHolds) (fun _ => None).
(** A pod with a volume that a budget protects for ever. *)
Definition guardedVol : TPod := mkTPod (Some 30) (fun _ => ATooMany) (fun _ => false) (fun _ => SThere) true
  (fun _ => NHolds) (fun _ => None).

Example C121_ends_case : runDrain (mkLimits 100 120 90 5 false) true [plain; guarded] [guardedVol; stuck] 4 1000 = 1124
  /\ runDrain (mkLimits 100 120 90 5 false) true [plain] [] 4 1000 = 1064.
Proof. vm_compute. split; reflexivity. Qed.

(** C121, refuted in the words of the flag: a drain does outlast its time-out, by the full 24
    seconds. A pod without volumes alone makes it outlast by 19. *)
Theorem C121_outlasts_refuted : exists l support a b prep t, prep < l_timeout l /\
  runDrain l support a b prep t = t + l_timeout l + 24.
Proof.
  exists (mkLimits 100 120 90 5 false), true, [], [guardedVol; stuck], 4, 1000. split; [vm_compute; lia|].
  vm_compute. reflexivity.
Qed.
Print Assumptions C121_outlasts_refuted.

(** C121. A pod without volumes is not waited for longer than the retries, its own grace period (no
    more of it than the drain time-out) and half a minute; nothing of it goes on later than 20
    seconds after the deadline. *)
Theorem C121_pod : forall l dl p left t,
  d_end (alone l dl p left t) <= t + left * 20 + Nat.min (gracePeriod p) (l_timeout l) + 30 /\
  (t < dl -> d_end (alone l dl p left t) < dl + 20).
Proof.
  intros l dl p left t. pose proof (alone_end l dl p left t) as A.
  unfold patience, bufferPeriod, retryInterval in *. lia.
Qed.
Print Assumptions C121_pod.

Example C121_pod_case : d_end (alone (mkLimits 100 120 90 5 false) 1000 plain 5 0) = 60 /\
  d_end (alone (mkLimits 100 120 90 5 false) 1000 guarded 5 0) = 100 /\
  d_end (alone (mkLimits 100 120 90 5 false) 90 guarded 5 0) = 100.
Proof. vm_compute. repeat split. Qed.

(** C121. A pod that leaves within its grace period and half a minute, and before the deadline, is
    not counted as a failure; the end is noticed within five seconds. *)
Theorem C121_leaves_in_time : forall l dl p t g,
  l_force l = false -> t < dl -> t_ans p t = AOk ->
  (forall u, u < g -> t_seen p u = SThere) -> (forall u, g <= u -> t_seen p u = SGone) ->
  t <= g -> g <= t + Nat.min (gracePeriod p) (l_timeout l) + 30 -> g + 5 <= dl ->
  forall left, d_ok (alone l dl p left t) = true /\
  g <= d_end (alone l dl p left t) /\ d_end (alone l dl p left t) < g + 5.
Proof.
  intros l dl p t g F T A S1 S2 L G D left.
  pose proof (gone_leaves l dl p g t S1 S2) as W. unfold patience, bufferPeriod, pollInterval in W.
  assert (C : call dl p t = AOk) by (unfold call; destruct (Nat.leb_spec dl t); [lia|exact A]).
  assert (E : alone l dl p left t = mkAlone [mkCall t (0 <? left) AOk] (fst (waitGone l dl p t)) (snd (waitGone l dl p t))).
  { destruct left; cbn [alone]; rewrite C, F; reflexivity. }
  rewrite E. cbn [d_ok d_end]. destruct W as (W1 & W2 & W3); try lia. repeat split; try assumption; lia.
Qed.
Print Assumptions C121_leaves_in_time.

(** A pod that is gone from second 47 on. *)
Definition leaver : TPod := mkTPod (Some 30) (fun _ => AOk) (fun _ => false)
  (fun u => if u <? 47 then SThere else SGone) false (fun _ => NFree) (fun _ => None).

Example C121_leaves_in_time_case :
  alone (mkLimits 100 120 90 5 false) 100 leaver 5 0 = mkAlone [mkCall 0 true AOk] 50 true.
Proof. vm_compute. reflexivity. Qed.

(** C121. In a drain that is not forced, a pod without volumes is only counted as done when it was
    seen to be gone, at the time of the end and before the deadline. *)
Theorem C121_gone : forall l dl p left t, l_force l = false -> d_ok (alone l dl p left t) = true ->
  d_end (alone l dl p left t) < dl /\
  (t_seen p (d_end (alone l dl p left t)) = SGone \/ t_ans p (d_end (alone l dl p left t)) = ANotFound).
Proof.
  intros l dl p left t F H. destruct (alone_ok l dl p left t F H) as [G|(ev & G)].
  - unfold look in G. destruct (Nat.leb_spec dl (d_end (alone l dl p left t))); [discriminate|]. auto.
  - apply alone_calls in G. destruct G as (_ & _ & G). cbn [c_at c_ans] in G. unfold call in G.
    destruct (Nat.leb_spec dl (d_end (alone l dl p left t))); [discriminate|]. auto.
Qed.
Print Assumptions C121_gone.

Example C121_gone_case : d_ok (alone (mkLimits 100 120 90 5 false) 1000 plain 5 0) = false /\
  d_ok (alone (mkLimits 100 120 90 5 false) 100 leaver 5 0) = true /\
  d_ok (alone (mkLimits 100 120 90 5 false) 49 leaver 5 0) = false.
Proof. vm_compute. repeat split. Qed.

(** C121. After an accepted call for a pod with volumes, the wait for the detachment ends within the
    grace period, the detach time-out and five seconds, the wait for the attachment elsewhere within
    the reattach time-out; neither begins a second round after the deadline. *)
Theorem C121_volumes : forall l dl p t,
  let u := fst (waitDetach l dl p t) in
  u < t + gracePeriod p + l_detach l + 5 /\ (t < dl -> u < dl + 5) /\
  waitReattach l dl p u <= u + l_reattach l /\ (u < dl -> waitReattach l dl p u <= dl) /\
  (dl <= u -> waitReattach l dl p u = u).
Proof.
  intros l dl p t u. subst u. pose proof (detach_end l dl p t) as D. cbv zeta in D.
  pose proof (reattach_end l dl p (fst (waitDetach l dl p t))). unfold detachInterval in *. lia.
Qed.
Print Assumptions C121_volumes.

Example C121_volumes_case : waitDetach (mkLimits 1000 120 90 5 false) 1000 stuck 0 = (150, DTimeout) /\
  waitReattach (mkLimits 1000 120 90 5 false) 1000 stuck 7 = 97.
Proof. vm_compute. split; reflexivity. Qed.

(** C121. No pod with volumes is waited for twice: whatever the deadline, all of them together take no
    longer than the sum of their own limits and the pauses between the rounds. *)
Theorem C121_sum : forall l dl attempt pods t,
  s_end (together l dl attempt pods t) <= t + longest l pods + l_retries l * 20.
Proof. exact together_cost. Qed.
Print Assumptions C121_sum.

Example C121_sum_case : longest (mkLimits 1000 120 90 5 false) [stuck; guardedVol] = 488 /\
  s_end (together (mkLimits 1000 120 90 5 false) 1000 true [stuck; guardedVol] 0) = 250.
Proof. vm_compute. split; reflexivity. Qed.

(** C121. A forced drain waits for nothing at all. *)
Theorem C121_forced_at_once : forall l support a b prep t, l_force l = true ->
  runDrain l support a b prep t = t + prep.
Proof. exact runDrain_forced. Qed.
Print Assumptions C121_forced_at_once.

Example C121_forced_case : runDrain (mkLimits 60 120 90 1 true) true [plain; guarded] [stuck] 3 500 = 503.
Proof. vm_compute. reflexivity. Qed.

(** C121. If the deadline comes after the retries and no earlier, a pod that was protected all the
    time is then deleted. *)
Theorem C121_deleted_after_retries : forall l dl p p' left t,
  protected p -> t + left * 20 < dl ->
  t_ans p' (t + left * 20) = AOk -> (forall u, u <> t + left * 20 -> t_ans p' u = t_ans p u) ->
  (forall u, t_broken p' u = t_broken p u) ->
  In (mkCall (t + left * 20) false AOk) (d_calls (alone l dl p' left t)).
Proof. intros. eapply alone_protected; eassumption. Qed.
Print Assumptions C121_deleted_after_retries.

Example C121_deleted_after_retries_case : protected guarded /\
  d_calls (alone (mkLimits 100 120 90 2 false) 100
    (mkTPod (Some 30) (fun u => if u =? 40 then AOk else ATooMany) (fun _ => false) (fun _ => SThere) false
       (fun _ => NFree) (fun _ => None)) 2 0)
  = [mkCall 0 true ATooMany; mkCall 20 true ATooMany; mkCall 40 false AOk].
Proof. split; [intros t; split; reflexivity|vm_compute; reflexivity]. Qed.

(** C121. If the retries last until the deadline, no pod is ever deleted by force, whatever happens;
    for a pod with volumes the deletion is not even tried. *)
Theorem C121_never_forced : forall l dl t, l_retries l <> 0 -> dl <= t + l_retries l * 20 ->
  (forall p, neverForced (d_calls (alone l dl p (l_retries l) t))) /\
  (forall pods c, In c (s_calls (together l dl true pods t)) -> c_evict c = true).
Proof.
  intros l dl t Z H. split.
  - intros p c I E. apply alone_calls in I. destruct I as (A & B & C). specialize (B E).
    rewrite C. unfold call, retryInterval in *. destruct (Nat.leb_spec dl (c_at c)); [reflexivity|lia].
  - intros pods c I. destruct (c_evict c) eqn:E; [reflexivity|].
    pose proof (together_forced_late l dl pods t c Z I E). unfold retryInterval in *. lia.
Qed.
Print Assumptions C121_never_forced.

(** C121, refuted: "after the retries the pod is forcibly deleted" never happens in a normal drain if
    as many retries are configured as fit into the time-out and they fit exactly. The default settings
    (two hours, 360 retries, flags of options.go 104-105) are such. *)
Theorem C121_forcing_refuted :
  fillsUp 360 7200 /\
  forall configured timeout l prep t, fillsUp configured timeout ->
  l_timeout l = Z.to_nat timeout -> l_retries l = Z.to_nat (effectiveRetries configured timeout) ->
  (forall p, neverForced (d_calls (alone l (t + l_timeout l) p (l_retries l) (t + prep)))) /\
  (forall pods c, In c (s_calls (together l (t + l_timeout l) true pods (t + prep))) -> c_evict c = true).
Proof.
  split; [unfold fillsUp; repeat split; reflexivity || discriminate|].
  intros c tm l prep t F T R. destruct (fills c tm F) as (A & B). unfold retryInterval in A.
  apply C121_never_forced; [congruence|]. rewrite R, T, <- A. lia.
Qed.
Print Assumptions C121_forcing_refuted.

Example C121_forcing_case :
  d_calls (alone (mkLimits 40 120 90 2 false) 1040 guarded 2 1000)
  = [mkCall 1000 true ATooMany; mkCall 1020 true ATooMany; mkCall 1040 false AOther] /\
  s_calls (together (mkLimits 40 120 90 2 false) 1040 true [guardedVol] 1000)
  = [mkCall 1000 true ATooMany; mkCall 1020 true ATooMany].
Proof. vm_compute. split; reflexivity. Qed.

(** C121. Over all the drains of a machine: one that is not forced begins no later than the time-out
    after the deletion, and has ended less than twice the time-out and 25 seconds after it. *)
Theorem C121_normal_drains : forall l deleted tries t k,
  (forall y, In y tries -> y_prep y < l_timeout l) ->
  In k (drains l deleted tries t) -> l_force (k_limits k) = false ->
  k_begin k <= deleted + l_timeout l /\ k_end k < deleted + 2 * l_timeout l + 25.
Proof.
  intros l deleted tries t k P I F. destruct (drains_in _ _ _ _ _ I) as (y & Y & B & L & E).
  specialize (P y Y). rewrite L in F, E. unfold passLimits in F, E.
  destruct (y_label y); cbn [orb] in F, E; [discriminate F|].
  destruct (Nat.ltb_spec (deleted + l_timeout l) (k_begin k)); [discriminate F|].
  split; [assumption|]. rewrite E.
  match goal with |- runDrain ?q ?s ?a ?b ?p ?u < _ => pose proof (runDrain_ends q s a b p u P) as R end.
  cbn [l_timeout] in R. lia.
Qed.
Print Assumptions C121_normal_drains.

(** C121. Every drain that begins later than the time-out after the deletion is forced, deletes
    instead of evicting, and takes no longer than its preparation; and a machine labelled for it gets
    nothing but forced drains. *)
Theorem C121_then_forced : forall l deleted tries t k, In k (drains l deleted tries t) ->
  (deleted + l_timeout l < k_begin k \/ (forall y, In y tries -> y_label y = true)) ->
  l_force (k_limits k) = true /\ l_timeout (k_limits k) = 60 /\
  exists y, In y tries /\ k_end k = k_begin k + y_prep y.
Proof.
  intros l deleted tries t k I H. destruct (drains_in _ _ _ _ _ I) as (y & Y & B & L & E).
  assert (K : k_limits k = mkLimits 60 (l_detach l) (l_reattach l) 1 true).
  { rewrite L. unfold passLimits. destruct H as [H|H].
    - destruct (Nat.ltb_spec (deleted + l_timeout l) (k_begin k)); [|lia]. rewrite orb_true_r. reflexivity.
    - rewrite (H y Y). reflexivity. }
  rewrite K in E |- *. split; [reflexivity|]. split; [reflexivity|]. exists y. split; [exact Y|].
  rewrite E. apply runDrain_forced. reflexivity.
Qed.
Print Assumptions C121_then_forced.

(** C121. A drain is forced for no other reason than the label, the time-out since the deletion, or a
    node that has been sick for more than five minutes. *)
Theorem C121_forced_why : forall l deleted tries t k, In k (drains l deleted tries t) ->
  (forall y, In y tries -> y_label y = false /\ y_sick y = false) ->
  k_begin k <= deleted + l_timeout l -> k_limits k = mkLimits (l_timeout l) (l_detach l) (l_reattach l) (l_retries l) false.
Proof.
  intros l deleted tries t k I H G. destruct (drains_in _ _ _ _ _ I) as (y & Y & B & L & E).
  destruct (H y Y) as (H1 & H2). rewrite L. unfold passLimits. rewrite H1, H2.
  destruct (Nat.ltb_spec (deleted + l_timeout l) (k_begin k)); [lia|reflexivity].
Qed.
Print Assumptions C121_forced_why.

(** C121. A machine whose node is sick for more than five minutes gets nothing but forced drains. *)
Theorem C121_sick_forced : forall l deleted tries t k, In k (drains l deleted tries t) ->
  (forall y, In y tries -> y_sick y = true) ->
  l_force (k_limits k) = true /\ exists y, In y tries /\ k_end k = k_begin k + y_prep y.
Proof.
  intros l deleted tries t k I H. destruct (drains_in _ _ _ _ _ I) as (y & Y & B & L & E).
  assert (F : l_force (k_limits k) = true).
  { rewrite L. unfold passLimits. destruct (y_label y || _); [reflexivity|]. exact (H y Y). }
  split; [exact F|]. exists y. split; [exact Y|]. rewrite E. apply runDrain_forced. exact F.
Qed.
Print Assumptions C121_sick_forced.

Example C121_sick_forced_case :
  map (fun k => (k_begin k, l_force (k_limits k), k_end k))
    (drains (mkLimits 100 120 90 5 false) 1000 [mkTry 5 true false true [guarded] [stuck] 2] 1000)
  = [(1005, true, 1007)].
Proof. vm_compute. reflexivity. Qed.

(** C121, refuted in the words of the flag ("beyond which MCM forcefully deletes machine"): each drain
    gets the whole time-out anew, so a second one can go on until twice the time-out after the
    deletion and 24 seconds. *)
Theorem C121_counted_anew_refuted : exists l deleted tries t k, deleted <= t /\
  In k (drains l deleted tries t) /\ l_force (k_limits k) = false /\
  k_end k = deleted + 2 * l_timeout l + 24.
Proof.
  exists (mkLimits 100 120 90 5 false), 1000,
    [mkTry 0 false false true [mkTPod None (fun _ => AOther) (fun _ => false) (fun _ => SErr) false (fun _ => NFree) (fun _ => None)] [] 0;
     mkTry 99 false false true [] [guardedVol; stuck] 4], 1001, (mkTook 1100 (mkLimits 100 120 90 5 false) 1224).
  split; [repeat constructor|]. split; [vm_compute; right; left; reflexivity|]. split; [reflexivity|vm_compute; reflexivity].
Qed.
Print Assumptions C121_counted_anew_refuted.

Example C121_drains_case :
  map (fun k => (k_begin k, l_force (k_limits k), k_end k))
    (drains (mkLimits 100 120 90 5 false) 1000
       [mkTry 5 false false true [guarded] [] 2; mkTry 15 false false true [guarded] [] 2; mkTry 15 false false true [guarded] [stuck] 2] 1000)
  = [(1005, false, 1107); (1122, true, 1124); (1139, true, 1141)].
Proof. vm_compute. reflexivity. Qed.
