(** Proofs about the time a drain takes. *)
Require Import Coq.Lists.List Coq.Arith.PeanoNat Coq.Bool.Bool Coq.ZArith.ZArith.
Require Import Coq.micromega.Lia.
From Verif Require Import DrainModel ClockModel ClockSpec.
Import ListNotations.
Local Open Scope nat_scope.

Lemma wait_end : forall dl p until n t, t <= until ->
  let r := fst (waitForDelete dl p until n t) in
  t <= r /\ r <= until /\ (r = t \/ r < dl + pollInterval).
Proof.
  intros dl p until n. induction n; intros t H; simpl; unfold look;
    destruct (Nat.leb_spec dl t); simpl; try lia; destruct (t_seen p t); simpl; try lia.
  specialize (IHn (Nat.min (t + pollInterval) until)). cbv zeta in IHn.
  unfold pollInterval in *. lia.
Qed.

Lemma gone_end : forall l dl p t,
  let r := fst (waitGone l dl p t) in t <= r /\ r <= t + patience l p /\ (r = t \/ r < dl + pollInterval).
Proof. intros. apply wait_end. lia. Qed.

Lemma alone_end : forall l dl p left t,
  t <= d_end (alone l dl p left t) /\
  d_end (alone l dl p left t) <= t + left * retryInterval + patience l p /\
  (d_end (alone l dl p left t) = t \/ d_end (alone l dl p left t) < dl + retryInterval).
Proof.
  intros l dl p left. induction left; intros t; simpl; unfold call;
    destruct (Nat.leb_spec dl t); simpl; try lia; destruct (t_ans p t); simpl; try lia;
    try (destruct (l_force l); simpl; try lia;
         pose proof (gone_end l dl p t) as G; cbv zeta in G; unfold retryInterval, pollInterval in *; lia).
  destruct (t_broken p t); simpl; try lia.
  specialize (IHleft (t + retryInterval)). unfold retryInterval in *. lia.
Qed.

Lemma lastAlone_end : forall l dl left pods t,
  t <= lastAlone l dl left pods t /\
  (lastAlone l dl left pods t = t \/ lastAlone l dl left pods t < dl + retryInterval).
Proof.
  intros l dl left pods t. induction pods as [|p r IH]; simpl; [lia|].
  pose proof (alone_end l dl p left t). lia.
Qed.

Lemma alone_forced : forall l dl p t, l_force l = true -> d_end (alone l dl p 0 t) = t.
Proof. intros. simpl. rewrite H. destruct (call dl p t); reflexivity. Qed.

Lemma lastAlone_forced : forall l dl pods t, l_force l = true -> lastAlone l dl 0 pods t = t.
Proof.
  intros l dl pods t H. induction pods as [|p r IH]; cbn [lastAlone]; [reflexivity|].
  rewrite IH, alone_forced by exact H. lia.
Qed.

Lemma detach_loop : forall p limit n t, limit - t <= n ->
  let r := fst (detachLoop p limit n t) in t <= r /\ (r = t \/ r < limit + detachInterval).
Proof.
  intros p limit n. induction n; intros t H; simpl; destruct (Nat.leb_spec limit t); simpl; try lia;
    destruct (t_node p t); simpl; try lia.
  assert (H1 : limit - (t + detachInterval) <= n) by (unfold detachInterval; lia).
  specialize (IHn _ H1). cbv zeta in IHn. unfold detachInterval in *. lia.
Qed.

Lemma detach_end : forall l dl p t, let r := fst (waitDetach l dl p t) in
  t <= r /\ (r = t \/ r < dl + detachInterval) /\ (r = t \/ r < t + (gracePeriod p + l_detach l) + detachInterval).
Proof.
  intros. subst r. unfold waitDetach. destruct (t_vols p); cbn [fst]; [|lia].
  pose proof (detach_loop p (Nat.min dl (t + (gracePeriod p + l_detach l)))
    (Nat.min dl (t + (gracePeriod p + l_detach l)) - t) t (le_n _)) as D. cbv zeta in *. lia.
Qed.

Lemma reattach_end : forall l dl p t,
  t <= waitReattach l dl p t /\ waitReattach l dl p t <= t + l_reattach l /\
  (waitReattach l dl p t <= Nat.max t dl).
Proof. intros. unfold waitReattach. destruct (t_vols p); [|lia]. destruct (t_back p t); lia. Qed.

Lemma pass_end : forall l dl attempt pods retry t,
  let r := pass l dl attempt pods retry t in t <= s_end r /\ (s_end r = t \/ s_end r < dl + detachInterval).
Proof.
  intros l dl attempt pods. induction pods as [|p rest IH]; intros retry t; simpl; [lia|].
  destruct (Nat.leb_spec dl t); simpl; [lia|].
  destruct (call dl p t); simpl.
  - pose proof (detach_end l dl p t) as D. destruct (waitDetach l dl p t) as [u d]. simpl in D.
    destruct d; simpl; unfold detachInterval in *; try lia.
    + pose proof (reattach_end l dl p u). specialize (IH retry (waitReattach l dl p u)). cbv zeta in IH. lia.
    + specialize (IH retry u). cbv zeta in IH. lia.
    + specialize (IH retry u). cbv zeta in IH. lia.
  - destruct (attempt && t_broken p t); simpl; apply IH.
  - apply IH.
  - apply IH.
Qed.

(* a pass that begins late does nothing *)
Lemma pass_late : forall l dl attempt pods retry t, dl <= t -> pods <> [] ->
  s_fast (pass l dl attempt pods retry t) = true /\ s_calls (pass l dl attempt pods retry t) = [] /\
  s_end (pass l dl attempt pods retry t) = t.
Proof.
  intros l dl attempt [|p r] retry t H N; [contradiction|]. simpl.
  destruct (Nat.leb_spec dl t); [simpl; auto|lia].
Qed.

Lemma pass_fast_early : forall l dl attempt pods retry t,
  s_fast (pass l dl attempt pods retry t) = false -> pods <> [] -> t < dl.
Proof.
  intros l dl attempt pods retry t F N. destruct (Nat.lt_ge_cases t dl) as [|H]; [assumption|].
  destruct (pass_late l dl attempt pods retry t H N) as (X & _). congruence.
Qed.

Lemma none_false : forall pods, none pods = false -> pods <> [].
Proof. intros [|]; simpl; congruence. Qed.

Definition slack := detachInterval + retryInterval.

Lemma rounds_end : forall l dl n pods rem t, pods <> [] ->
  let r := rounds l dl n pods rem t in
  t <= s_end r /\ (s_end r = t \/ s_end r < dl + slack).
Proof.
  intros l dl n. induction n; intros pods rem t N; simpl; [lia|].
  pose proof (pass_end l dl true pods [] t) as P. cbv zeta in P.
  destruct (s_fast (pass l dl true pods [] t)) eqn:F; simpl.
  { unfold slack, retryInterval. lia. }
  destruct (none (s_left (pass l dl true pods [] t))) eqn:L; simpl.
  { unfold slack, retryInterval. lia. }
  pose proof (pass_fast_early _ _ _ _ _ _ F N) as E.
  specialize (IHn (s_left (pass l dl true pods [] t)) (s_left (pass l dl true pods [] t))
    (s_end (pass l dl true pods [] t) + retryInterval) (none_false _ L)). cbv zeta in IHn.
  unfold slack, detachInterval, retryInterval in *. lia.
Qed.

Lemma pass_nil : forall l dl attempt retry t, pass l dl attempt [] retry t = mkPass retry false [] t.
Proof. reflexivity. Qed.

Lemma rounds_nil : forall l dl n t, s_end (rounds l dl n [] [] t) = t /\ none (s_left (rounds l dl n [] [] t)) = true.
Proof. intros l dl [|n] t; simpl; auto. Qed.

Lemma together_end : forall l dl attempt pods t,
  let r := together l dl attempt pods t in t <= s_end r /\ (s_end r = t \/ s_end r < dl + slack).
Proof.
  intros l dl attempt pods t. unfold together. destruct attempt.
  - destruct pods as [|p0 pods0].
    { destruct (rounds_nil l dl (l_retries l) t) as (A & B). rewrite B, andb_false_r. rewrite A. simpl. lia. }
    assert (N : p0 :: pods0 <> []) by discriminate. revert N. generalize (p0 :: pods0). clear p0 pods0.
    intros pods N.
    pose proof (rounds_end l dl (l_retries l) pods [] t N) as R. cbv zeta in R.
    destruct (s_fast (rounds l dl (l_retries l) pods [] t)) eqn:F; simpl; [exact R|].
    destruct (none (s_left (rounds l dl (l_retries l) pods [] t))) eqn:L; simpl; [exact R|].
    pose proof (pass_end l dl false (s_left (rounds l dl (l_retries l) pods [] t)) []
      (s_end (rounds l dl (l_retries l) pods [] t))) as P. cbv zeta in P.
    unfold slack, retryInterval in *. lia.
  - pose proof (pass_end l dl false pods [] t) as P. cbv zeta in P. unfold slack, detachInterval, retryInterval in *. simpl. lia.
Qed.

(* forcing *)
Lemma alone_calls : forall l dl p left t c, In c (d_calls (alone l dl p left t)) ->
  t <= c_at c /\ (c_evict c = false -> t + left * retryInterval <= c_at c) /\ c_ans c = call dl p (c_at c).
Proof.
  intros l dl p left. induction left; intros t c H; simpl in H.
  - destruct (call dl p t) eqn:E; try destruct (l_force l); simpl in H;
      destruct H as [<-|[]]; simpl; rewrite E; (split; [lia|split; [lia|reflexivity]]).
  - assert (G : In c [mkCall t true (call dl p t)] \/
                In c (d_calls (alone l dl p left (t + retryInterval)))).
    { destruct (call dl p t); try destruct (l_force l); try destruct (t_broken p t); simpl in H |- *; tauto. }
    destruct G as [[<-|[]]|G]; simpl.
    + split; [lia|]. split; [discriminate|reflexivity].
    + apply IHleft in G. destruct G as (A & B & C). split; [unfold retryInterval in *; lia|].
      split; [|exact C]. intros X. specialize (B X). unfold retryInterval in *. lia.
Qed.

Lemma pass_calls : forall l dl attempt pods retry t c, In c (s_calls (pass l dl attempt pods retry t)) ->
  c_evict c = attempt /\ t < dl.
Proof.
  intros l dl attempt pods. induction pods as [|p rest IH]; intros retry t c H; simpl in H; [contradiction|].
  destruct (Nat.leb_spec dl t); simpl in H; [contradiction|]. split; [|assumption].
  destruct (call dl p t); simpl in H.
  - destruct (waitDetach l dl p t) as [u d]. destruct d; simpl in H; destruct H as [<-|H]; try reflexivity;
      try (apply IH in H; tauto); contradiction.
  - destruct (attempt && t_broken p t); simpl in H; destruct H as [<-|H]; try reflexivity; apply IH in H; tauto.
  - destruct H as [<-|H]; [reflexivity|]. apply IH in H. tauto.
  - destruct H as [<-|H]; [reflexivity|]. apply IH in H. tauto.
Qed.

Lemma rounds_calls : forall l dl n pods rem t c, In c (s_calls (rounds l dl n pods rem t)) -> c_evict c = true.
Proof.
  intros l dl n. induction n; intros pods rem t c H; simpl in H; [contradiction|].
  destruct (s_fast (pass l dl true pods [] t) || none (s_left (pass l dl true pods [] t))).
  - apply pass_calls in H. tauto.
  - simpl in H. apply in_app_or in H. destruct H as [H|H]; [apply pass_calls in H; tauto|]. eauto.
Qed.

Lemma rounds_late : forall l dl n pods rem t, n <> 0 \/ rem <> [] ->
  s_fast (rounds l dl n pods rem t) = false -> s_left (rounds l dl n pods rem t) <> [] ->
  t + n * retryInterval <= s_end (rounds l dl n pods rem t).
Proof.
  intros l dl n. induction n; intros pods rem t N; simpl; [lia|].
  destruct (s_fast (pass l dl true pods [] t)) eqn:F; simpl; [congruence|].
  destruct (none (s_left (pass l dl true pods [] t))) eqn:L; simpl.
  { destruct (s_left (pass l dl true pods [] t)); [congruence|discriminate]. }
  intros A B. pose proof (pass_end l dl true pods [] t) as P. cbv zeta in P.
  assert (Q : n <> 0 \/ s_left (pass l dl true pods [] t) <> []) by (right; apply none_false; exact L).
  specialize (IHn _ _ (s_end (pass l dl true pods [] t) + retryInterval) Q A B). unfold retryInterval in *. lia.
Qed.

Lemma together_forced_late : forall l dl pods t c, l_retries l <> 0 ->
  In c (s_calls (together l dl true pods t)) -> c_evict c = false -> t + l_retries l * retryInterval < dl.
Proof.
  intros l dl pods t c Z H E. unfold together in H.
  destruct (s_fast (rounds l dl (l_retries l) pods [] t)) eqn:F; simpl in H.
  { apply rounds_calls in H. congruence. }
  destruct (none (s_left (rounds l dl (l_retries l) pods [] t))) eqn:L; simpl in H.
  { apply rounds_calls in H. congruence. }
  apply in_app_or in H. destruct H as [H|H]; [apply rounds_calls in H; congruence|].
  apply pass_calls in H. destruct H as (_ & H).
  pose proof (rounds_late l dl (l_retries l) pods [] t (or_introl Z) F (none_false _ L)). lia.
Qed.

Lemma alone_protected : forall l dl p left t, protected p -> t + left * retryInterval < dl ->
  forall p', t_ans p' (t + left * retryInterval) = AOk ->
  (forall u, u <> t + left * retryInterval -> t_ans p' u = t_ans p u) -> (forall u, t_broken p' u = t_broken p u) ->
  In (mkCall (t + left * retryInterval) false AOk) (d_calls (alone l dl p' left t)).
Proof.
  intros l dl p left. induction left; intros t P H p' A B C.
  - simpl in A, H |- *. unfold call. destruct (Nat.leb_spec dl t); [lia|].
    replace (t + 0) with t in A by lia. rewrite A. replace (t + 0) with t by lia.
    destruct (l_force l); left; reflexivity.
  - cbn [alone]. destruct (P t) as (P1 & P2).
    assert (D : t <> t + S left * retryInterval) by (unfold retryInterval; lia).
    assert (K : call dl p' t = ATooMany).
    { unfold call. destruct (Nat.leb_spec dl t); [lia|]. rewrite B by exact D. exact P1. }
    rewrite K, C, P2. cbn [d_calls]. right.
    replace (t + S left * retryInterval) with (t + retryInterval + left * retryInterval) in * by lia.
    apply IHleft; auto.
Qed.

Lemma fills : forall configured timeout, fillsUp configured timeout ->
  Z.to_nat (effectiveRetries configured timeout) * retryInterval = Z.to_nat timeout /\
  Z.to_nat (effectiveRetries configured timeout) <> 0.
Proof.
  intros c t (A & B & C). unfold effectiveRetries, retryInterval.
  rewrite Z.quot_div_nonneg by lia.
  assert (E : (t = 20 * (t / 20))%Z) by (pose proof (Z.div_mod t 20); lia).
  rewrite Z.min_r by lia. remember (t / 20)%Z as q. lia.
Qed.

(* a pod that leaves in time is seen to leave *)
Lemma wait_leaves : forall dl p g until n t, t <= until -> until - t <= n * pollInterval ->
  (forall u, u < g -> t_seen p u = SThere) -> (forall u, g <= u -> t_seen p u = SGone) ->
  g <= until -> g + pollInterval <= dl -> t < dl ->
  exists e, waitForDelete dl p until n t = (e, true) /\ g <= e /\ (e = t \/ e < g + pollInterval).
Proof.
  intros dl p g until n. induction n; intros t L N A B G D T; simpl; unfold look;
    (destruct (Nat.leb_spec dl t); [lia|]); destruct (Nat.lt_ge_cases t g) as [X|X].
  - simpl in N. lia.
  - rewrite B by exact X. exists t. auto.
  - rewrite A by exact X.
    destruct (IHn (Nat.min (t + pollInterval) until)) as (e & E1 & E2 & E3); auto;
      try (unfold pollInterval in *; lia).
    exists e. split; [exact E1|]. unfold pollInterval in *. lia.
  - rewrite B by exact X. exists t. auto.
Qed.

Lemma gone_leaves : forall l dl p g t,
  (forall u, u < g -> t_seen p u = SThere) -> (forall u, g <= u -> t_seen p u = SGone) ->
  g <= t + patience l p -> g + pollInterval <= dl -> t < dl ->
  snd (waitGone l dl p t) = true /\ g <= fst (waitGone l dl p t) /\
  (fst (waitGone l dl p t) = t \/ fst (waitGone l dl p t) < g + pollInterval).
Proof.
  intros l dl p g t A B C D T. unfold waitGone.
  destruct (wait_leaves dl p g (t + patience l p) ((patience l p + (pollInterval - 1)) / pollInterval) t)
    as (e & E & E2); auto; try lia.
  - unfold pollInterval. pose proof (Nat.div_mod (patience l p + (5 - 1)) 5).
    pose proof (Nat.mod_upper_bound (patience l p + (5 - 1)) 5). lia.
  - rewrite E. simpl. auto.
Qed.

Lemma wait_gone : forall dl p until n t, snd (waitForDelete dl p until n t) = true ->
  look dl p (fst (waitForDelete dl p until n t)) = SGone.
Proof.
  intros dl p until n. induction n; intros t H; simpl in *; destruct (look dl p t) eqn:E; simpl in *;
    try discriminate; auto.
Qed.

Lemma alone_ok : forall l dl p left t, l_force l = false -> d_ok (alone l dl p left t) = true ->
  look dl p (d_end (alone l dl p left t)) = SGone \/
  exists ev, In (mkCall (d_end (alone l dl p left t)) ev ANotFound) (d_calls (alone l dl p left t)).
Proof.
  intros l dl p left. induction left; intros t F H; cbn [alone] in *; rewrite F in *;
    destruct (call dl p t) eqn:E; cbn [d_ok d_end d_calls] in *; try discriminate;
    try (left; apply wait_gone; exact H); try (right; eexists; left; reflexivity).
  destruct (t_broken p t); cbn [d_ok d_end d_calls] in *; [discriminate|].
  destruct (IHleft _ eq_refl H) as [G|(ev & G)]; [left; exact G|right; exists ev; right; exact G].
Qed.

Lemma runDrain_ends : forall l support a b prep t, prep < l_timeout l ->
  runDrain l support a b prep t < t + l_timeout l + 25.
Proof.
  intros l support a b prep t H. unfold runDrain, evictPods.
  set (left := if negb (l_force l) && support then l_retries l else 0).
  destruct (l_force l).
  - pose proof (lastAlone_end l (t + l_timeout l) left (a ++ b) (t + prep)). unfold retryInterval in *. lia.
  - pose proof (lastAlone_end l (t + l_timeout l) left a (t + prep)).
    pose proof (together_end l (t + l_timeout l) (negb false && support) b (t + prep)) as T. cbv zeta in T.
    unfold slack, detachInterval, retryInterval in *. lia.
Qed.

Lemma runDrain_forced : forall l support a b prep t, l_force l = true ->
  runDrain l support a b prep t = t + prep.
Proof.
  intros l support a b prep t F. unfold runDrain, evictPods. rewrite F. cbn [negb andb].
  apply lastAlone_forced. exact F.
Qed.

Lemma drains_in : forall l deleted tries t k, In k (drains l deleted tries t) ->
  exists y, In y tries /\ t <= k_begin k /\ k_limits k = passLimits l y deleted (k_begin k) /\
  k_end k = runDrain (k_limits k) (y_support y) (y_a y) (y_b y) (y_prep y) (k_begin k).
Proof.
  intros l deleted tries. induction tries as [|y r IH]; intros t k H; simpl in H; [contradiction|].
  destruct H as [<-|H].
  - exists y. simpl. repeat split; auto. lia.
  - apply IH in H. destruct H as (z & A & B & C). exists z. split; [right; exact A|]. split; [|exact C].
    assert (G : t + y_gap y <= runDrain (passLimits l y deleted (t + y_gap y)) (y_support y) (y_a y) (y_b y) (y_prep y) (t + y_gap y)).
    { unfold runDrain, evictPods.
      match goal with |- context [if l_force ?q then _ else _] => destruct (l_force q) end.
      - match goal with |- _ <= lastAlone ?l ?dl ?n ?ps ?u => pose proof (lastAlone_end l dl n ps u) end. lia.
      - match goal with |- _ <= Nat.max (lastAlone ?l ?dl ?n ?ps ?u) _ => pose proof (lastAlone_end l dl n ps u) end. lia. }
    lia.
Qed.

Lemma longest_app : forall l a b, longest l (a ++ b) = longest l a + longest l b.
Proof. intros l a b. induction a as [|p r IH]; cbn [app longest]; [reflexivity|]. rewrite IH. lia. Qed.

Lemma pass_cost : forall l dl attempt pods retry t,
  s_end (pass l dl attempt pods retry t) + longest l (s_left (pass l dl attempt pods retry t))
  <= t + longest l pods + longest l retry.
Proof.
  intros l dl attempt pods. induction pods as [|p rest IH]; intros retry t; cbn [pass longest]; [cbn [s_end s_left]; lia|].
  destruct (Nat.leb_spec dl t); cbn [s_end s_left]; [rewrite longest_app; lia|].
  destruct (call dl p t).
  - pose proof (detach_end l dl p t) as D. cbv zeta in D. unfold gracePeriod, detachInterval in D.
    destruct (waitDetach l dl p t) as [u d]. cbn [fst] in D.
    assert (U : u <= t + ((match t_grace p with Some g => g | None => 0 end) + l_detach l) + 4) by lia.
    destruct d; cbn [before s_end s_left].
    + pose proof (reattach_end l dl p u). specialize (IH retry (waitReattach l dl p u)). lia.
    + rewrite longest_app. lia.
    + specialize (IH retry u). lia.
    + specialize (IH retry u). lia.
  - destruct (attempt && t_broken p t); cbn [before s_end s_left].
    + specialize (IH retry t). lia.
    + specialize (IH (retry ++ [p]) t). rewrite longest_app in IH. cbn [longest] in IH. lia.
  - cbn [before s_end s_left]. specialize (IH retry t). lia.
  - cbn [before s_end s_left]. specialize (IH (retry ++ [p]) t). rewrite longest_app in IH. cbn [longest] in IH. lia.
Qed.

Lemma rounds_cost : forall l dl n pods rem t, longest l rem <= longest l pods ->
  s_end (rounds l dl n pods rem t) + longest l (s_left (rounds l dl n pods rem t))
  <= t + longest l pods + n * retryInterval.
Proof.
  intros l dl n. induction n; intros pods rem t H; cbn [rounds]; [cbn [s_end s_left]; lia|].
  pose proof (pass_cost l dl true pods [] t) as P. cbn [longest] in P.
  destruct (s_fast (pass l dl true pods [] t) || none (s_left (pass l dl true pods [] t))); [unfold retryInterval; lia|].
  cbn [s_end s_left].
  specialize (IHn (s_left (pass l dl true pods [] t)) (s_left (pass l dl true pods [] t))
    (s_end (pass l dl true pods [] t) + retryInterval) (le_n _)). unfold retryInterval in *. lia.
Qed.

Lemma together_cost : forall l dl attempt pods t,
  s_end (together l dl attempt pods t) <= t + longest l pods + l_retries l * retryInterval.
Proof.
  intros l dl attempt pods t. unfold together. destruct attempt.
  - pose proof (rounds_cost l dl (l_retries l) pods [] t (Nat.le_0_l _)) as R.
    destruct (negb (s_fast (rounds l dl (l_retries l) pods [] t)) && negb (none (s_left (rounds l dl (l_retries l) pods [] t)))).
    + cbn [s_end].
      pose proof (pass_cost l dl false (s_left (rounds l dl (l_retries l) pods [] t)) [] (s_end (rounds l dl (l_retries l) pods [] t))) as P.
      cbn [longest] in P. lia.
    + lia.
  - pose proof (pass_cost l dl false pods [] t) as P. cbn [longest] in P. lia.
Qed.
