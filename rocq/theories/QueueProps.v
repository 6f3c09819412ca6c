(** C48. Work queues. *)
Require Import Coq.Lists.List Coq.Strings.String Coq.Bool.Bool Coq.Arith.PeanoNat Coq.micromega.Lia.
From Verif Require Import PermitModel QueueModel QueueSpec QueueProofs.
Import ListNotations.
Open Scope string_scope.
Open Scope list_scope.
Open Scope nat_scope.

(** C48. Whatever happens in between, the number of requeues of a key is the number of its
    failures since its last success, counted modulo one more than the limit; and a reconcile
    that just ended puts the key back exactly if it failed and this number is not again 0. So
    a key that fails is tried again [maxRetries] times and then dropped. *)
Theorem C48_retries : forall maxRetries workers ops i k failed,
  let w := qrun maxRetries (qinit workers) ops in
  let w' := qstep maxRetries w (QFinish i failed) in
  let before := failures (outcomes maxRetries k (qinit workers) ops []) in
  worksOn w i k ->
  q_count w k = before mod S maxRetries /\
  q_later w' = q_later w ++ (if failed && negb (Nat.eqb (S before mod S maxRetries) 0) then [k] else []) /\
  q_count w' k = (if failed then S before else 0) mod S maxRetries.
Proof.
  intros m n ops i k failed w w' before H.
  assert (C : q_count w k = before mod S m) by (apply count_run; symmetry; apply Nat.mod_0_l; lia).
  split; [exact C|]. unfold w'. unfold worksOn in H. cbn [qstep]. rewrite H.
  destruct (afterRun m (q_count w k) failed) as (c & again) eqn:AR. cbn [q_later q_count].
  pose proof (afterRun_mod m before failed) as Q. rewrite <- C, AR in Q. cbn [fst] in Q. rewrite String.eqb_refl.
  split; [|exact Q]. unfold afterRun in AR. destruct failed; cbn [andb].
  - destruct (Nat.ltb (q_count w k) m); injection AR as <- <-; rewrite <- Q; cbn [Nat.eqb negb]; [reflexivity | symmetry; apply app_nil_r].
  - injection AR as <- <-. symmetry. apply app_nil_r.
Qed.
Print Assumptions C48_retries.

(** C48. Two workers never work on the same key, and a key that was added needs work until a
    worker takes it: no event is lost, also not one that comes while the key is worked on. *)
Theorem C48_exclusive : forall maxRetries workers ops i j k,
  let w := qrun maxRetries (qinit workers) ops in
  worksOn w i k -> worksOn w j k -> i = j.
Proof. intros m n ops i j k w. apply (z_one m). apply inv_qrun, inv_qinit. Qed.
Print Assumptions C48_exclusive.

Theorem C48_not_lost : forall maxRetries workers ops op k,
  let w := qrun maxRetries (qinit workers) ops in
  In k (q_dirty (qstep maxRetries w (QAdd k))) /\
  (In k (q_dirty w) -> In k (q_queue w) \/ exists i, worksOn w i k) /\
  (In k (q_dirty w) -> In k (q_dirty (qstep maxRetries w op)) \/ exists i, op = QGet i /\ worksOn (qstep maxRetries w op) i k).
Proof.
  intros m n ops op k w. assert (V : QInv m w) by (apply inv_qrun, inv_qinit). split; [|split].
  - cbn [qstep]. unfold add. destruct (hasKey k (q_dirty w)) eqn:H; [apply hasKey_In, H | apply in_or_app; right; left; reflexivity].
  - intros I0. destruct (z_dirty _ _ V k I0) as [|P]; [left; assumption | right; apply processing_works, P].
  - intros I0. destruct (in_dec string_dec k (q_dirty (qstep m w op))) as [|N]; [left; assumption | right; apply (dirty_kept m w op k V I0 N)].
Qed.
Print Assumptions C48_not_lost.

(** Two workers, a limit of two: the key "a" fails three times and is dropped, an event during
    the second try is not lost. *)
Definition day : list QOp :=
  [QAdd "a"; QAdd "b"; QGet 0; QGet 1; QFinish 0 true; QDue 0; QGet 0; QAdd "a"; QFinish 1 false; QGet 1; QFinish 0 true; QGet 1].
Example C48_case : let w := qrun 2 (qinit 2) day in
  worksOn w 1 "a" /\ outcomes 2 "a" (qinit 2) day [] = [true; true] /\ q_count w "a" = 2 /\ q_later w = ["a"] /\
  q_later (qstep 2 w (QFinish 1 true)) = ["a"] /\ q_count (qstep 2 w (QFinish 1 true)) "a" = 0.
Proof. repeat split. Qed.
