(** Properties of the expectations: C22. *)
Require Import Coq.ZArith.ZArith Coq.Lists.List Coq.Strings.String Coq.Bool.Bool Coq.micromega.Lia.
From Verif Require Import StatusModel ExpModel ExpSpec ExpProofs.
Import ListNotations.
Open Scope string_scope.
Open Scope list_scope.
Open Scope Z_scope.

(** C22: whatever calls came before and whatever calls for this or other sets come
    after, expected creations are satisfied exactly when that many creations were
    observed for this set, or five minutes are over. *)
Theorem C22_creations : forall h1 h2 k n t now, Forall (fun o => ~ resets k o) h2 ->
  (SatisfiedExpectations now k (xrun (h1 ++ XExpectCreations t k n :: h2)) = true <->
   n <= creations k h2 \/ now - t > 300 * 1000000000).
Proof. exact satisfied_creations. Qed.
Print Assumptions C22_creations.

Example C22_creations_case :
  let h := [XExpectDeletions 0 "a" ["m"]] in
  let g := [XDeletionObserved "a" "m"; XCreationObserved "b"; XCreationObserved "a"; XDeletionObserved "a" "x"] in
  Forall (fun o => ~ resets "a" o) g /\
  SatisfiedExpectations 9 "a" (xrun (h ++ XExpectCreations 5 "a" 2 :: g)) = false /\
  SatisfiedExpectations 9 "a" (xrun (h ++ XExpectCreations 5 "a" 2 :: g ++ [XCreationObserved "a"])) = true /\
  SatisfiedExpectations 300000000006 "a" (xrun (h ++ XExpectCreations 5 "a" 2 :: g)) = true.
Proof. split; [repeat constructor; cbn; auto|]. vm_compute. auto. Qed.

(** C22: expected deletions are satisfied exactly when each of the named machines was
    observed at least once; repeated or foreign observations count for nothing. *)
Theorem C22_deletions : forall h1 h2 k keys t now, Forall (fun o => ~ resets k o) h2 ->
  (SatisfiedExpectations now k (xrun (h1 ++ XExpectDeletions t k keys :: h2)) = true <->
   (forall m, In m keys -> In (XDeletionObserved k m) h2) \/ now - t > 300 * 1000000000).
Proof. exact satisfied_deletions. Qed.
Print Assumptions C22_deletions.

Example C22_deletions_case :
  let g := [XDeletionObserved "a" "m"; XDeletionObserved "a" "m"; XDeletionObserved "a" "x"; XDeletionObserved "b" "n"] in
  SatisfiedExpectations 9 "a" (xrun (XExpectDeletions 5 "a" ["m"; "n"; "m"] :: g)) = false /\
  SatisfiedExpectations 9 "a" (xrun (XExpectDeletions 5 "a" ["m"; "n"; "m"] :: g ++ [XDeletionObserved "a" "n"])) = true.
Proof. vm_compute. auto. Qed.

(** C22: a set for which nothing is expected is never held up. *)
Theorem C22_nothing_expected : forall h1 h2 k now, Forall (fun o => ~ resets k o) h2 ->
  SatisfiedExpectations now k (xrun h2) = true /\ SatisfiedExpectations now k (xrun (h1 ++ XForget k :: h2)) = true.
Proof. exact satisfied_none. Qed.
Print Assumptions C22_nothing_expected.

Example C22_nothing_case : SatisfiedExpectations 1 "a" (xrun [XExpectCreations 0 "a" 3; XForget "a"; XCreationObserved "a"]) = true.
Proof. reflexivity. Qed.

(** C22: if reconciles create only when the expectations are satisfied, then these
    are satisfied exactly when no creation is outstanding: every machine created so
    far has been seen, however attempts fail and events are ordered.
    Partial: the reconcile of the code does not ask (C22_ungated_refuted). *)
Theorem C22_no_creation_missed_partial : forall l now, timely ginit l ->
  (match x_exp (g_exp (grun true l)) gkey with Some e => now - e_time e <= 300 * 1000000000 | None => True end) ->
  (SatisfiedExpectations now gkey (g_exp (grun true l)) = true <->
   g_todo (grun true l) = O /\ g_pending (grun true l) = []).
Proof. exact gate_sound. Qed.
Print Assumptions C22_no_creation_missed_partial.

Example C22_no_creation_case :
  let l := [GReconcile 0 3; GCreate true; GDeliver 0; GCreate true; GCreate false; GReconcile 1 5; GDeliver 1; GReconcile 2 1; GCreate true] in
  timely ginit l /\ g_pending (grun true l) = [2%nat] /\ SatisfiedExpectations 3 gkey (g_exp (grun true l)) = false /\
  SatisfiedExpectations 3 gkey (g_exp (grun true (l ++ [GDeliver 2]))) = true.
Proof. cbn zeta. split; [cbn; repeat split; lia|]. vm_compute. auto. Qed.

(** C22, finding: the controller has the question commented out
    (pkg/controller/machineset.go 542), so a later round overwrites the count and
    the late event of an earlier machine satisfies it. *)
Theorem C22_ungated_refuted : exists l now, timely ginit l /\
  SatisfiedExpectations now gkey (g_exp (grun false l)) = true /\ g_pending (grun false l) <> [].
Proof.
  exists [GReconcile 0 1; GCreate true; GReconcile 1 1; GCreate true; GDeliver 0], 2.
  split; [cbn; repeat split; lia|]. vm_compute. split; [auto|discriminate].
Qed.
Print Assumptions C22_ungated_refuted.
