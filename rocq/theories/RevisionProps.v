(** Properties C10 and C11: revisions and rollback. *)
Require Import Coq.ZArith.ZArith Coq.Lists.List Coq.Bool.Bool Coq.micromega.Lia.
From Verif Require Import Sort RevisionModel RevisionSpec RevisionProofs.
Import ListNotations.
Open Scope Z_scope.

(** C10. In every history of reconciles, template changes, rollbacks and removals
    that starts without MachineSets and is shorter than 2^63-1 steps: every set
    carries a positive number and no two the same; no later step lowers one; and
    after a reconcile whose write succeeded and which has a current set, that set's
    number is above all others. *)
Theorem C10_revisions_grow : forall w l, vfresh w -> Z.of_nat (length l) < 9223372036854775807 ->
  let w' := vrun w l in
  Forall (fun s => exists z, has_rev s z /\ 1 <= z) (vw_sets w') /\ NoDup (map v_rev (vw_sets w')) /\
  (forall o s s' z z', In s (vw_sets w') -> In s' (vw_sets (vstep w' o)) -> v_uid s = v_uid s' ->
     has_rev s z -> has_rev s' z' -> z <= z') /\
  (forall i create, si_ok i = true ->
     create = true \/ (exists s, In s (vw_sets w') /\ v_template s = vw_template w') ->
     let w'' := vstep w' (VSync i create) in
     exists n z, current w'' n /\ has_rev n z /\
       forall s z', In s (vw_sets w'') -> v_uid s <> v_uid n -> has_rev s z' -> z' < z).
Proof. exact c10_lemma. Qed.
Print Assumptions C10_revisions_grow.

Definition rv_in (now : Z) := mkSync false false false now true.
Definition rv_hist : list VOp :=
  [VSync (rv_in 1) true; VTemplate 7%nat; VSync (rv_in 2) true; VTemplate 9%nat; VSync (rv_in 3) true;
   VAskRollback 1; VRollback (rv_in 4) true; VSync (rv_in 5) true].

Example C10_case : let w := vrun (mkVW 5 None [] 0) rv_hist in
  vw_template w = 5%nat /\ map (fun s => (v_template s, v_rev s)) (vw_sets w) = [(5%nat, RevInt 4); (7%nat, RevInt 2); (9%nat, RevInt 3)].
Proof. vm_compute. split; reflexivity. Qed.

(** Outside C10's histories: a current set whose annotation was made unreadable is
    never numbered again, and is not above the others. *)
Theorem C10_unreadable_revision_refuted : exists w i, NoDup (map v_uid (vw_sets w)) /\ si_ok i = true /\
  exists n, current (vstep w (VSync i true)) n /\ v_rev n = RevBad /\
  exists s, In s (vw_sets (vstep w (VSync i true))) /\ v_uid s <> v_uid n /\ has_rev s 3.
Proof.
  exists (mkVW 5 None [mkV 0 1 5 RevBad []; mkV 1 2 7 (RevInt 3) []] 2), (rv_in 9). vm_compute.
  split; [repeat constructor; simpl; intuition congruence|]. split; [reflexivity|].
  exists (mkV 0 1 5 RevBad []). split; [|split; [reflexivity|]].
  - split; [auto|]. split; [reflexivity|]. intros s [<-|[<-|[]]]; simpl; intro H; congruence || discriminate.
  - exists (mkV 1 2 7 (RevInt 3) []). repeat split; auto; intro; discriminate.
Qed.
Print Assumptions C10_unreadable_revision_refuted.

(** C10, history: whatever revision a set had at some time, it has it still, or its history
    annotation lists it; so no number under which a template was once rolled out is lost
    as long as the set exists. *)
Theorem C10_history_kept : forall w l1 l2, vfresh w ->
  forall s s' z, In s (vw_sets (vrun w l1)) -> In s' (vw_sets (vrun w (l1 ++ l2))) -> v_uid s = v_uid s' -> has_rev s z ->
  has_rev s' z \/ In (RevInt z) (v_hist s').
Proof. exact history_lemma. Qed.
Print Assumptions C10_history_kept.

(* Rolled back to twice: the set has had the revisions 1 and 4, and has 6. *)
Example C10_history_kept_case :
  let l := rv_hist ++ [VTemplate 7%nat; VSync (rv_in 6) true; VTemplate 5%nat; VSync (rv_in 7) true] in
  vfresh (mkVW 5 None [] 0) /\
  map (fun s => (v_uid s, v_rev s, v_hist s)) (vw_sets (vrun (mkVW 5 None [] 0) l)) =
  [(0%nat, RevInt 6, [RevInt 1; RevInt 4]); (1%nat, RevInt 5, [RevInt 2]); (2%nat, RevInt 3, [])].
Proof. vm_compute. split; reflexivity. Qed.

(** The history annotation is not a list of the earlier revisions: a change of the
    copied annotations at the same revision records the number still in use. *)
Theorem C10_history_refuted : exists w i s, NoDup (map v_uid (vw_sets w)) /\
  In s (vw_sets (vstep w (VSync i true))) /\ In (v_rev s) (v_hist s).
Proof.
  exists (mkVW 5 None [mkV 0 1 5 (RevInt 1) []] 1), (mkSync true false false 3 true), (mkV 0 1 5 (RevInt 1) [RevInt 1]).
  vm_compute. split; [repeat constructor; simpl; tauto|]. auto.
Qed.
Print Assumptions C10_history_refuted.

(** C11, for every deployment state with distinct sets (revisions of any kind):
    a rollback whose writes succeed clears the request and leaves the MachineSets
    as an ordinary revision sync would. Rollback to [r0 <> 0] takes over the
    template of a set carrying [r0] if there is one, and otherwise changes nothing.
    Rollback to 0 does so for the second highest revision. *)
Theorem C11_rollback_target : forall i w r0, NoDup (map v_uid (vw_sets w)) ->
  vw_rollback w = Some r0 -> si_ok i = true ->
  let w' := rollback i true w in
  vw_rollback w' = None /\ vw_sets w' = vw_sets (syncRevision i true w) /\
  (r0 <> 0 -> (exists s, In s (vw_sets w') /\ has_rev s r0 /\ vw_template w' = v_template s) \/
              ((forall s, In s (vw_sets w') -> ~ has_rev s r0) /\ vw_template w' = vw_template w)) /\
  (r0 = 0 -> exists r, second_highest (revs (vw_sets w')) r /\
      ((0 < r /\ exists s, In s (vw_sets w') /\ has_rev s r /\ vw_template w' = v_template s) \/
       (r = 0 /\ vw_template w' = vw_template w))).
Proof. exact rollback_lemma. Qed.
Print Assumptions C11_rollback_target.

(** There is only one second highest revision. *)
Theorem C11_second_highest_unique : forall l a b, second_highest l a -> second_highest l b -> a = b.
Proof. exact second_highest_unique. Qed.
Print Assumptions C11_second_highest_unique.

(** A rollback whose write fails keeps the template and the request. *)
Theorem C11_failed_write : forall i w, vw_template (rollback i false w) = vw_template w /\
  vw_rollback (rollback i false w) = vw_rollback w.
Proof.
  intros i w. unfold rollback. destruct (vw_rollback w) eqn:E; [|auto].
  destruct (getNewMachineSet _ _ _ _ _) as [n sets]. destruct n as [[m|]|]; auto.
Qed.
Print Assumptions C11_failed_write.

Example C11_case :
  let w := vrun (mkVW 5 None [] 0) [VSync (rv_in 1) true; VTemplate 7%nat; VSync (rv_in 2) true; VTemplate 9%nat; VSync (rv_in 3) true] in
  map (fun r => vw_template (rollback (rv_in 4) true (vstep w (VAskRollback r)))) [0; 1; 2; 3; 8; -1] = [7; 5; 7; 9; 9; 9]%nat /\
  second_highest (revs (vw_sets w)) 2.
Proof. vm_compute. repeat split; (intro; discriminate) || lia || auto. Qed.
