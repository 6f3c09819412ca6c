(** Property C104: a Recreate rollout comes to its end. *)
Require Import Coq.ZArith.ZArith Coq.Lists.List Coq.Strings.String Coq.Bool.Bool.
From Verif Require Import Types RecreateModel RecreateSpec RecrSpec RecrProofs.
Import ListNotations.
Open Scope Z_scope.
Open Scope string_scope.

(** C104: take any history of a deployment that has used Recreate since its
    creation: edits of template (also back to earlier ones) and size, controller
    crashes after any write, any reports. If from then on the user edits nothing,
    three reconciles that find no machine left in sets requesting none, and whose
    first write arrives, end the rollout, whatever happens between them: failed
    or early reconciles, machines coming and going, any reports. Missing: a
    deployment whose strategy was changed in mid-update; refuted below. *)
Theorem C104_ends_partial : forall w0 l0 l, fresh_world w0 -> limit_ok w0 -> Forall calm l ->
  (3 <= turns (run w0 l0) l)%nat -> finished (run (run w0 l0) l).
Proof. exact recreate_ends. Qed.
Print Assumptions C104_ends_partial.

(** The end is kept as long as the user edits nothing. *)
Theorem C104_stays : forall w0 l0 l, fresh_world w0 -> limit_ok w0 -> Forall calm l ->
  finished (run w0 l0) -> finished (run (run w0 l0) l).
Proof. exact recreate_stays. Qed.
Print Assumptions C104_stays.

(** At the end, once the MachineSets have what they request, the wanted number of
    machines runs, all with the current template. *)
Theorem C104_machines : forall w0 l0, fresh_world w0 -> limit_ok w0 -> let w := run w0 l0 in
  finished w -> served w ->
  exists z, In z (w_sets w) /\ r_template z = w_template w /\ r_machines z = w_replicas w /\
    forall x, In x (w_sets w) -> x <> z -> r_machines x = 0.
Proof. exact recreate_served. Qed.
Print Assumptions C104_machines.

(** And the end can always be reached: from every state of every history there
    are reconciles, machine starts and stops and reports that lead there.
    Missing: the same. *)
Theorem C104_never_stuck_partial : forall w0 l0, fresh_world w0 -> limit_ok w0 ->
  exists l, Forall calm l /\ finished (run (run w0 l0) l) /\ served (run (run w0 l0) l).
Proof. exact recreate_never_stuck. Qed.
Print Assumptions C104_never_stuck_partial.

(** Two templates, then back to the first together with a new size: the running
    set is brought to the new size, then to zero, then the first set is filled. *)
Definition rr_world := mkWorld 1 2 (Some 5) [].
Definition rr_past : list Event :=
  [Reconcile false "a" 1 9; MachineUp "a"; MachineUp "a"; Report "a" 1 1 2 2;
   SetTemplate 2%nat; Reconcile false "b" 2 9; MachineDown "a"; MachineDown "a"; Report "a" 1 1 0 0;
   Reconcile false "b" 3 9; MachineUp "b"; SetTemplate 1%nat; SetReplicas 3].
Definition rr_two : list Event :=
  [Reconcile false "c" 4 1; MachineUp "b"; Reconcile false "c" 5 0; Reconcile true "c" 6 7;
   MachineDown "b"; MachineDown "b"; Report "b" 1 1 0 0].
Definition rr_sets (w : World) := map (fun x => (r_name x, ms_spec (r_ms x), r_machines x)) (w_sets w).

Example C104_case :
  turns (run rr_world rr_past) rr_two = 2%nat /\ rr_sets (run (run rr_world rr_past) rr_two) = [("a", 0, 0); ("b", 0, 0)] /\
  let l := (rr_two ++ [Reconcile true "c" 7 1; MachineUp "a"; Report "a" 1 1 1 1; Reconcile true "c" 8 1])%list in
  (3 <= turns (run rr_world rr_past) l)%nat /\ rr_sets (run (run rr_world rr_past) l) = [("a", 3, 1); ("b", 0, 0)].
Proof. vm_compute. repeat split; auto. Qed.

Example C104_hypotheses : fresh_world rr_world /\ limit_ok rr_world /\ Forall calm rr_two.
Proof. repeat split; try (vm_compute; congruence). repeat constructor. Qed.

(** C104 fails when the strategy was RollingUpdate before and the update had not
    ended: a new and an old set both request machines. A change of the size then
    makes every reconcile a scaling event, scaling several sets is left to rolling
    updates, and no write is ever made again. *)
Definition rr_switched : World := mkWorld 2 9 (Some 5)
  [mkRSet 1 (mkMS "old" 1 false 1 1 8 8 8 8 (AnnInt 8) (AnnInt 11)) 8;
   mkRSet 2 (mkMS "new" 2 false 1 1 5 5 5 5 (AnnInt 8) (AnnInt 11)) 5].

Theorem C104_switched_refuted : exists w, limit_ok w /\ 0 <= w_replicas w /\ NoDup (map r_name (w_sets w)) /\ served w /\
  forall l, Forall calm l -> ~ finished (run w l).
Proof.
  exists rr_switched. split; [vm_compute; congruence|]. split; [vm_compute; congruence|].
  split; [repeat constructor; cbn; intuition congruence|].
  split; [intros x [<-|[<-|[]]]; split; reflexivity|].
  intros l C. apply two_not_finished, two_run; [exact C|]. repeat split. repeat eexists.
Qed.
Print Assumptions C104_switched_refuted.
