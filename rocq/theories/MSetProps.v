(** Properties of MachineSet replica management: C15-C19, C55. *)
Require Import Coq.ZArith.ZArith Coq.Lists.List Coq.Strings.String Coq.Bool.Bool Coq.micromega.Lia.
Require Import Coq.Sorting.Permutation Coq.Sorting.Sorted.
From Verif Require Import Sort MSetModel MSetSpec MSetProofs.
Import ListNotations.
Open Scope string_scope.
Open Scope list_scope.
Open Scope Z_scope.

Definition ms_run (id : nat) := mkMach id "" "" "Running" (Z.of_nat id) false.

(** C15: what one reconcile decides: create at most min(100, missing); give up
    exactly min(100, surplus) of the machines that count, by the deletion order;
    besides, exactly the failed machines and those marked for deletion. *)
Theorem C15_one_reconcile : forall spec view, 0 <= spec -> exists rest,
  let p := manageReplicas spec false view in
  Z.of_nat (pl_create p) = Z.max 0 (Z.min (spec - nserving view) 100) /\
  Z.of_nat (List.length (pl_surplus p)) = Z.max 0 (Z.min (nserving view - spec) 100) /\
  Permutation (filter servingb view) (pl_surplus p ++ rest) /\
  (forall x y, In x (pl_surplus p) -> In y rest -> ~ before y x) /\
  (forall m, In m (pl_stale p) <-> In m view /\ (m_phase m = "Failed" \/ m_prio m = "1" \/ m_trigger m = "true")).
Proof. exact one_reconcile. Qed.
Print Assumptions C15_one_reconcile.

Example C15_one_case :
  let p := manageReplicas 1 false [ms_run 0; ms_run 1; mkMach 2 "" "" "Failed" 0 false; mkMach 3 "2" "" "Running" 9 false] in
  map m_id (pl_stale p) = [2]%nat /\ map m_id (pl_surplus p) = [3; 0]%nat /\ pl_create p = 0%nat /\
  pl_create (manageReplicas 250 false [ms_run 0]) = 100%nat.
Proof. vm_compute. repeat split. Qed.

(** C15: with an up-to-date view and no failing calls, n rounds bring the number of
    serving machines 100 n closer to the requested number, never past it. *)
Theorem C15_reaches_size : forall n now w, wf w -> settled (w_machines w) -> w_frozen w = false -> 0 <= w_spec w ->
  (nserving (w_machines w) <= w_spec w -> nserving (w_machines (rounds n now w)) = Z.min (w_spec w) (nserving (w_machines w) + 100 * Z.of_nat n)) /\
  (w_spec w <= nserving (w_machines w) -> nserving (w_machines (rounds n now w)) = Z.max (w_spec w) (nserving (w_machines w) - 100 * Z.of_nat n)).
Proof. exact rounds_lemma. Qed.
Print Assumptions C15_reaches_size.

Example C15_reaches_case :
  let w := mkW 230 false [ms_run 0; mkMach 1 "" "" "Failed" 0 false] [] 2 in
  wf w /\ settled (w_machines w) /\ nserving (w_machines (rounds 2 0 w)) = 201 /\ nserving (w_machines (rounds 3 0 w)) = 230 /\
  nserving (w_machines (rounds 1 0 (mkW 1 false [ms_run 0; ms_run 1; ms_run 2] [] 3))) = 1.
Proof.
  split; [split; [repeat constructor; simpl; intuition lia|repeat constructor]|]. split; [repeat constructor; intro; discriminate|].
  vm_compute. repeat split.
Qed.

(** C16, as far as it holds: a reconcile whose view misses no serving machine never
    raises the number of serving machines above the requested one, whichever calls
    fail. Missing: views that lag behind (refuted below). *)
Theorem C16_no_overcreation_partial : forall api now w, nserving (w_machines w) <= nserving (w_cache w) ->
  nserving (w_machines (reconcileMachineSet api now w)) <= Z.max (nserving (w_machines w)) (w_spec w).
Proof. exact serving_reconcile. Qed.
Print Assumptions C16_no_overcreation_partial.

Example C16_case :
  let w := mkW 3 false [ms_run 0] [ms_run 0] 1 in
  nserving (w_machines (reconcileMachineSet (mkApi (fun i => Nat.eqb i 0) (fun _ => true) (fun _ => true)) 0 w)) = 2 /\
  nserving (w_machines (reconcileMachineSet allok 0 w)) = 3.
Proof. split; reflexivity. Qed.

(** C16 fails for a lagging view: the gate on recorded expectations is disabled
    (machineset.go 541-542), so two reconciles before the cache shows the created
    machines create all of them twice. *)
Theorem C16_lagging_view_refuted : exists w, wf w /\ w_cache w = w_machines w /\ nserving (w_machines w) <= w_spec w /\
  w_spec w < nserving (w_machines (run w [OReconcile allok 0; OReconcile allok 0])).
Proof. exists (mkW 3 false [ms_run 0] [ms_run 0] 1). split; [split; repeat constructor; simpl; tauto|]. vm_compute. repeat split; discriminate. Qed.
Print Assumptions C16_lagging_view_refuted.

(** C17: a frozen set plans the same deletions and no creation. *)
Theorem C17_frozen_plan : forall spec view, pl_create (manageReplicas spec true view) = 0%nat /\
  pl_stale (manageReplicas spec true view) = pl_stale (manageReplicas spec false view) /\
  pl_surplus (manageReplicas spec true view) = pl_surplus (manageReplicas spec false view).
Proof. exact frozen_plan. Qed.
Print Assumptions C17_frozen_plan.

(** C17: while the label stays, no machine is created, whatever happens. *)
Theorem C17_frozen_creates_nothing : forall l w, w_frozen w = true -> Forall (fun o => o <> OFreeze false) l ->
  incl (map m_id (w_machines (run w l))) (map m_id (w_machines w)).
Proof. intros l w H HF. exact (proj1 (frozen_run l w H HF)). Qed.
Print Assumptions C17_frozen_creates_nothing.

Example C17_case :
  let w := mkW 3 true [ms_run 0; ms_run 1] [ms_run 0; ms_run 1] 2 in
  map m_id (w_machines (run w [OReconcile allok 0; OScale 1; OReconcile allok 0])) = [0; 1]%nat /\
  map m_deleting (w_machines (run w [OReconcile allok 0; OScale 1; OReconcile allok 0])) = [true; false] /\
  List.length (w_machines (run w [OFreeze false; OReconcile allok 0])) = 3%nat.
Proof. vm_compute. repeat split. Qed.

(** C18: exactly [k] machines of the set are chosen and none that is kept was to be
    given up before a chosen one. *)
Theorem C18_deletion_order : forall l k, (k <= List.length l)%nat -> exists rest,
  Permutation l (getMachinesToDelete l k ++ rest) /\ List.length (getMachinesToDelete l k) = k /\
  forall x y, In x (getMachinesToDelete l k) -> In y rest -> ~ before y x.
Proof. exact to_delete. Qed.
Print Assumptions C18_deletion_order.

(** C18 for every sorting function: the comparison used is the order, and any list
    sorted by it gives the same guarantee. *)
Theorem C18_any_sort : (forall a b, Less a b = true <-> before a b) /\
  forall l s k, Permutation l s -> StronglySorted (fun a b => ~ before b a) s -> (k <= List.length l)%nat ->
  List.length (firstn k s) = k /\ Permutation l (firstn k s ++ skipn k s) /\
  forall x y, In x (firstn k s) -> In y (skipn k s) -> ~ before y x.
Proof. split; [exact less_before|exact any_sort]. Qed.
Print Assumptions C18_any_sort.

(** The order is a strict weak order, so sorting by it is meaningful. *)
Theorem C18_order : (forall a, ~ before a a) /\ (forall a b c, before a b -> before b c -> before a c) /\
  (forall a b c, before a c -> before a b \/ before b c).
Proof. exact before_order. Qed.
Print Assumptions C18_order.

Example C18_case :
  let l := [ms_run 4; mkMach 1 "" "" "Pending" 9 false; mkMach 2 "5" "" "Pending" 0 false; mkMach 3 "2" "" "Running" 9 false;
            mkMach 5 "" "" "Running" 1 false; mkMach 6 "abc" "" "Unknown" 50 false] in
  map m_id (getMachinesToDelete l 4) = [3; 6; 1; 5]%nat.
Proof. reflexivity. Qed.

(** C18: the priority is the number written in the annotation, 3 without one. *)
Theorem C18_priority : forall m, (forall z, numeral (m_prio m) z -> machinePriority m = z) /\
  ((forall z, ~ numeral (m_prio m) z) -> machinePriority m = 3).
Proof. exact priority_number. Qed.
Print Assumptions C18_priority.

Example C18_priority_case : numeral "+0190" 190 /\ numeral "-9223372036854775808" (- 2 ^ 63) /\
  (forall z, ~ numeral "9223372036854775808" z) /\ (forall z, ~ numeral "1/0" z) /\ (forall z, ~ numeral "1:" z).
Proof.
  repeat split; try (intros z H; apply atoi_numeral in H; vm_compute in H; discriminate); apply atoi_numeral; reflexivity.
Qed.

(** C18: phases introduced for in-place updates are missing from the order: such a
    machine is given up before a crash-looping one. *)
Theorem C18_unlisted_phase_refuted : exists a b, prio a = prio b /\ m_phase a = "InPlaceUpdating" /\ m_phase b = "CrashLoopBackOff" /\
  getMachinesToDelete [b; a] 1 = [a].
Proof. exists (mkMach 0 "" "" "InPlaceUpdating" 0 false), (mkMach 1 "" "" "CrashLoopBackOff" 0 false). repeat split. Qed.
Print Assumptions C18_unlisted_phase_refuted.

(** C19: creating n machines makes c <= n calls and reports exactly the successful
    ones; without an error all n calls are made; with one, the calls are d
    successful ones followed by a last batch of at most d+1 with a failure, and the
    failures exceed the successes by at most one. *)
Theorem C19_slow_start : forall n f c s e, slowStartBatch n 1 f = (c, s, e) ->
  (c <= n)%nat /\ s = nsucc f 0 c /\ (e = false -> c = n /\ s = n) /\
  (e = true -> exists d b, c = (d + b)%nat /\ (b <= d + 1)%nat /\
     (forall i, (i < d)%nat -> f i = true) /\ (exists i, (d <= i < c)%nat /\ f i = false) /\ (c - s <= s + 1)%nat).
Proof. exact slow_start. Qed.
Print Assumptions C19_slow_start.

(** C19: the batches are 1, 2, 4, ...: with a failure at call [i], the calls made
    are those of the batches up to the one containing [i]. *)
Theorem C19_batches : forall n f k i, (i < n)%nat -> (forall j, (j < i)%nat -> f j = true) -> f i = false ->
  (2 ^ k <= i + 1 < 2 ^ (k + 1))%nat -> fst (fst (slowStartBatch n 1 f)) = Nat.min n (2 ^ (k + 1) - 1).
Proof. exact slow_batches. Qed.
Print Assumptions C19_batches.

Example C19_case : slowStartBatch 20 1 (fun _ => true) = (20, 20, false)%nat /\
  slowStartBatch 20 1 (fun i => negb (Nat.eqb i 4)) = (7, 6, true)%nat /\ slowStartBatch 20 1 (fun _ => false) = (1, 0, true)%nat.
Proof. vm_compute. repeat split. Qed.

(** C55, as far as it holds: every reconcile asks for the deletion of the failed machines and of those
    marked for deletion. Marked machines stay marked, so they are asked for again until a delete call
    succeeds. Missing: failed machines that are not marked, and surplus machines (refuted below). *)
Theorem C55_marked_retried_partial : forall api now w m, wf w -> w_cache w = w_machines w -> In m (w_machines w) -> m_deleting m = false ->
  m_phase m = "Failed" \/ m_prio m = "1" \/ m_trigger m = "true" ->
  exists m', In m' (w_machines (reconcileMachineSet api now w)) /\ m_id m' = m_id m /\ m_deleting m' = a_delete api (m_id m) /\
    m_prio m' = m_prio m /\ m_trigger m' = m_trigger m.
Proof. exact stale_retried. Qed.
Print Assumptions C55_marked_retried_partial.

(** C55 fails for surplus machines: the phase becomes Terminating even if the delete
    call failed. Then the machine no longer counts and is never asked to be deleted
    again, however many reconciles follow, unless its phase is changed from outside
    (e.g. by the health check of the machine controller). *)
Theorem C55_lost_deletion_refuted : exists w api, wf w /\ w_cache w = w_machines w /\
  nserving (w_machines w) = w_spec w + 1 /\
  let w1 := run w [OReconcile api 0; OObserve] in nserving (w_machines w1) = w_spec w1 /\
  forall l, Forall (fun o => (forall ph, o <> OPhase 0 ph) /\ (forall n, o = OScale n -> 0 <= n)) l ->
    exists m, In m (w_machines (run w1 l)) /\ m_id m = 0%nat /\ m_phase m = "Terminating" /\ m_deleting m = false.
Proof. exact lost_deletion. Qed.
Print Assumptions C55_lost_deletion_refuted.

(** C55 fails for failed machines in the same way. *)
Theorem C55_failed_forgotten_refuted : exists w api, wf w /\ w_cache w = w_machines w /\ map m_phase (w_machines w) = ["Failed"] /\
  let w1 := run w [OReconcile api 0; OObserve] in
  forall l, Forall (fun o => (forall ph, o <> OPhase 0 ph) /\ (forall n, o = OScale n -> 0 <= n)) l ->
    exists m, In m (w_machines (run w1 l)) /\ m_id m = 0%nat /\ m_phase m = "Terminating" /\ m_deleting m = false.
Proof.
  exists (mkW 1 false [mkMach 0 "" "" "Failed" 0 false] [mkMach 0 "" "" "Failed" 0 false] 1), (mkApi (fun _ => true) (fun _ => false) (fun _ => true)).
  split; [split; repeat constructor; simpl; intuition lia|]. split; [reflexivity|]. split; [reflexivity|]. cbv zeta. intros l HF.
  match goal with |- exists m, In m (w_machines (run ?w1 l)) /\ _ => destruct (lost_forever l 0 w1) as (m & Hm & Ei & H1 & H2 & _) end; [| | | | |exact HF|exists m; auto].
  - intros m [<-|[<-|[]]] Ei; [|discriminate]. repeat split; discriminate.
  - left. reflexivity.
  - reflexivity.
  - split; vm_compute; repeat constructor; simpl; intuition lia.
  - discriminate.
Qed.
Print Assumptions C55_failed_forgotten_refuted.

Example C55_case :
  let w := mkW 1 false [ms_run 0; mkMach 1 "1" "" "Running" 0 false] [ms_run 0; mkMach 1 "1" "" "Running" 0 false] 2 in
  wf w /\ map m_deleting (w_machines (reconcileMachineSet allok 0 w)) = [false; true].
Proof. split; [split; repeat constructor; simpl; intuition lia|reflexivity]. Qed.
