(** Properties C74 to C77: which controllers an event wakes. *)
Require Import Coq.Lists.List Coq.Strings.String Coq.Bool.Bool Coq.Arith.PeanoNat.
From Verif Require Import EventModel EventSpec EventProofs.
Import ListNotations.
Open Scope string_scope.
Open Scope list_scope.

(** * C74 *)

(** C74. Full statement: a machine that comes, changes or goes wakes every MachineSet that
    controls or controlled it, and every one that may now adopt it. Missing: an adoption is
    noticed only if all selectors of the namespace are valid, and a lost machine only if it
    is not deleted at the same time; both are refuted below. *)
Theorem C74_machine_wakes_sets_partial : forall sets p e, uniqueKeys sets -> In p sets -> proper e ->
  (adopting p e -> validIn (eventNs e) sets) -> ~ hiddenMove e -> Concerns "MachineSet" p e ->
  In (QueueSet (pa_ns p) (pa_name p)) (machineEvent sets e).
Proof. exact machine_wakes. Qed.
Print Assumptions C74_machine_wakes_sets_partial.

(** C74: no other MachineSet is woken. *)
Theorem C74_no_others : forall sets e ns name, In (QueueSet ns name) (machineEvent sets e) ->
  exists p, In p sets /\ pa_ns p = ns /\ pa_name p = name /\
    match e with
    | Added o | Removed o _ => Controls "MachineSet" p o \/ (Orphan o /\ pa_ns p = ob_ns o /\ Selects p o)
    | Updated old cur => old <> cur /\ (Controls "MachineSet" p cur \/ Controls "MachineSet" p old \/ (Orphan cur /\ pa_ns p = ob_ns cur /\ Selects p cur))
    end.
Proof.
  intros sets e ns name H. destruct (machine_only sets e ns name H) as (p & I & E1 & E2 & R). exists p. do 3 (split; [assumption|]).
  destruct e; cbn in R; intuition.
Qed.
Print Assumptions C74_no_others.

(** Objects for the examples. *)
Definition setRef (name : string) (uid : nat) : Ref := mkRef "MachineSet" name uid true 0.
Definition blue : Labels -> bool := fun l => existsb (fun p => String.eqb (fst p) "pool" && String.eqb (snd p) "blue") l.
Definition sA : Parent := mkParent "ns" "a" 1 (SMatch blue) false.
Definition sB : Parent := mkParent "ns" "b" 2 (SMatch (fun _ => false)) false.
Definition sBad : Parent := mkParent "ns" "bad" 3 SInvalid false.
Definition mach (rv : nat) (l : Labels) (del : bool) (refs : list Ref) : Obj := mkObj "ns" "m" 9 rv l del refs.

Example C74_case :
  (let e := Updated (mach 1 [("pool", "blue")] false [setRef "b" 2]) (mach 2 [("pool", "blue")] false []) in
   uniqueKeys [sA; sB] /\ proper e /\ ~ hiddenMove e /\ Concerns "MachineSet" sA e /\ Concerns "MachineSet" sB e /\
   machineEvent [sA; sB] e = [QueueSet "ns" "b"; QueueSet "ns" "a"]) /\
  machineEvent [sA; sB] (Added (mach 1 [] false [setRef "b" 7])) = [QueueSafety] /\
  machineEvent [sA; sB] (Updated (mach 1 [("x", "y")] false []) (mach 1 [("pool", "blue")] false [])) = [].
Proof.
  split; [|split; reflexivity]. cbv zeta. split; [|split; [|split; [|split; [|split]]]].
  - unfold uniqueKeys. cbn. constructor; [|constructor; [intros []|constructor]]. intros [H|[]]. discriminate.
  - split; [reflexivity|]. split; [discriminate|]. discriminate.
  - intros (H & _). discriminate.
  - split; [discriminate|]. right. right. split.
    + split; [reflexivity|]. split; [intros r []|]. split; [reflexivity|]. split; [discriminate|]. exists blue. split; reflexivity.
    + intros (_ & H & _). specialize (H _ (or_introl eq_refl)). discriminate.
  - split; [discriminate|]. right. left. exists [], (setRef "b" 2), []. split; [reflexivity|]. split; [intros x []|]. repeat split; reflexivity.
  - reflexivity.
Qed.

(** Finding: one MachineSet with an invalid selector keeps all others of its namespace from
    noticing machines to adopt. *)
Theorem C74_invalid_selector_refuted : ~ (forall sets p e, uniqueKeys sets -> In p sets -> proper e -> ~ hiddenMove e ->
  Concerns "MachineSet" p e -> In (QueueSet (pa_ns p) (pa_name p)) (machineEvent sets e)).
Proof.
  intros H. specialize (H [sA; sBad] sA (Added (mach 1 [("pool", "blue")] false []))).
  destruct H as [H|[]]; [| |exact I|intros []| |discriminate H].
  - unfold uniqueKeys. cbn. constructor; [|constructor; [intros []|constructor]]. intros [H|[]]. discriminate.
  - left. reflexivity.
  - right. split; [reflexivity|]. split; [intros r []|]. split; [reflexivity|]. split; [discriminate|]. exists blue. split; reflexivity.
Qed.
Print Assumptions C74_invalid_selector_refuted.

(** Finding: a machine is released and deleted, and the informer reports both at once: the
    MachineSet that lost it is not woken. *)
Theorem C74_hidden_move_refuted : ~ (forall sets p e, uniqueKeys sets -> In p sets -> proper e ->
  (adopting p e -> validIn (eventNs e) sets) -> Concerns "MachineSet" p e ->
  In (QueueSet (pa_ns p) (pa_name p)) (machineEvent sets e)).
Proof.
  intros H. specialize (H [sA] sA (Updated (mach 1 [("pool", "red")] false [setRef "a" 1]) (mach 2 [("pool", "red")] true []))).
  destruct H; [| | |intros (H & _); discriminate H|].
  - unfold uniqueKeys. cbn. constructor; [intros []|constructor].
  - left. reflexivity.
  - split; [reflexivity|]. split; [discriminate|]. discriminate.
  - split; [discriminate|]. right. left. exists [], (setRef "a" 1), []. split; [reflexivity|]. split; [intros x []|]. repeat split; reflexivity.
Qed.
Print Assumptions C74_hidden_move_refuted.

(** * C75 *)

(** C75. Full statement: a MachineSet that comes, changes or goes wakes every
    MachineDeployment that controls or controlled it, and every one that may adopt it.
    Missing: the owner is read from the API server, and the statement needs that read to
    succeed; for adoption all selectors must be valid. *)
Theorem C75_set_wakes_deployments_partial : forall get get' deps p e,
  get (pa_ns p) (pa_name p) = Some p -> get' (pa_ns p) (pa_name p) = Some p ->
  In p deps -> proper e -> (adopting p e -> forall q, In q deps -> pa_sel q <> SInvalid) -> Concerns "MachineDeployment" p e ->
  In (QueueDep (pa_ns p) (pa_name p)) (setEvent get get' deps e).
Proof. exact set_wakes. Qed.
Print Assumptions C75_set_wakes_deployments_partial.

(** C75: no other deployment is woken; one of another namespace may be. *)
Theorem C75_no_others : forall live live' deps e ns name, In (QueueDep ns name) (setEvent (lookup live) (lookup live') deps e) ->
  exists p, (In p live \/ In p live' \/ In p deps) /\ pa_ns p = ns /\ pa_name p = name /\
    match e with
    | Added o | Removed o _ => Controls "MachineDeployment" p o \/ (Orphan o /\ Selects p o)
    | Updated old cur => old <> cur /\ (Controls "MachineDeployment" p cur \/ Controls "MachineDeployment" p old \/ (Orphan cur /\ Selects p cur))
    end.
Proof.
  intros live live' deps e ns name H. destruct (set_only live live' deps e ns name H) as (p & I & E1 & E2 & R). exists p. do 3 (split; [assumption|]).
  destruct e; cbn in R; intuition.
Qed.
Print Assumptions C75_no_others.

(** C75: every event of a MachineSet wakes the MachineSet itself. *)
Theorem C75_own_key : forall get get' deps e,
  In (match e with Added s | Removed s _ => QueueSet (ob_ns s) (ob_name s) | Updated _ s => QueueSet (ob_ns s) (ob_name s) end) (setEvent get get' deps e).
Proof. intros get get' deps [s|old s|s []]; cbn; auto. Qed.
Print Assumptions C75_own_key.

Definition depA : Parent := mkParent "ns" "d" 4 (SMatch blue) true.
Definition depRef : Ref := mkRef "MachineDeployment" "d" 4 true 0.
Definition mset (rv : nat) (refs : list Ref) : Obj := mkObj "ns" "a" 1 rv [("pool", "blue")] false refs.
Example C75_case :
  let e := Updated (mset 1 [mkRef "Foo" "x" 0 false 0; depRef]) (mset 2 [mkRef "Foo" "x" 0 false 0; depRef]) in
  Concerns "MachineDeployment" depA e /\ setEvent (lookup [depA]) (lookup [depA]) [depA] e = [QueueSet "ns" "a"; QueueDep "ns" "d"] /\
  setEvent (lookup [depA]) (lookup [depA]) [depA] (Added (mset 1 [])) = [QueueSet "ns" "a"; QueueDep "ns" "d"] /\
  setEvent (lookup [depA]) (lookup [depA]) [depA] (Removed (mset 1 [depRef]) true) = [QueueSet "ns" "a"; QueueDep "ns" "d"].
Proof.
  cbv zeta. split; [|repeat split; reflexivity]. split; [discriminate|]. left. exists [mkRef "Foo" "x" 0 false 0], depRef, [].
  split; [reflexivity|]. split; [intros x [<-|[]]; reflexivity|]. repeat split; reflexivity.
Qed.

(** Finding: the owner is read from the API server inside the handler; if that read fails,
    the event is lost and nothing repeats it. *)
Theorem C75_read_fails_refuted : ~ (forall get get' deps p e, In p deps -> proper e ->
  (forall ns name q, get ns name = Some q -> q = p) -> (adopting p e -> forall q, In q deps -> pa_sel q <> SInvalid) ->
  Concerns "MachineDeployment" p e -> In (QueueDep (pa_ns p) (pa_name p)) (setEvent get get' deps e)).
Proof.
  intros H. specialize (H (fun _ _ => None) (fun _ _ => None) [depA] depA (Updated (mset 1 [depRef]) (mset 2 [depRef]))).
  destruct H as [H|[]]; [left; reflexivity| |discriminate| | |discriminate H].
  - split; [reflexivity|]. split; [discriminate|]. discriminate.
  - intros _ q [<-|[]]. discriminate.
  - split; [discriminate|]. left. exists [], depRef, []. split; [reflexivity|]. split; [intros x []|]. repeat split; reflexivity.
Qed.
Print Assumptions C75_read_fails_refuted.

(** * C76 *)

(** C76. Full statement: when the last machine of a Recreate deployment is gone, the
    deployment is woken. Partial: the handler written for it does so (reads answered), but it is not
    the one registered, see below. *)
Theorem C76_last_machine_partial : forall v d s m (t : bool), uniqueKeys (vw_deps v) -> In d (vw_deps v) ->
  NoDup (map (fun x => (ob_ns x, ob_name x)) (vw_sets v)) -> In s (vw_sets v) ->
  Controls "MachineDeployment" d s ->
  (exists r, find rf_ctrl (ob_refs m) = Some r /\ rf_kind r = "MachineSet" /\ rf_name r = ob_name s /\ rf_uid r = ob_uid s) -> ob_ns m = ob_ns s ->
  pa_recreate d = true -> pa_sel d <> SInvalid ->
  (forall x y r, In x (vw_machines v) -> In y (vw_sets v) -> find rf_ctrl (ob_refs x) = Some r -> rf_uid r = ob_uid y ->
     forall r', find rf_ctrl (ob_refs y) = Some r' -> rf_uid r' <> pa_uid d) ->
  In (QueueDep (pa_ns d) (pa_name d)) (deleteMachineToMachineDeployment v (if t then DTomb m else DObj m)).
Proof. exact recreate_handler. Qed.
Print Assumptions C76_last_machine_partial.

(** The handler wakes only a Recreate deployment, and only if no machine is left that a set of
    the deployment controls and its selector picks. *)
Theorem C76_only_last : forall v x ns name,
  In (QueueDep ns name) (deleteMachineToMachineDeployment v x) ->
  exists d, In d (vw_deps v) /\ pa_ns d = ns /\ pa_name d = name /\ pa_recreate d = true /\
    forall m s r r', In m (vw_machines v) -> In s (vw_sets v) -> ob_ns s = pa_ns d ->
      find rf_ctrl (ob_refs s) = Some r -> rf_uid r = pa_uid d -> find rf_ctrl (ob_refs m) = Some r' -> rf_uid r' = ob_uid s ->
      match pa_sel d with SInvalid => False | SEmpty => False | SMatch f => f (ob_labels m) = false \/ f (ob_labels s) = false end.
Proof. exact recreate_only. Qed.
Print Assumptions C76_only_last.

Example C76_case :
  deleteMachineToMachineDeployment (mkView [mset 1 [depRef]] [depA] []) (DTomb (mach 1 [("pool", "blue")] true [setRef "a" 1])) = [QueueDep "ns" "d"] /\
  deleteMachineToMachineDeployment (mkView [mset 1 [depRef]] [depA] [mach 1 [("pool", "blue")] true [setRef "a" 1]])
    (DObj (mach 1 [("pool", "blue")] true [setRef "a" 1])) = [].
Proof. split; reflexivity. Qed.

(** Finding: the deletion of a machine never wakes a deployment: controller.go 122 registers
    the handler for deleted MachineDeployments, which drops machines. *)
Theorem C76_last_machine_refuted : forall sets x ns name, ~ In (QueueDep ns name) (onMachineDeleted sets x).
Proof.
  intros sets x ns name. unfold onMachineDeleted. rewrite in_app_iff. intros [H|H].
  - destruct x as [m|m|]; cbn [deleteMachineToMachineSet] in H; [| |contradiction];
      (destruct (GetControllerOf m); [|contradiction]; destruct (resolve _ _ _ _); [|contradiction]; destruct H as [H|[H|[]]]; discriminate).
  - destruct x; contradiction.
Qed.
Print Assumptions C76_last_machine_refuted.

(** * C77 *)

(** C77: creations are counted for the controlling set only, exactly when a machine that is not
    being deleted first appears. *)
Theorem C77_creations : forall sets e ns name, uniqueKeys sets ->
  (In (CreationSeen ns name) (machineEvent sets e) <->
   exists m p, e = Added m /\ ob_deleting m = false /\ In p sets /\ pa_ns p = ns /\ pa_name p = name /\ Controls "MachineSet" p m).
Proof. exact creation_seen. Qed.
Print Assumptions C77_creations.

(** C77: deletions are counted for a controlling set and a machine that is going or gone. *)
Theorem C77_deletions : forall sets e ns name k, uniqueKeys sets -> proper e ->
  In (DeletionSeen ns name k) (machineEvent sets e) ->
  exists m p, In p sets /\ pa_ns p = ns /\ pa_name p = name /\ ob_name m = k /\ Controls "MachineSet" p m /\
    (e = Added m /\ ob_deleting m = true \/ (exists t, e = Removed m t) \/
     exists old cur, e = Updated old cur /\ ob_deleting cur = true /\ (m = cur \/ m = old)).
Proof. exact deletion_seen. Qed.
Print Assumptions C77_deletions.

(** C77: and every machine that is going or gone is counted for the set that controls it. *)
Theorem C77_deletions_counted : forall sets p m e, uniqueKeys sets -> In p sets -> Controls "MachineSet" p m ->
  (e = Added m /\ ob_deleting m = true \/ (exists t, e = Removed m t) \/ (exists old, e = Updated old m /\ ob_rv old <> ob_rv m /\ ob_deleting m = true)) ->
  In (DeletionSeen (pa_ns p) (pa_name p) (ob_name m)) (machineEvent sets e).
Proof. exact deletion_counted. Qed.
Print Assumptions C77_deletions_counted.

Example C77_case :
  machineEvent [sA; sB] (Added (mach 1 [] false [setRef "b" 2])) = [CreationSeen "ns" "b"; QueueSet "ns" "b"; QueueSafety] /\
  machineEvent [sA; sB] (Updated (mach 1 [] false [setRef "b" 2]) (mach 2 [] true [setRef "b" 2])) = [DeletionSeen "ns" "b" "m"; QueueSet "ns" "b"] /\
  machineEvent [sA; sB] (Updated (mach 1 [] false [setRef "b" 2]) (mach 2 [] false [setRef "b" 2])) = [QueueSet "ns" "b"] /\
  machineEvent [sA; sB] (Added (mach 1 [] true [setRef "b" 2])) = [DeletionSeen "ns" "b" "m"; QueueSet "ns" "b"; QueueSafety].
Proof. repeat split; reflexivity. Qed.

(** Finding: a machine that is deleted before the informer has shown it never counts as
    created; its MachineSet waits until the expectation expires. *)
Theorem C77_creation_missed_refuted : ~ (forall sets p m, uniqueKeys sets -> In p sets -> Controls "MachineSet" p m ->
  In (CreationSeen (pa_ns p) (pa_name p)) (machineEvent sets (Added m))).
Proof.
  intros H. specialize (H [sA] sA (mach 1 [] true [setRef "a" 1])).
  destruct H as [H|[H|[H|[]]]]; [| | |discriminate H|discriminate H|discriminate H].
  - unfold uniqueKeys. cbn. constructor; [intros []|constructor].
  - left. reflexivity.
  - exists [], (setRef "a" 1), []. split; [reflexivity|]. split; [intros x []|]. repeat split; reflexivity.
Qed.
Print Assumptions C77_creation_missed_refuted.
