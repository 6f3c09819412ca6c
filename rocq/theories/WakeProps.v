(** C78-C81. Events of the machine controller. *)
Require Import Coq.ZArith.ZArith Coq.Lists.List Coq.Strings.String Coq.Bool.Bool Coq.Arith.PeanoNat.
From Verif Require Import MachModel HealthModel LifeModel PermitModel QueueModel QueueSpec QueueProofs WakeModel WakeSpec WakeProofs.
Import ListNotations.
Open Scope string_scope.
Open Scope list_scope.
Open Scope nat_scope.

(** C78. A node that is added wakes the one machine that runs on it exactly if its conditions
    differ from those the machine records, unless the machine is being terminated or its
    creation fails. Missing from the full statement: several machines with the same node
    ([C78_two_machines_refuted]), a request for deletion on the new node
    ([C78_trigger_on_add_refuted]). *)
Theorem C78_added_partial : forall machines n m, NoDup (map nc_type (wn_conds n)) -> managed n ->
  onlyOn machines (wn_name n) m ->
  wm_phase m <> "CrashLoopBackOff" -> wm_phase m <> "Terminating" ->
  (addNodeToMachine machines n = [] /\ agree (wm_conds m) (wn_conds n)) \/
  (addNodeToMachine machines n = [QueueMachine (wm_name m)] /\ ~ agree (wm_conds m) (wn_conds n)).
Proof.
  intros ms n m ND M O P1 P2. rewrite (add_node _ _ _ ND M O). apply String.eqb_neq in P1, P2. rewrite P1, P2. cbn [negb andb].
  destruct (nodeConditionsHaveChanged (wm_conds m) (wn_conds n)) eqn:E.
  - right. split; [reflexivity|]. rewrite <- (changed_spec _ _ ND), E. discriminate.
  - left. split; [reflexivity|]. apply (changed_spec _ _ ND), E.
Qed.
Print Assumptions C78_added_partial.

(** C78. A node that changes leads to a call to delete its machine exactly if it is annotated
    so and the machine is not being deleted yet.
    Partial: not when the node is first seen (C78_trigger_on_add_refuted). *)
Theorem C78_trigger_partial : forall machines machines' fails old n m, onlyOn machines (wn_name n) m ->
  forall name, In (DeleteCall name) (updateNodeToMachine machines machines' fails old n) <->
    name = wm_name m /\ toBeDeleted n /\ wm_deleting m = false.
Proof.
  intros ms ms' f old n m O name. unfold updateNodeToMachine. rewrite (get_only _ _ _ O). rewrite <- trigger_spec.
  assert (A : ~ In (DeleteCall name) (addNodeToMachine ms' n)).
  { unfold addNodeToMachine. destruct (annot _ n); [intros []|]. destruct (getMachineFromNode ms' (wn_name n)); [|intros []].
    destruct (_ && _); [|intros []]. intros [X | []]. discriminate. }
  assert (R : ~ In (DeleteCall name) (if addedOrRemovedEssentialTaints old n EssentialTaints then [QueueMachine (wm_name m)] else addNodeToMachine ms' n)).
  { destruct (addedOrRemovedEssentialTaints _ _ _); [intros [X | []]; discriminate | exact A]. }
  cbv zeta. destruct (match annot TriggerDeletionByMCM n with Some v => String.eqb v "true" | None => false end); cbn [andb].
  - destruct (wm_deleting m); cbn [negb].
    + split; [intros X; destruct (R X) | intros (_ & _ & X); discriminate].
    + split; [|intros (-> & _); left; reflexivity]. intros [X | X]; [injection X as <-; auto|]. destruct f; [destruct X | destruct (R X)].
  - split; [intros X; destruct (R X) | intros (_ & X & _); discriminate].
Qed.
Print Assumptions C78_trigger_partial.

(** C78. Unless a call to delete fails, the machine is woken if the taint for critical
    components comes or goes, or the conditions differ; otherwise it is left alone.
    Partial: one machine per node (C78_two_machines_refuted), and C78_delete_fails_refuted. *)
Theorem C78_updated_partial : forall machines fails old n m, NoDup (map nc_type (wn_conds n)) -> managed n ->
  onlyOn machines (wn_name n) m -> wm_phase m <> "CrashLoopBackOff" -> wm_phase m <> "Terminating" ->
  (fails = true -> ~ toBeDeleted n \/ wm_deleting m = true) ->
  forall name, In (QueueMachine name) (updateNodeToMachine machines machines fails old n) <->
    name = wm_name m /\ (taintFlips old n \/ ~ agree (wm_conds m) (wn_conds n)).
Proof.
  intros ms f old n m ND M O P1 P2 FL name. unfold updateNodeToMachine. rewrite (get_only _ _ _ O). cbv zeta.
  assert (R : In (QueueMachine name) (if addedOrRemovedEssentialTaints old n EssentialTaints then [QueueMachine (wm_name m)] else addNodeToMachine ms n) <->
      name = wm_name m /\ (taintFlips old n \/ ~ agree (wm_conds m) (wn_conds n))).
  { rewrite <- taint_spec. destruct (addedOrRemovedEssentialTaints _ _ _) eqn:T.
    - split; [intros [X | []]; injection X as <-; auto | intros (-> & _); left; reflexivity].
    - destruct (C78_added_partial ms n m ND M O P1 P2) as [(-> & A) | (-> & A)].
      + split; [intros [] | intros (_ & [X | X]); [discriminate | destruct (X A)]].
      + split; [intros [X | []]; injection X as <-; auto | intros (-> & _); left; reflexivity]. }
  pose proof (trigger_spec n) as TS.
  destruct (match annot TriggerDeletionByMCM n with Some v => String.eqb v "true" | None => false end); cbn [andb]; [|exact R].
  destruct (wm_deleting m) eqn:De; cbn [negb]; [exact R|].
  destruct f; [destruct (FL eq_refl) as [X | X]; [destruct (X (proj1 TS eq_refl)) | discriminate]|].
  split; [intros [X | X]; [discriminate | apply R, X] | intros X; right; apply R, X].
Qed.
Print Assumptions C78_updated_partial.

(** C78. A node that is deleted wakes its machine unless that is being deleted as well.
    Partial: one machine per node (C78_two_machines_refuted). *)
Theorem C78_deleted_partial : forall machines node m, onlyOn machines node m ->
  deleteNodeToMachine machines node = if wm_deleting m then [] else [QueueMachine (wm_name m)].
Proof. intros ms node m O. unfold deleteNodeToMachine. rewrite (get_only _ _ _ O). reflexivity. Qed.
Print Assumptions C78_deleted_partial.

(** C78. No event of a node reaches a machine that does not run on it. *)
Theorem C78_no_others : forall machines machines' fails old n name,
  (forall e, In e [QueueMachine name; DeleteCall name] ->
    In e (addNodeToMachine machines n) \/ In e (updateNodeToMachine machines machines' fails old n) \/
    In e (deleteNodeToMachine machines (wn_name n)) ->
    exists m, In m (machines ++ machines') /\ wm_name m = name /\ runsOn m (wn_name n)) /\
  (forall m, In (DeleteCall name) (updateNodeToMachine machines machines' fails old n) ->
     getMachineFromNode machines (wn_name n) = Some m -> wm_deleting m = false /\ toBeDeleted n).
Proof.
  intros ms ms' f old n name.
  assert (A : forall l e, In e [QueueMachine name; DeleteCall name] -> In e (addNodeToMachine l n) ->
    exists m, In m l /\ wm_name m = name /\ runsOn m (wn_name n)).
  { intros l e E. unfold addNodeToMachine. destruct (annot _ n); [intros []|].
    destruct (getMachineFromNode l (wn_name n)) as [m|] eqn:G; [|intros []]. apply get_some in G as (I & R).
    destruct (_ && _); [|intros []]. intros [<- | []]. destruct E as [X | [X | []]]; [injection X as ->|discriminate].
    exists m. auto. }
  split.
  - intros e E [H | [H | H]].
    + destruct (A _ _ E H) as (m & I & B). exists m. split; [apply in_or_app; auto | exact B].
    + unfold updateNodeToMachine in H. destruct (getMachineFromNode ms (wn_name n)) as [m|] eqn:G; [|destruct H].
      apply get_some in G as (I & R). cbv zeta in H.
      assert (S : forall b : bool, In e (if b then [QueueMachine (wm_name m)] else addNodeToMachine ms' n) ->
        exists m0, In m0 (ms ++ ms') /\ wm_name m0 = name /\ runsOn m0 (wn_name n)).
      { intros [|] X.
        - destruct X as [<- | []]. destruct E as [X | [X | []]]; [injection X as ->|discriminate]. exists m. split; [apply in_or_app; auto | auto].
        - destruct (A _ _ E X) as (m0 & I0 & B). exists m0. split; [apply in_or_app; auto | exact B]. }
      destruct (_ && negb (wm_deleting m)); [|apply (S _ H)].
      destruct H as [<- | H]; [|destruct f; [destruct H | apply (S _ H)]].
      destruct E as [X | [X | []]]; [discriminate | injection X as ->]. exists m. split; [apply in_or_app; auto | auto].
    + unfold deleteNodeToMachine in H. destruct (getMachineFromNode ms (wn_name n)) as [m|] eqn:G; [|destruct H].
      apply get_some in G as (I & R). destruct (wm_deleting m); [destruct H|]. destruct H as [<- | []].
      destruct E as [X | [X | []]]; [injection X as ->|discriminate]. exists m. split; [apply in_or_app; auto | auto].
  - intros m H G. unfold updateNodeToMachine in H. rewrite G in H. cbv zeta in H. rewrite <- trigger_spec.
    destruct (match annot TriggerDeletionByMCM n with Some v => String.eqb v "true" | None => false end); destruct (wm_deleting m); cbn [andb negb] in H; auto;
      exfalso; (destruct (addedOrRemovedEssentialTaints _ _ _); [destruct H as [H | []]; discriminate|]);
      unfold addNodeToMachine in H; (destruct (annot _ n); [destruct H|]); (destruct (getMachineFromNode ms' _); [|destruct H]);
      destruct (_ && _); destruct H as [H|[]] || destruct H; discriminate.
Qed.
Print Assumptions C78_no_others.

Definition cond (t v : string) : NCond := mkNCond t v "" "" 0%Z.
Definition m1 : WM := mkWM "m1" 1 false (Some "n1") "Running" [cond "Ready" "True"] "" "MachineClass" "c".
Definition m2 : WM := mkWM "m2" 1 false (Some "n2") "Running" [cond "Ready" "True"] "" "MachineClass" "c".
Definition n1 (annots : list (string * string)) (ready : string) : WN := mkWN "n1" annots ["other"] [cond "Ready" ready].

Example C78_case : onlyOn [m2; m1] "n1" m1 /\ managed (n1 [] "False") /\
  addNodeToMachine [m2; m1] (n1 [] "False") = [QueueMachine "m1"] /\
  updateNodeToMachine [m2; m1] [m2; m1] false (n1 [] "False") (n1 [("node.machine.sapcloud.io/trigger-deletion-by-mcm", "true")] "False") =
    [DeleteCall "m1"; QueueMachine "m1"] /\
  deleteNodeToMachine [m2; m1] "n1" = [QueueMachine "m1"].
Proof.
  split; [|split; [|repeat split]].
  - exists [m2], []. split; [reflexivity|]. split; [reflexivity|]. intros m' [<- | []]. discriminate.
  - intros v [].
Qed.

(** C78. The restriction to one machine per node is needed: with two, the deletion of their
    node wakes none of them. *)
Theorem C78_two_machines_refuted : ~ (forall machines node m, In m machines -> runsOn m node -> wm_deleting m = false ->
  In (QueueMachine (wm_name m)) (deleteNodeToMachine machines node)).
Proof. intros H. apply (H [m1; m1] "n1" m1); cbn; auto. reflexivity. Qed.
Print Assumptions C78_two_machines_refuted.

(** C78. A node that is seen for the first time with the request to delete it (e.g. annotated
    while the controller was down) does not lead to a deletion, before its next change. *)
Theorem C78_trigger_on_add_refuted : ~ (forall machines n m, onlyOn machines (wn_name n) m -> managed n -> toBeDeleted n ->
  wm_deleting m = false -> In (DeleteCall (wm_name m)) (addNodeToMachine machines n)).
Proof.
  intros H. specialize (H [m1] (n1 [("node.machine.sapcloud.io/trigger-deletion-by-mcm", "true")] "False") m1).
  cbn in H. destruct H as [H | []]; try discriminate.
  - exists [], []. split; [reflexivity|]. split; [reflexivity|]. intros m' [].
  - intros v [X | []]. discriminate.
  - exists [], []. split; [reflexivity|]. intros v' [].
  - reflexivity.
Qed.
Print Assumptions C78_trigger_on_add_refuted.

(** C78. When the call to delete fails, the machine is not woken though its node became not
    ready, and nothing else repeats the call before the next change of the node. *)
Theorem C78_delete_fails_refuted : ~ (forall machines old n m, onlyOn machines (wn_name n) m -> managed n ->
  wm_phase m = "Running" -> ~ agree (wm_conds m) (wn_conds n) ->
  In (QueueMachine (wm_name m)) (updateNodeToMachine machines machines true old n)).
Proof.
  intros H. specialize (H [m1] (n1 [] "True") (n1 [("node.machine.sapcloud.io/trigger-deletion-by-mcm", "true")] "False") m1).
  cbn in H. destruct H as [H | []]; try discriminate.
  - exists [], []. split; [reflexivity|]. split; [reflexivity|]. intros m' [].
  - intros v [X | []]. discriminate.
  - reflexivity.
  - intros A. destruct (A "Ready" "True") as (A1 & _).
    destruct A1 as (l1 & c & l2 & E & T & V & _). { exists [], (cond "Ready" "True"), []. repeat split; auto. }
    destruct l1 as [| y [| z l1]]; cbn in E; try discriminate. injection E as <- _. discriminate.
Qed.
Print Assumptions C78_delete_fails_refuted.

(** C79. Whatever the order of changes in the store, of notes handed to the handlers and of
    the steps of the workers, with failures or not: a machine in the store is not forgotten.
    If it is not being deleted, the machine queue has its key or will get it: now or later, by
    a worker that is busy with it and saw no machine being deleted, or by a note under way. If
    it is being deleted, the same holds of the termination queue. Missing from the full
    statement: replacement of a machine by another one of the same generation, see
    [C79_replaced_refuted]. *)
Theorem C79_not_forgotten_partial : forall workers ops k m, orderly (winit workers) ops ->
  let w := wrun (winit workers) ops in
  ww_cache w k = Some m ->
  if wm_deleting m
  then queued (ww_tq w) k \/ busy (ww_tq w) (ww_tread w) (fun _ => True) k \/ announced w k true
  else queued (ww_mq w) k \/ busy (ww_mq w) (ww_mread w) (fun x => wm_deleting x = false) k \/ announced w k false.
Proof.
  intros n ops k m O w C. pose proof (winv_run ops _ (winv_init n) O) as [_ _ _ L D]. fold w in L, D.
  destruct (wm_deleting m) eqn:E; [destruct (D k m C E) as [[X|X]|X] | destruct (L k m C E) as [[X|X]|X]]; auto.
Qed.
Print Assumptions C79_not_forgotten_partial.

(** C79. When all notes are delivered and the workers idle, each machine is in its queue.
    Partial: a machine replaced unseen is lost (C79_replaced_refuted). *)
Theorem C79_quiet_partial : forall workers ops k m, orderly (winit workers) ops ->
  let w := wrun (winit workers) ops in
  quiet w -> ww_cache w k = Some m -> queued (if wm_deleting m then ww_tq w else ww_mq w) k.
Proof.
  intros n ops k m O w (N & QM & QT) C. pose proof (C79_not_forgotten_partial n ops k m O C) as H. fold w in H.
  assert (A : forall d, ~ announced w k d). { intros d (x & _ & _ & [X | (o & X & _)]); rewrite N in X; destruct X. }
  destruct (wm_deleting m); destruct H as [H | [(i & W & _) | H]]; auto; exfalso;
    [apply (QT i k W) | apply (A true H) | apply (QM i k W) | apply (A false H)].
Qed.
Print Assumptions C79_quiet_partial.

(** C79. A key whose machine was not there when it was read leaves the queue. *)
Theorem C79_gone : forall w i k failed,
  (worksOn (ww_mq w) i k -> ww_mread w i = Some None ->
   q_later (ww_mq (wstep w (WFinishM i))) = q_later (ww_mq w) /\ q_dirty (ww_mq (wstep w (WFinishM i))) = q_dirty (ww_mq w)) /\
  (worksOn (ww_tq w) i k -> ww_tread w i = Some None ->
   q_later (ww_tq (wstep w (WFinishT i failed))) = q_later (ww_tq w) /\ q_dirty (ww_tq (wstep w (WFinishT i failed))) = q_dirty (ww_tq w)).
Proof.
  intros w i k failed. unfold worksOn. split; intros K R; cbn [wstep]; unfold keyOf; rewrite K, R; cbn [againM againT andb finish ww_mq ww_tq qstep];
    unfold finish; cbn [qstep andb]; rewrite ?andb_false_r, K; cbn; auto.
Qed.
Print Assumptions C79_gone.
Example C79_gone_case : let w := wrun (winit 1) [WStore m1; WDeliver; WGetM 0; WStore m2; WDrop "m1" false; WReadM 0] in
  ww_mread w 0 = Some None /\ worksOn (ww_mq w) 0 "m1" /\ q_later (ww_mq (wstep w (WFinishM 0))) = [].
Proof. repeat split. Qed.

Lemma idle q : q_workers q = [None] -> forall i k, ~ worksOn q i k.
Proof. intros E [| [| i]] k; unfold worksOn; rewrite E; discriminate. Qed.

Definition dead (m : WM) (gen : nat) : WM :=
  mkWM (wm_name m) gen true (wm_node m) (wm_phase m) (wm_conds m) (wm_desc m) (wm_kind m) (wm_class m).
(** The machine is worked on while its deletion is requested; the note comes after the work
    is done. The worker of the other queue fails. *)
Definition shift : list WOp :=
  [WStore m1; WDeliver; WStore m2; WGetM 0; WReadM 0; WStore (dead m1 2); WFinishM 0; WDeliver; WDeliver; WGetT 0; WReadT 0;
   WFinishT 0 true; WDueM 0; WGetM 0; WReadM 0; WFinishM 0; WGetM 0; WReadM 0; WFinishM 0].
Example C79_case : orderly (winit 1) shift /\ let w := wrun (winit 1) shift in
  quiet w /\ ww_cache w "m1" = Some (dead m1 2) /\ ww_cache w "m2" = Some m2 /\
  q_later (ww_tq w) = ["m1"; "m1"] /\ q_later (ww_mq w) = ["m2"].
Proof.
  split.
  - cbn. repeat split; intros old E; try discriminate; intros G; injection E as <-; discriminate.
  - cbv zeta. split; [|repeat split]. split; [reflexivity|]. split; apply idle; vm_compute; reflexivity.
Qed.

(** C79. While the watch is interrupted, a machine that is being deleted goes away and one of
    the same name is created and changed once; its generation is then 2, as that of the first
    one. The informer reports a change, which is skipped as a change of the status only, and
    the new machine stays out of the machine queue for good: no VM is ever created for it. *)
Definition swap : list WOp :=
  [WStore m1; WDeliver; WGetM 0; WReadM 0; WFinishM 0; WStore (dead m1 2); WDeliver; WDueM 0; WGetM 0; WReadM 0; WFinishM 0;
   WStore (mkWM "m1" 2 false None "" [] "" "MachineClass" "c"); WDeliver].
Theorem C79_replaced_refuted : ~ (forall workers ops k m, let w := wrun (winit workers) ops in
  quiet w -> ww_cache w k = Some m -> wm_deleting m = false -> queued (ww_mq w) k).
Proof.
  intros H. specialize (H 1 swap "m1" (mkWM "m1" 2 false None "" [] "" "MachineClass" "c")). cbv zeta in H.
  destruct H as [H | H]; try (exact H); try reflexivity.
  split; [reflexivity|]. split; apply idle; vm_compute; reflexivity.
Qed.
Print Assumptions C79_replaced_refuted.

(** C80. The deletion of a machine starts the pass for orphan VMs, queues the machine for
    termination and its class for a check of the finalizer; a description that comes to name
    the code OutOfRange starts the pass for orphan VMs as well. Missing: a deletion that the
    informer learns from a list, see [C80_panic_refuted] and [C80_class_missed_refuted]. *)
Theorem C80_deleted_partial : forall m, wm_kind m = "MachineClass" ->
  let es := onDelete (GObj m) in
  In QueueOrphans es /\ In (QueueTermination (wm_name m)) es /\ In (QueueClass (wm_class m)) es /\ ~ In Panics es.
Proof.
  intros m K. cbn. unfold machineToMachineClassAdd. rewrite K. cbn. repeat split; auto.
  intros [X | [X | [X | []]]]; discriminate.
Qed.
Print Assumptions C80_deleted_partial.

Theorem C80_out_of_range : forall old m,
  In QueueOrphans (onUpdate old m) <-> contains "OutOfRange" (wm_desc old) = false /\ contains "OutOfRange" (wm_desc m) = true.
Proof.
  intros old m. unfold onUpdate, updateMachine, updateMachineToSafety, addMachine. rewrite in_app_iff.
  destruct (contains "OutOfRange" (wm_desc old)), (contains "OutOfRange" (wm_desc m)), (Nat.eqb (wm_gen old) (wm_gen m)), (wm_deleting m);
    cbn [negb andb In]; intuition discriminate.
Qed.
Print Assumptions C80_out_of_range.

Example C80_case : onDelete (GObj m1) = [QueueClass "c"; QueueTermination "m1"; QueueOrphans] /\
  onUpdate m1 (mkWM "m1" 1 false (Some "n1") "Running" [] "machine codes error: code = [OutOfRange]" "MachineClass" "c") = [QueueOrphans].
Proof. split; reflexivity. Qed.

(** C80. A deletion that the informer learns from a list makes the controller panic. *)
Theorem C80_panic_refuted : ~ (forall g, ~ In Panics (onDelete g)).
Proof. intros H. apply (H (GTomb m1)). right. left. reflexivity. Qed.
Print Assumptions C80_panic_refuted.
Theorem C80_class_missed_refuted : ~ (forall m, wm_kind m = "MachineClass" -> In (QueueClass (wm_class m)) (onDelete (GTomb m))).
Proof. intros H. destruct (H m1 eq_refl) as [X | [X | []]]; discriminate. Qed.
Print Assumptions C80_class_missed_refuted.

(** C81. Two workers of the class queue never work on the same key. Missing from the full
    statement, and not true: they work on one class under its two keys, see
    [C81_class_twice_refuted]. *)
Theorem C81_one_worker_partial : forall workers ops i j k,
  let w := qrun DefaultMaxRetries (qinit workers) ops in worksOn w i k -> worksOn w j k -> i = j.
Proof. intros n ops i j k w. apply (z_one DefaultMaxRetries). apply inv_qrun, inv_qinit. Qed.
Print Assumptions C81_one_worker_partial.

(** C81. An event of the class and one of a machine of the class: two workers take it. *)
Definition twice : list QOp := [QAdd "ns/c"; QAdd "c"; QGet 0; QGet 1].
Theorem C81_class_twice_refuted : ~ (forall workers ns name ops i j k k',
  (forall op x, In op ops -> op = QAdd x -> In x (classKeys ns name)) ->
  let w := qrun DefaultMaxRetries (qinit workers) ops in
  worksOn w i k -> worksOn w j k' -> afterSlash k = afterSlash k' -> i = j).
Proof.
  intros H. specialize (H 2 "ns" "c" twice 0 1 "ns/c" "c").
  assert (X : 0 = 1); [|discriminate]. apply H; try reflexivity.
  intros op x I E. subst op. cbn in I. destruct I as [I | [I | [I | [I | []]]]]; try discriminate; injection I as <-; cbn; auto.
Qed.
Print Assumptions C81_class_twice_refuted.
Example C81_case : let w := qrun DefaultMaxRetries (qinit 2) twice in worksOn w 0 "ns/c" /\ worksOn w 1 "c" /\
  afterSlash "ns/c" = "c" /\ afterSlash "c" = "c".
Proof. repeat split. Qed.
