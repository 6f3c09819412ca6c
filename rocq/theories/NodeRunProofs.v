(* In every history of a machine the termination condition is set only when the
   phase is already Terminating. *)
Require Import List String Bool Arith ZArith.
From Verif Require Import MachModel LifeModel.
Import ListNotations.
Open Scope string_scope.

Fixpoint condOk (p : prog) : Prop :=
  match p with
  | Do c k => (forall m, c = CNodeCond m -> phase m = "Terminating") /\ forall r, condOk (k r)
  | _ => True
  end.

Lemma do_ok : forall c k, (forall m, c = CNodeCond m -> phase m = "Terminating") -> (forall r, condOk (k r)) -> condOk (Do c k).
Proof. intros c k A B. split; assumption. Qed.

Ltac cstep :=
  match goal with
  | |- True => exact I
  | |- condOk Done => exact I
  | |- condOk Panic => exact I
  | |- condOk (Do _ _) => apply do_ok; [intros ? ?; try discriminate|let r := fresh "r" in intros r; cbv beta]
  | |- condOk (match ?x with _ => _ end) => destruct x eqn:?
  | |- condOk (if ?x then _ else _) => destruct x eqn:?
  | |- condOk (let '(_, _) := ?x in _) => destruct x eqn:?
  end.

Lemma cond_update : forall m a b c d e f, condOk (statusUpdate m a b c d e f).
Proof. intros. unfold statusUpdate. repeat cstep.
Qed.

Ltac call := match goal with
  | |- condOk (statusUpdate _ _ _ _ _ _ _) => apply cond_update
  | |- condOk (deletionUpdate _ _ _ _ _) => unfold deletionUpdate; apply cond_update
  end.
Ltac go := repeat first [ call | cstep ].

Lemma cond_setTermination : forall m, condOk (setMachineTerminationStatus m).
Proof. intros. unfold setMachineTerminationStatus. go. Qed.

Lemma cond_runDrain : forall m f, condOk (runDrain m f).
Proof. intros. unfold runDrain. cbv zeta. go. Qed.

Lemma cond_drain : forall cf m, phase m = "Terminating" -> condOk (drainNode cf m).
Proof.
  intros cf m P. unfold drainNode. cbv zeta.
  repeat first [ call |  (match goal with |- condOk (runDrain _ _) => apply cond_runDrain end) | cstep ]. congruence.
Qed.

Lemma cond_label : forall m n, condOk (updateMachineNodeLabel m n).
Proof. intros. unfold updateMachineNodeLabel. go. Qed.

Lemma cond_trigger : forall cf m, condOk (triggerDeletionFlow cf m).
Proof.
  intros cf m. unfold triggerDeletionFlow. cstep; [exact I|].
  destruct (negb (String.eqb (phase m) "Terminating")) eqn:P; [apply cond_setTermination|].
  apply negb_false_iff in P. apply String.eqb_eq in P.
  destruct (contains GetVMStatus (desc m)).
  { unfold updateMachineStatusAndNodeLabel. cbv zeta. repeat first [ (match goal with |- condOk (updateMachineNodeLabel _ _) => apply cond_label end) | call | cstep ]. }
  destruct (contains InitiateDrain (desc m)); [apply cond_drain; exact P|].
  destruct (contains DelVolumesAttachments (desc m)); [unfold deleteNodeVolAttachments; cbv zeta; go|].
  destruct (contains InitiateVMDeletion (desc m)); [unfold deleteVM; cbv zeta; go|].
  destruct (contains InitiateNodeDeletion (desc m)); [unfold deleteNodeObject; cbv zeta; go|].
  destruct (contains InitiateFinalizerRemoval (desc m)); [unfold deleteMachineFinalizers; go|].
  apply cond_setTermination.
Qed.

Lemma cond_termination : forall cf m, condOk (reconcileTermination cf m).
Proof. intros. unfold reconcileTermination. repeat first [ (match goal with |- condOk (triggerDeletionFlow _ _) => apply cond_trigger end) | cstep]. Qed.

Lemma cond_createError : forall cf m l t, condOk (machineCreateErrorHandler cf m l t).
Proof. intros. unfold machineCreateErrorHandler. cbv zeta. go. Qed.

Lemma cond_init : forall cf m, condOk (initializeMachine cf m).
Proof. intros. unfold initializeMachine. cbv zeta. repeat first [ (match goal with |- condOk (machineCreateErrorHandler _ _ _ _) => apply cond_createError end) | call | cstep]. Qed.

Lemma cond_pending : forall m, condOk (setPending m).
Proof. intros. unfold setPending. cbv zeta. go. Qed.

Lemma cond_finish : forall cf m u n p, condOk (finishCreation cf m u n p).
Proof. intros. unfold finishCreation. cbv zeta. repeat first [ (match goal with |- condOk (machineCreateErrorHandler _ _ _ _) => apply cond_createError end) |  (match goal with |- condOk (setPending _) => apply cond_pending end) |  (match goal with |- condOk (initializeMachine _ _) => apply cond_init end) | call | cstep]. Qed.

Lemma cond_create : forall cf m, condOk (createVM cf m).
Proof. intros. unfold createVM. cbv zeta. repeat first [ (match goal with |- condOk (machineCreateErrorHandler _ _ _ _) => apply cond_createError end) |  (match goal with |- condOk (finishCreation _ _ _ _ _) => apply cond_finish end) |  (match goal with |- condOk (initializeMachine _ _) => apply cond_init end) | call | cstep]. Qed.

Lemma cond_creation : forall cf m, condOk (triggerCreationFlow cf m).
Proof. intros. unfold triggerCreationFlow. cbv zeta. repeat first [ (match goal with |- condOk (createVM _ _) => apply cond_create end) |  (match goal with |- condOk (machineCreateErrorHandler _ _ _ _) => apply cond_createError end) |  (match goal with |- condOk (finishCreation _ _ _ _ _) => apply cond_finish end) |  (match goal with |- condOk (initializeMachine _ _) => apply cond_init end) | call | cstep]. Qed.

Lemma cond_reconcile : forall cf m, condOk (reconcileMachine cf m).
Proof.
  intros. unfold reconcileMachine, healthThenCreate, creationIfNeeded. cbv zeta.
  repeat first [ (match goal with |- condOk (triggerCreationFlow _ _) => apply cond_creation end) | call | cstep].
Qed.

Definition condInv (w : World) : Prop :=
  (forall p, w_c w = Some p -> condOk p) /\ (forall p, w_t w = Some p -> condOk p) /\
  (forall who m r, In (who, CNodeCond m, r) (w_log w) -> phase m = "Terminating").

Lemma condInv_same : forall w w', condInv w -> w_c w' = w_c w -> w_t w' = w_t w -> w_log w' = w_log w -> condInv w'.
Proof. intros w w' H A B C. unfold condInv. rewrite A, B, C. exact H. Qed.

Lemma store_fields : forall w o n, w_c (store w o n) = w_c w /\ w_t (store w o n) = w_t w /\ w_log (store w o n) = w_log w.
Proof. intros. unfold store. destruct (MObj_eq_dec o n); auto. Qed.

Lemma condInv_store : forall w o n, condInv w -> condInv (store w o n).
Proof. intros w o n H. destruct (store_fields w o n) as (A & B & C). eapply condInv_same; eassumption. Qed.

Lemma apiWrite_fields : forall w g m f w' r, apiWrite w g m f = (w', r) ->
  w_c w' = w_c w /\ w_t w' = w_t w /\ w_log w' = w_log w.
Proof.
  intros w g m f w' r. unfold apiWrite. destruct f; destruct (accepted w g m) as [[o n]|]; intros E; injection E as <- <-; auto using store_fields.
Qed.

Lemma perform_inv : forall w who c r f vms w' r', condInv w -> (forall m, c = CNodeCond m -> phase m = "Terminating") ->
  perform w who c r f vms = (w', r') -> condInv w'.
Proof.
  intros w who c r f vms w' r' (A & B & C) P E. unfold perform in E.
  destruct (match c with CNow => _ | WMeta m => _ | WStatus m => _ | _ => _ end) as [w1 r1] eqn:Q.
  injection E as <- <-.
  assert (F : w_c w1 = w_c w /\ w_t w1 = w_t w /\ w_log w1 = w_log w).
  { destruct c; try (injection Q as <- _; auto); eapply apiWrite_fields; exact Q. }
  destruct F as (F1 & F2 & F3). unfold setLog, condInv. cbn [w_c w_t w_log]. rewrite F1, F2, F3.
  split; [exact A|]. split; [exact B|]. intros who0 m r0 [I|I]; [|eapply C; exact I].
  injection I as _ K _. apply P. exact K.
Qed.

Lemma condInv_step : forall cf op w, condInv w -> condInv (step cf w op).
Proof.
  intros cf op w H. destruct op; cbn [step].
  - destruct (w_obj w); [exact H|]. eapply condInv_same; [exact H| | |]; reflexivity.
  - destruct (w_obj w) as [o|]; [|exact H]. destruct (mo_dt o); [exact H|apply condInv_store; exact H].
  - destruct (w_obj w) as [o|]; [|exact H]. destruct (String.eqb k "node"); [exact H|apply condInv_store; exact H].
  - destruct (w_obj w); [apply condInv_store; exact H|exact H].
  - destruct (w_obj w); [apply condInv_store; exact H|exact H].
  - destruct (w_obj w); [apply condInv_store; exact H|exact H].
  - destruct (w_pend w); [exact H|]. eapply condInv_same; [exact H| | |]; reflexivity.
  - destruct (if t then w_t w else w_c w); [exact H|]. destruct (t && negb (w_tq w))%bool; [exact H|].
    unfold start. destruct (w_view w) as [m|].
    + destruct H as (A & B & C). destruct t.
      * split; [exact A|]. split; [|exact C]. intros p E. injection E as <-. apply cond_termination.
      * destruct (mo_dt m); [split; auto|]. split; [|split; [exact B|exact C]]. intros p E. injection E as <-. apply cond_reconcile.
    + destruct t; [|exact H]. eapply condInv_same; [exact H| | |]; reflexivity.
  - destruct (if t then w_t w else w_c w) as [p|] eqn:E; [|exact H].
    destruct H as (A & B & C).
    assert (P : condOk p) by (destruct t; [apply B|apply A]; exact E).
    destruct p as [| |c k].
    + destruct t; (split; [|split; [|exact C]]); cbn; auto; intros ? ?; discriminate.
    + split; [|split; [|exact C]]; cbn; intros ? ?; discriminate.
    + destruct P as [P1 P2].
      destruct (perform w (if t then QT else QC) c r f vms) as [w' r'] eqn:Q.
      apply perform_inv in Q; [|split; auto|exact P1]. destruct Q as (A' & B' & C').
      destruct t; (split; [|split; [|exact C']]); cbn; auto; intros p E2; injection E2 as <-; apply P2.
  - destruct (spared (w_view w) pid); [exact H|]. destruct H as (A & B & C). split; [exact A|]. split; [exact B|].
    cbn. intros who m r0 [I|I]; [discriminate|]. eapply C. exact I.
  - eapply condInv_same; [exact H| | |]; reflexivity.
  - eapply condInv_same; [exact H| | |]; reflexivity.
  - destruct H as (A & B & C). split; [|split; [|exact C]]; cbn; intros ? ?; discriminate.
Qed.

Lemma cond_phase : forall cf now ops who m r,
  In (who, CNodeCond m, r) (w_log (run cf (init now) ops)) -> phase m = "Terminating".
Proof.
  intros cf now ops.
  assert (G : condInv (run cf (init now) ops)).
  { unfold run. assert (I : condInv (init now)) by (split; [|split]; cbn; [discriminate|discriminate|tauto]).
    revert I. generalize (init now). induction ops as [|op ops IH]; intros w I; cbn; [exact I|].
    apply IH. apply condInv_step. exact I. }
  apply G.
Qed.
