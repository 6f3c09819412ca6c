(** Proofs: when a machine is looked at again. *)
Require Import Coq.ZArith.ZArith Coq.Lists.List Coq.Strings.String Coq.Bool.Bool Coq.Arith.PeanoNat Coq.NArith.NArith Lia.
Require Import Coq.micromega.ZifyBool.
From Verif Require Import CodesModel MachModel LevModel HealthModel LifeModel TellSpec SoonModel SoonSpec.
Import ListNotations.
Open Scope string_scope.
Open Scope list_scope.
Open Scope Z_scope.

(** ** The calls are those of LifeModel. *)

Lemma same_written : forall r p, same p Done -> same (written r p) Done.
Proof. intros r p H. destruct r; cbn; try exact H; apply same_done. Qed.

Lemma same_status : forall m d c s t cur lks x f, same (rStatusUpdate m d c s t cur lks x f) (statusUpdate m d c s t cur lks).
Proof.
  intros. apply same_do. intros r. destruct r; try apply same_done.
  destruct (machineStatusUpdate _ _ _ _ _); [|apply same_done].
  apply same_do. intros r. apply same_written. apply same_done.
Qed.

Lemma same_del : forall m d s t lks x f, same (rDeletionUpdate m d s t lks x f) (deletionUpdate m d s t lks).
Proof. intros. apply same_status. Qed.

Lemma same_term : forall m, same (rSetMachineTerminationStatus m) (setMachineTerminationStatus m).
Proof.
  intros. apply same_do. intros r. destruct r; try apply same_done.
  apply same_do. intros r. apply same_written. apply same_done.
Qed.

Lemma same_label : forall m n, same (rUpdateMachineNodeLabel m n) (updateMachineNodeLabel m n).
Proof. intros. apply same_do. intros r. destruct r; try apply same_done. apply same_del. Qed.

Lemma same_get : forall m, same (rUpdateMachineStatusAndNodeLabel m) (updateMachineStatusAndNodeLabel m).
Proof.
  intros. unfold rUpdateMachineStatusAndNodeLabel, updateMachineStatusAndNodeLabel.
  destruct (negb _); [apply same_del|]. apply same_do. intros r.
  destruct r; try apply same_label;
    (apply same_do; intros r; destruct r; try apply same_done; try apply same_label;
     destruct (statusFailure _); apply same_del).
Qed.

Lemma same_rundrain : forall m f, same (rRunDrain m f) (runDrain m f).
Proof. intros. apply same_do. intros r. destruct r; try apply same_done; destruct f; apply same_del. Qed.

Lemma same_drain : forall cf m, same (rDrainNode cf m) (drainNode cf m).
Proof.
  intros. unfold rDrainNode, drainNode. destruct (String.eqb _ _); [apply same_del|].
  apply same_do. intros r. destruct r; try apply same_done. destruct (mo_dt m); [|apply same_panic].
  cbv zeta. apply same_do. intros r. destruct r; try apply same_done; [apply same_rundrain|].
  destruct (_ || _); [apply same_rundrain|apply same_del].
Qed.

Lemma same_vols : forall m, same (rDeleteNodeVolAttachments m) (deleteNodeVolAttachments m).
Proof.
  intros. apply same_do. intros r. destruct r as [| | |[]| | | | | |]; try apply same_done; try apply same_del.
  apply same_do. intros r. destruct r as [| | |[]| | | | | |]; try apply same_done; try apply same_del.
  apply same_do. intros r. apply same_done.
Qed.

Lemma same_vm : forall m, same (rDeleteVM m) (deleteVM m).
Proof.
  intros. apply same_do. intros r. destruct r; try apply same_done; try apply same_del.
  destruct (deleteFailure _). apply same_del.
Qed.

Lemma same_node : forall m, same (rDeleteNodeObject m) (deleteNodeObject m).
Proof.
  intros. unfold rDeleteNodeObject, deleteNodeObject. cbv zeta. destruct (negb _); [|apply same_del].
  apply same_do. intros r. destruct r; try apply same_done; apply same_del.
Qed.

Lemma same_fin : forall m, same (rDeleteMachineFinalizers m) (deleteMachineFinalizers m).
Proof.
  intros. unfold rDeleteMachineFinalizers, deleteMachineFinalizers. destruct (hasFin m); [|apply same_done].
  apply same_do. intros r. destruct r; apply same_done.
Qed.

Lemma same_termination : forall cf m, same (rReconcileTermination cf m) (reconcileTermination cf m).
Proof.
  intros. apply same_do. intros r. destruct r; try apply same_done.
  unfold rTriggerDeletionFlow, triggerDeletionFlow.
  destruct (negb (hasFin m)); [apply same_done|].
  destruct (negb _); [apply same_term|].
  repeat match goal with |- same (if ?b then _ else _) _ => destruct b end;
    auto using same_get, same_drain, same_vols, same_vm, same_node, same_fin, same_term.
Qed.

Lemma same_init : forall cf m, same (rInitializeMachine cf m) (initializeMachine cf m).
Proof.
  intros. apply same_do. intros r. destruct r; try apply same_done.
  destruct (FromError text) as [st ok]. destruct (negb ok); [apply same_done|].
  destruct (N.eqb _ _); [apply same_done|apply same_status].
Qed.

Lemma same_pending : forall m, same (rSetPending m) (setPending m).
Proof.
  intros. unfold rSetPending, setPending. destruct (_ || _); [|apply same_done].
  apply same_do. intros r. destruct r; try apply same_done. apply same_do. intros r. apply same_done.
Qed.

Lemma same_finish : forall cf m u n p, same (rFinishCreation cf m u n p) (finishCreation cf m u n p).
Proof.
  intros. unfold rFinishCreation, finishCreation. destruct (_ || _).
  - apply same_do. intros r. destruct r; destruct u; try apply same_done; apply same_init.
  - destruct u; [apply same_init|apply same_pending].
Qed.

Lemma same_handler : forall cf m l e, same (rMachineCreateErrorHandler cf m l e) (machineCreateErrorHandler cf m l e).
Proof. intros. apply same_status. Qed.

Lemma same_create : forall cf m, same (rCreateVM cf m) (createVM cf m).
Proof.
  intros. apply same_do. intros r. destruct r; try apply same_done; try apply same_handler.
  apply same_do. intros r. destruct r; try apply same_done.
  destruct (_ && _); [|apply same_finish].
  apply same_do. intros r. apply same_status.
Qed.

Lemma same_creation : forall cf m, same (rCreationIfNeeded cf m) (creationIfNeeded cf m).
Proof.
  intros. unfold rCreationIfNeeded, creationIfNeeded. destruct (_ || _); [|apply same_done].
  apply same_do. intros r. destruct r; try apply same_done.
  apply same_do. intros r. destruct r; try apply same_done; try apply same_finish.
  destruct (FromError text) as [st ok]. destruct (negb ok); [apply same_done|].
  destruct (_ || _).
  - destruct (has _ _); [apply same_finish|apply same_create].
  - destruct (N.eqb _ _); [|apply same_handler].
    destruct resp as [[[a b] c]|]; [apply same_finish|apply same_panic].
Qed.

Lemma same_health : forall cf m, same (rHealthThenCreate cf m) (healthThenCreate cf m).
Proof.
  intros. unfold rHealthThenCreate, healthThenCreate. cbv zeta.
  assert (G : same (RDo (CSync m) (fun r => match r with RUnit => rCreationIfNeeded cf m | _ => written r (RDone ShortRetry true) end))
                (Do (CSync m) (fun r => match r with RUnit => creationIfNeeded cf m | _ => Done end))).
  { apply same_do. intros r. destruct r; try apply same_done. apply same_creation. }
  apply same_do. intros r. destruct r; try apply same_done.
  apply same_do. intros r. destruct r; try apply same_done.
  destruct (reconcileMachineHealth _ _ _ _ _ _ _).
  - apply same_done.
  - apply same_do. intros r. apply same_written. apply same_done.
  - apply same_do. intros r. destruct r as [| | |[]| | | | | |]; try apply same_done.
    apply same_do. intros r. destruct r; try apply same_done. exact G.
  - apply same_later. exact G.
  - exact G.
Qed.

Lemma same_machine : forall cf m, same (rReconcileMachine cf m) (reconcileMachine cf m).
Proof.
  intros. apply same_do. intros r. destruct r as [| | |[]| | | | | |]; try apply same_done.
  apply same_do. intros r. destruct r; try apply same_done.
  destruct (negb (hasFin m)).
  - apply same_do. intros r. apply same_done.
  - destruct (_ && _); [apply same_health|apply same_creation].
Qed.

(** ** The periods. *)

(** All results of a reconcile, for answers that are [ok]. *)
Inductive ends (ok : Call -> Reply -> Prop) (Q : Z -> bool -> Prop) : rprog -> Prop :=
| ends_done : forall d f, Q d f -> ends ok Q (RDone d f)
| ends_panic : ends ok Q RPanic
| ends_later : forall d p, 0 < d <= 60000 -> ends ok Q p -> ends ok Q (RLater d p)
| ends_do : forall c k, (forall r, ok c r -> ends ok Q (k r)) -> ends ok Q (RDo c k).

Lemma ends_returns : forall ok Q p d f, ends ok Q p -> returns ok p d f -> Q d f.
Proof.
  intros ok Q p d f E R. induction R.
  - now inversion E.
  - inversion E; subst; auto.
  - inversion E; subst; auto.
Qed.

Definition inM (d : Z) : Prop := d = 200 \/ d = 5000 \/ d = 180000 \/ d = 600000.
Definition inT (m : MObj) (d : Z) : Prop := (d = 0 /\ contains DelVolumesAttachments (desc m) = true) \/ inM d.

Lemma ends_written : forall ok (Q : Z -> bool -> Prop) r p, Q 200 true -> Q 5000 true -> ends ok Q p -> ends ok Q (written r p).
Proof. intros ok Q r p A B H. destruct r; cbn; try exact H. apply ends_done. destruct (isConflict text); assumption. Qed.

Lemma ends_status : forall ok (Q : Z -> bool -> Prop) m d c s t cur lks x f, Q 200 true -> Q 5000 true -> Q x f ->
  ends ok Q (rStatusUpdate m d c s t cur lks x f).
Proof.
  intros ok Q m d c s t cur lks x f A B C. apply ends_do. intros r _. destruct r; try (apply ends_done; exact B).
  destruct (machineStatusUpdate _ _ _ _ _); [|apply ends_done; exact C].
  apply ends_do. intros r _. apply ends_written; auto. apply ends_done; exact C.
Qed.

Lemma inM_status : forall e, inM (statusRetry e).
Proof.
  intros e. unfold statusRetry. destruct (FromError e) as [st ok]. unfold inM.
  destruct (negb ok); [right; right; right; reflexivity|]. destruct (_ || _); [right; left; reflexivity|right; right; left; reflexivity].
Qed.
Lemma inM_delete : forall e, inM (deleteRetry e).
Proof. intros e. unfold deleteRetry. destruct (FromError e) as [st ok]. unfold inM. destruct (_ && _); [right; left; reflexivity|right; right; right; reflexivity]. Qed.
Lemma inM_create : forall e, inM (createRetry e).
Proof. intros e. unfold createRetry. destruct (FromError e) as [st ok]. unfold inM. destruct (_ && _); [right; left; reflexivity|right; right; left; reflexivity]. Qed.

Definition QM (d : Z) (f : bool) : Prop := inM d.
Definition QT (m : MObj) (d : Z) (f : bool) : Prop := inT m d.

Lemma m200 : inM 200. Proof. left; reflexivity. Qed.
Lemma m5 : inM 5000. Proof. right; left; reflexivity. Qed.
Lemma m180 : inM 180000. Proof. right; right; left; reflexivity. Qed.
Lemma m600 : inM 600000. Proof. right; right; right; reflexivity. Qed.
Lemma mT : forall m d, inM d -> inT m d. Proof. intros m d H; right; exact H. Qed.

Ltac per := first [exact m5 | exact m200 | exact m180 | exact m600 | left; split; [reflexivity|assumption] | apply mT; per | apply inM_status | apply inM_delete | apply inM_create].
Ltac fin := first [apply ends_done; per | apply ends_status; per | exact (ends_panic _ _)].

Lemma ends_init : forall cf m, ends any QM (rInitializeMachine cf m).
Proof.
  intros. apply ends_do. intros r _. destruct r; try fin.
  destruct (FromError text) as [st ok]. destruct (negb ok); [fin|]. destruct (N.eqb _ _); fin.
Qed.

Lemma ends_finish : forall cf m u n p, ends any QM (rFinishCreation cf m u n p).
Proof.
  intros. unfold rFinishCreation. destruct (_ || _).
  - apply ends_do. intros r _. destruct r; destruct u; try fin; apply ends_init.
  - destruct u; [apply ends_init|]. unfold rSetPending. destruct (_ || _); [|fin].
    apply ends_do. intros r _. destruct r; try fin. apply ends_do. intros r _. fin.
Qed.

Lemma ends_create : forall cf m, ends any QM (rCreateVM cf m).
Proof.
  intros. apply ends_do. intros r _. destruct r; try fin.
  apply ends_do. intros r _. destruct r; try fin.
  destruct (_ && _); [|apply ends_finish]. apply ends_do. intros r _. fin.
Qed.

Lemma ends_creation : forall cf m, ends any QM (rCreationIfNeeded cf m).
Proof.
  intros. unfold rCreationIfNeeded. destruct (_ || _); [|fin].
  apply ends_do. intros r _. destruct r; try fin. apply ends_do. intros r _. destruct r; try fin; try apply ends_finish.
  destruct (FromError text) as [st ok]. destruct (negb ok); [fin|]. destruct (_ || _).
  - destruct (has _ _); [apply ends_finish|apply ends_create].
  - destruct (N.eqb _ _); [|fin]. destruct resp as [[[a b] c]|]; [apply ends_finish|fin].
Qed.

Lemma ends_go : forall cf m, ends any QM (RDo (CSync m) (fun r => match r with RUnit => rCreationIfNeeded cf m | _ => written r (RDone ShortRetry true) end)).
Proof.
  intros. apply ends_do. intros r _. destruct r; try (apply ends_written; [per|per|fin]). apply ends_creation.
Qed.

Lemma ends_machine : forall cf m, ends any QM (rReconcileMachine cf m).
Proof.
  intros. apply ends_do. intros r _. destruct r as [| | |[]| | | | | |]; try fin.
  apply ends_do. intros r _. destruct r; try fin.
  destruct (negb (hasFin m)); [apply ends_do; intros r _; fin|].
  destruct (_ && _); [|apply ends_creation].
  apply ends_do. intros r _. destruct r; try fin. apply ends_do. intros r _. destruct r; try fin.
  destruct (reconcileMachineHealth _ _ _ _ _ _ _).
  - fin.
  - apply ends_do. intros r _. apply ends_written; [per|per|fin].
  - apply ends_do. intros r _. destruct r as [| | |[]| | | | | |]; try fin.
    apply ends_do. intros r _. destruct r; try fin. apply ends_go.
  - apply ends_later; [unfold sleepTime; lia|]. apply ends_go.
  - apply ends_go.
Qed.

Lemma ends_termination : forall cf m, ends any (QT m) (rReconcileTermination cf m).
Proof.
  intros. apply ends_do. intros r _. destruct r; try fin.
  unfold rTriggerDeletionFlow. destruct (negb (hasFin m)); [fin|].
  assert (T : ends any (QT m) (rSetMachineTerminationStatus m)).
  { apply ends_do. intros r _. destruct r; try fin. apply ends_do. intros r _. apply ends_written; [per|per|fin]. }
  destruct (negb _); [exact T|].
  destruct (contains _ _).
  { unfold rUpdateMachineStatusAndNodeLabel. destruct (negb _); [fin|].
    assert (L : forall n, ends any (QT m) (rUpdateMachineNodeLabel m n)).
    { intros n. apply ends_do. intros r _. destruct r; fin. }
    apply ends_do. intros r _.
    destruct r; try apply L;
      (apply ends_do; intros r _; destruct r; try fin; try apply L; destruct (statusFailure _); fin). }
  destruct (contains _ _).
  { unfold rDrainNode. destruct (String.eqb _ _); [fin|].
    assert (R : forall f, ends any (QT m) (rRunDrain m f)).
    { intros f. apply ends_do. intros r _. destruct r; try fin; destruct f; fin. }
    apply ends_do. intros r _. destruct r; try fin. destruct (mo_dt m); [|fin]. cbv zeta.
    apply ends_do. intros r _. destruct r; try fin; [apply R|]. destruct (_ || _); [apply R|fin]. }
  destruct (contains DelVolumesAttachments _) eqn:CV.
  { apply ends_do. intros r _. destruct r as [| | |[]| | | | | |]; try fin.
    apply ends_do. intros r _. destruct r as [| | |[]| | | | | |]; try fin. apply ends_do. intros r _. fin. }
  destruct (contains InitiateVMDeletion _).
  { apply ends_do. intros r _. destruct r; try fin. destruct (deleteFailure _). fin. }
  destruct (contains InitiateNodeDeletion _).
  { unfold rDeleteNodeObject. cbv zeta. destruct (negb _); [|fin]. apply ends_do. intros r _. destruct r; fin. }
  destruct (contains InitiateFinalizerRemoval _); [|exact T].
  unfold rDeleteMachineFinalizers. destruct (hasFin m); [|fin]. apply ends_do. intros r _. destruct r; fin.
Qed.

(** ** No machine is left alone. *)

Definition soon (b : Z) (w : ZW) : Prop := z_queued w = true \/ exists u, z_due w = Some u /\ u <= b.

Lemma soon_le : forall a b w, a <= b -> soon a w -> soon b w.
Proof. intros a b w L [Q|[u [E H]]]; [now left|right; exists u; split; [exact E|lia]]. Qed.

Lemma add_queued : forall w, z_queued (zAdd w) = true.
Proof. intros w. unfold zAdd. destruct (z_queued w) eqn:E; [exact E|reflexivity]. Qed.
Lemma add_due : forall w, z_due (zAdd w) = z_due w.
Proof. intros w. unfold zAdd. destruct (z_queued w); reflexivity. Qed.

Lemma soon_new : forall d b w, z_now w + d <= b -> soon b (zAfter d w).
Proof.
  intros d b w L. unfold zAfter. destruct (d <=? 0); [left; apply add_queued|].
  right. eexists. split; [reflexivity|]. cbn. destruct (z_due w); lia.
Qed.

Lemma soon_after : forall d b w, soon b w -> soon b (zAfter d w).
Proof.
  intros d b w S. unfold zAfter. destruct (d <=? 0); [left; apply add_queued|].
  destruct S as [Q|[u [E L]]]; [now left|]. right. eexists. split; [reflexivity|]. cbn. rewrite E. lia.
Qed.

Lemma soon_worker : forall f l b w, soon b w -> soon b (zWorker f l w).
Proof.
  intros f l b w S. unfold zWorker. destruct (negb f); [exact S|]. destruct (_ <? _)%nat; [|exact S].
  exact (soon_after l b w S).
Qed.

Lemma soon_tick : forall d b w, soon b w -> soon b (zTick d w).
Proof.
  intros d b w [Q|[u [E L]]]; unfold zTick; cbv zeta.
  - left. cbn. rewrite Q. reflexivity.
  - rewrite E. destruct (u <=? _) eqn:X; [left; cbn; apply orb_true_r|].
    right. exists u. cbn. split; [reflexivity|exact L].
Qed.

Lemma soon_add : forall b w, soon b w -> soon b (zAdd w).
Proof. intros b w _. left. apply add_queued. Qed.

Lemma after_keeps : forall d w,
  z_now (zAfter d w) = z_now w /\ z_view (zAfter d w) = z_view w /\ z_run (zAfter d w) = z_run w /\ z_dead (zAfter d w) = z_dead w /\
  z_began (zAfter d w) = z_began w /\ z_end (zAfter d w) = z_end w /\ z_gone (zAfter d w) = z_gone w /\ z_log (zAfter d w) = z_log w.
Proof. intros d w. unfold zAfter, zAdd. destruct (d <=? 0); [destruct (z_queued w)|]; cbn; repeat split. Qed.

Lemma worker_keeps : forall f l w,
  z_now (zWorker f l w) = z_now w /\ z_view (zWorker f l w) = z_view w /\ z_run (zWorker f l w) = z_run w /\ z_dead (zWorker f l w) = z_dead w /\
  z_began (zWorker f l w) = z_began w /\ z_end (zWorker f l w) = z_end w /\ z_gone (zWorker f l w) = z_gone w /\ z_log (zWorker f l w) = z_log w.
Proof.
  intros f l w. unfold zWorker. destruct (negb f); [repeat split|]. destruct (_ <? _)%nat; [|repeat split].
  exact (after_keeps l w).
Qed.

(** Entries of the heap lie in the future. *)
Definition ahead (w : ZW) : Prop := forall u, z_due w = Some u -> z_now w < u.

Lemma ahead_after : forall d w, ahead w -> ahead (zAfter d w).
Proof.
  intros d w A u. unfold zAfter. destruct (d <=? 0) eqn:X.
  - rewrite add_due. intros E. unfold zAdd. destruct (z_queued w); cbn; exact (A u E).
  - cbn. intros E. injection E as <-. destruct (z_due w) as [v|] eqn:V; [specialize (A v V)|]; lia.
Qed.

Lemma ahead_worker : forall f l w, ahead w -> ahead (zWorker f l w).
Proof.
  intros f l w A. unfold zWorker. destruct (negb f); [exact A|]. destruct (_ <? _)%nat; [|exact A].
  exact (ahead_after l w A).
Qed.

Lemma ahead_tick : forall d w, ahead w -> ahead (zTick d w).
Proof.
  intros d w A u. unfold zTick. cbv zeta. cbn. destruct (z_due w) as [v|]; [|discriminate].
  destruct (v <=? _) eqn:X; [discriminate|]. intros E. injection E as <-. lia.
Qed.

Definition QB (d : Z) (f : bool) : Prop := d <= 600000.

Lemma ends_weaken : forall ok (Q Q' : Z -> bool -> Prop) p, (forall d f, Q d f -> Q' d f) -> ends ok Q p -> ends ok Q' p.
Proof. intros ok Q Q' p H E. induction E; [apply ends_done|apply ends_panic|apply ends_later|apply ends_do]; auto. Qed.

Lemma ends_bound_m : forall cf m, ends any QB (rReconcileMachine cf m).
Proof. intros. apply ends_weaken with (Q := QM); [|apply ends_machine]. unfold QM, QB, inM. intros; lia. Qed.
Lemma ends_bound_t : forall cf m, ends any QB (rReconcileTermination cf m).
Proof. intros. apply ends_weaken with (Q := QT m); [|apply ends_termination]. unfold QT, QB, inT, inM. intros; lia. Qed.

Record Inv (w : ZW) : Prop := mkInv {
  i_ahead : ahead w;
  i_run : forall p, z_run w = Some p -> ends any QB p;
  i_idle : z_run w = None -> z_dead w = false -> z_gone w = false -> soon (z_end w + 600000) w;
  i_end : z_end w <= z_now w;
  i_began : z_began w <= z_now w }.

Lemma inv_init : forall t v, Inv (zinit t v).
Proof. intros t v. split; cbn; try lia; try discriminate. intros _ _ _. now left. Qed.

Lemma inv_step : forall cf t w op, Inv w -> Inv (zstep cf t w op).
Proof.
  intros cf t w op [A R I E B]. unfold zstep. destruct (z_dead w) eqn:D; [split; auto; rewrite D; discriminate|].
  destruct op as [d|v| | |r lim].
  - split.
    + apply ahead_tick, A.
    + exact R.
    + intros N _ G. apply soon_tick. apply I; auto.
    + cbn. lia.
    + cbn. lia.
  - split; auto.
  - unfold zAdd. destruct (z_queued w) eqn:Q; split; auto. intros _ _ _. now left.
  - unfold zStart. destruct (z_run w) as [p|] eqn:N; [split; auto; rewrite N; auto|].
    destruct (z_queued w) eqn:Q; [|split; auto; rewrite N; auto].
    destruct (z_view w) as [m|] eqn:V.
    2:{ split; cbn; try lia; try discriminate. exact A. }
    destruct t.
    + split; cbn; try lia; try discriminate; [exact A|]. intros p X. injection X as <-. apply ends_bound_t.
    + destruct (mo_dt m).
      * split; cbn; try lia; try discriminate. exact A.
      * split; cbn; try lia; try discriminate; [exact A|]. intros p X. injection X as <-. apply ends_bound_m.
  - unfold zStep. destruct (z_run w) as [p|] eqn:N; [|split; auto; rewrite N; auto].
    specialize (R p eq_refl). destruct p as [x f| |x p|c k].
    + inversion R as [d' f' QQ| | |]; subst. unfold QB in QQ. unfold zFinish.
      destruct (worker_keeps (t && f) lim (zAfter x w)) as [W1 [_ [_ [_ [W5 _]]]]].
      destruct (after_keeps x w) as [F1 [_ [_ [_ [F5 _]]]]].
      split.
      * intros u H. cbn in H |- *. revert u H. exact (ahead_worker _ _ _ (ahead_after _ _ A)).
      * cbn. discriminate.
      * intros _ _ _. cbn. rewrite W1, F1.
        assert (S : soon (z_now w + 600000) (zWorker (t && f) lim (zAfter x w))).
        { apply soon_worker. apply soon_new. lia. }
        exact S.
      * cbn. lia.
      * cbn. rewrite W5, F5, W1, F1. exact B.
    + split; cbn; try lia; try discriminate. exact A.
    + inversion R as [| |d' p' L EP|]; subst.
      destruct (after_keeps x w) as [F1 [_ [_ [_ [F5 [F6 _]]]]]].
      split; cbn.
      * exact (ahead_after _ _ A).
      * intros q X. injection X as <-. exact EP.
      * discriminate.
      * rewrite F1, F6. exact E.
      * rewrite F1, F5. exact B.
    + inversion R as [| | |c' k' H]; subst. split; cbn; try lia; try discriminate; [exact A|].
      intros q X. injection X as <-. apply H. exact Logic.I.
Qed.

Lemma inv_run : forall cf t ops w, Inv w -> Inv (zrun cf t w ops).
Proof. intros cf t. induction ops as [|op ops IH]; intros w H; [exact H|]. apply IH. apply inv_step, H. Qed.

Lemma not_left : forall cf t now v ops w, w = zrun cf t (zinit now v) ops ->
  z_dead w = false -> z_run w = None -> z_queued w = false -> z_gone w = false -> z_now w < z_end w + 600000.
Proof.
  intros cf t now v ops w -> D R Q G. pose proof (inv_run cf t ops _ (inv_init now v)) as [A _ I _ _].
  destruct (I R D G) as [X|[u [X L]]]; [rewrite X in Q; discriminate|]. specialize (A u X). lia.
Qed.

Lemma ready_step : forall cf t w op, z_ready w <= z_now w -> z_ready (zstep cf t w op) <= z_now (zstep cf t w op).
Proof.
  intros cf t w op H. unfold zstep. destruct (z_dead w); [exact H|]. destruct op as [d|v| | |r lim].
  - unfold zTick. cbv zeta. cbn. destruct (z_due w) as [u|]; [|cbn; lia]. destruct (u <=? _) eqn:C; cbn; [|lia]. destruct (z_queued w); cbn; lia.
  - exact H.
  - unfold zAdd. destruct (z_queued w); cbn; [exact H|lia].
  - unfold zStart. destruct (z_run w); [exact H|]. destruct (z_queued w); [|exact H].
    destruct (z_view w) as [m|]; [|cbn; lia]. destruct t; [exact H|]. destruct (mo_dt m); [cbn; lia|exact H].
  - unfold zStep. destruct (z_run w) as [[x f| |x p|c k]|]; try exact H.
    + unfold zFinish. cbn. lia.
    + cbn. unfold zAfter, zAdd. destruct (x <=? 0); [destruct (z_queued w)|]; cbn; lia.
Qed.

Lemma ready_run : forall cf t ops w, z_ready w <= z_now w -> z_ready (zrun cf t w ops) <= z_now (zrun cf t w ops).
Proof. intros cf t. induction ops as [|op ops IH]; intros w H; [exact H|]. apply IH, ready_step, H. Qed.

(** ** Deletion without errors. *)

Definition QF (m : MObj) (d : Z) (f : bool) : Prop :=
  d <= 5000 \/ ~ In MCM (mo_fins m) \/ (contains InitiateFinalizerRemoval (desc m) = true /\ d = 600000 /\ f = false).

Lemma fine_status : forall m0 m d c s t cur lks x f, x <= 5000 -> ends fine (QF m0) (rStatusUpdate m d c s t cur lks x f).
Proof. intros. apply ends_status; left; lia. Qed.

Ltac qf := first [apply fine_status; unfold ShortRetry; lia | apply ends_done; left; unfold ShortRetry; lia | exact (ends_panic _ _)].

Lemma ends_fine : forall cf m, ends fine (QF m) (rReconcileTermination cf m).
Proof.
  intros. apply ends_do. intros r F. cbn in F. subst r.
  unfold rTriggerDeletionFlow. destruct (hasFin m) eqn:HF; cbn [negb].
  2:{ apply ends_done. right. left. intros I. unfold hasFin in HF.
      assert (existsb (String.eqb MCM) (mo_fins m) = true) by (apply existsb_exists; exists MCM; split; [exact I|apply String.eqb_refl]). congruence. }
  assert (T : ends fine (QF m) (rSetMachineTerminationStatus m)).
  { apply ends_do. intros r _. destruct r; try qf. apply ends_do. intros r _. apply ends_written; [left; lia|left; lia|qf]. }
  destruct (negb _); [exact T|].
  destruct (contains GetVMStatus _).
  { unfold rUpdateMachineStatusAndNodeLabel. destruct (negb _); [qf|].
    assert (L : forall n, ends fine (QF m) (rUpdateMachineNodeLabel m n)).
    { intros n. apply ends_do. intros r _. destruct r; qf. }
    apply ends_do. intros r _.
    destruct r; try apply L;
      (apply ends_do; intros r G; cbn in G; destruct G as [x [y [z ->]]]; apply L). }
  destruct (contains InitiateDrain _).
  { unfold rDrainNode. destruct (String.eqb _ _); [qf|].
    assert (R : forall f, ends fine (QF m) (rRunDrain m f)).
    { intros f. apply ends_do. intros r _. destruct r; try qf; destruct f; qf. }
    apply ends_do. intros r _. destruct r; try qf. destruct (mo_dt m); [|qf]. cbv zeta.
    apply ends_do. intros r _. destruct r; try qf; [apply R|]. destruct (_ || _); [apply R|qf]. }
  destruct (contains DelVolumesAttachments _).
  { apply ends_do. intros r _. destruct r as [| | |[]| | | | | |]; try qf.
    apply ends_do. intros r _. destruct r as [| | |[]| | | | | |]; try qf. apply ends_do. intros r _. qf. }
  destruct (contains InitiateVMDeletion _).
  { apply ends_do. intros r G. cbn in G. destruct G as [x [y [z ->]]]. qf. }
  destruct (contains InitiateNodeDeletion _).
  { unfold rDeleteNodeObject. cbv zeta. destruct (negb _); [|qf]. apply ends_do. intros r _. destruct r; qf. }
  destruct (contains InitiateFinalizerRemoval _) eqn:C; [|exact T].
  unfold rDeleteMachineFinalizers. rewrite HF. apply ends_do. intros r G. cbn in G. destruct G as [m' ->].
  apply ends_done. right. right. rewrite C. repeat split.
Qed.

(** ** The period after each error. *)

Inductive rall (P : Call -> (Reply -> rprog) -> Prop) : rprog -> Prop :=
| ra_done : forall d f, rall P (RDone d f)
| ra_panic : rall P RPanic
| ra_later : forall d p, rall P p -> rall P (RLater d p)
| ra_do : forall c k, P c k -> (forall r, rall P (k r)) -> rall P (RDo c k).

Lemma rall_reaches : forall P p q, reaches p q -> rall P p -> forall c k, q = RDo c k -> P c k.
Proof.
  intros P p q R. induction R; intros A cc kk E.
  - subst p. inversion A; subst; assumption.
  - inversion A; subst. eauto.
  - inversion A; subst. eauto.
Qed.

Lemma ret_status : forall m d c s t cur lks x f d' f', returns stored (rStatusUpdate m d c s t cur lks x f) d' f' -> f' = f /\ d' = x.
Proof.
  intros m d c s t cur lks x f d' f' R. inversion R as [| |c0 k r d0 f0 S0 R1]; subst. cbn in S0. destruct S0 as [now ->].
  destruct (machineStatusUpdate _ _ _ _ _); [|inversion R1; subst; split; reflexivity].
  inversion R1 as [| |c1 k1 r d1 f1 S1 R2]; subst. cbn in S1. destruct S1 as [m' ->]. cbn in R2. inversion R2; subst. split; reflexivity.
Qed.

Lemma ret_end : forall x f d' f', returns stored (RDone x f) d' f' -> f' = f /\ d' = x.
Proof. intros x f d' f' R. inversion R; subst. split; reflexivity. Qed.

Lemma code_pass : forall e, passing e <->
  snd (FromError e) && (N.eqb (s_code (fst (FromError e))) cUnknown || N.eqb (s_code (fst (FromError e))) cDeadlineExceeded ||
                        N.eqb (s_code (fst (FromError e))) cAborted || N.eqb (s_code (fst (FromError e))) cUnavailable) = true.
Proof.
  intros e. unfold passing, code_is. rewrite andb_true_iff, !orb_true_iff, !N.eqb_eq. tauto.
Qed.

Lemma code_goes : forall e, goes_on e <->
  snd (FromError e) && (N.eqb (s_code (fst (FromError e))) cUnimplemented || N.eqb (s_code (fst (FromError e))) cNotFound ||
                        N.eqb (s_code (fst (FromError e))) cUninitialized) = true.
Proof.
  intros e. unfold goes_on, code_is. rewrite andb_true_iff, !orb_true_iff, !N.eqb_eq. tauto.
Qed.

Lemma code_eq : forall e c, code_is e c <-> snd (FromError e) && N.eqb (s_code (fst (FromError e))) c = true.
Proof. intros e c. unfold code_is. rewrite andb_true_iff, N.eqb_eq. tauto. Qed.

Lemma status_period : forall e,
  (passing e \/ goes_on e -> statusRetry e = 5000) /\ (readable e -> ~ passing e -> ~ goes_on e -> statusRetry e = 180000) /\ (~ readable e -> statusRetry e = 600000).
Proof.
  intros e. rewrite code_pass, code_goes. unfold readable, statusRetry. destruct (FromError e) as [st ok]. cbn [fst snd].
  destruct ok; cbn [negb andb].
  - destruct (N.eqb (s_code st) cUnknown), (N.eqb (s_code st) cDeadlineExceeded), (N.eqb (s_code st) cAborted), (N.eqb (s_code st) cUnavailable),
      (N.eqb (s_code st) cUnimplemented), (N.eqb (s_code st) cNotFound), (N.eqb (s_code st) cUninitialized); cbn; repeat split; intros; try reflexivity;
      try (exfalso; tauto); intuition discriminate.
  - repeat split; intros; try reflexivity; intuition discriminate.
Qed.

Lemma delete_period : forall e,
  (passing e \/ code_is e cNotFound -> deleteRetry e = 5000) /\ (~ passing e -> ~ code_is e cNotFound -> deleteRetry e = 600000).
Proof.
  intros e. rewrite code_pass, code_eq. unfold deleteRetry. destruct (FromError e) as [st ok]. cbn [fst snd].
  destruct ok; cbn [andb];
    destruct (N.eqb (s_code st) cUnknown), (N.eqb (s_code st) cDeadlineExceeded), (N.eqb (s_code st) cAborted), (N.eqb (s_code st) cUnavailable),
      (N.eqb (s_code st) cNotFound); cbn; split; intros; try reflexivity; try (exfalso; tauto); intuition discriminate.
Qed.

Lemma create_period : forall e, (passing e -> createRetry e = 5000) /\ (~ passing e -> createRetry e = 180000).
Proof.
  intros e. rewrite code_pass. unfold createRetry. destruct (FromError e) as [st ok]. cbn [fst snd].
  destruct ok; cbn [andb];
    destruct (N.eqb (s_code st) cUnknown), (N.eqb (s_code st) cDeadlineExceeded), (N.eqb (s_code st) cAborted), (N.eqb (s_code st) cUnavailable);
    cbn; split; intros; try reflexivity; try (exfalso; tauto); intuition discriminate.
Qed.

Lemma ra_status : forall (P : Call -> (Reply -> rprog) -> Prop) m d c s t cur lks x f,
  (forall k, P CNow k) -> (forall m' k, P (WStatus m') k) -> rall P (rStatusUpdate m d c s t cur lks x f).
Proof.
  intros P m d c s t cur lks x f A B. apply ra_do; [apply A|]. intros r. destruct r; try apply ra_done.
  destruct (machineStatusUpdate _ _ _ _ _); [|apply ra_done]. apply ra_do; [apply B|]. intros r. destruct r; try apply ra_done.
Qed.

Ltac rs := first [apply ra_done | apply ra_panic | apply ra_status; intros; exact Logic.I].
Ltac rt := intros; match goal with H : returns _ _ _ _ |- _ => first [apply ret_end in H | apply ret_status in H]; exact H end.

Lemma dp_status : forall m d s t lks, rall deletion_period (rDeletionUpdate m d s t lks ShortRetry true).
Proof. intros. rs. Qed.

Lemma periods_termination : forall cf m, rall deletion_period (rReconcileTermination cf m).
Proof.
  intros. apply ra_do.
  { cbn. intros e d f. split; intros R; apply ret_end in R; exact R. }
  intros r. destruct r; try rs.
  unfold rTriggerDeletionFlow. destruct (negb (hasFin m)); [rs|].
  assert (T : rall deletion_period (rSetMachineTerminationStatus m)).
  { apply ra_do; [exact Logic.I|]. intros r. destruct r; try rs. apply ra_do; [exact Logic.I|]. intros r. destruct r; rs. }
  destruct (negb _); [exact T|].
  destruct (contains GetVMStatus _).
  { unfold rUpdateMachineStatusAndNodeLabel. destruct (negb _); [rs|].
    assert (L : forall n, rall deletion_period (rUpdateMachineNodeLabel m n)).
    { intros n. apply ra_do; [exact Logic.I|]. intros r. destruct r; rs. }
    assert (G : rall deletion_period (RDo (CGetStatus m) (fun r => match r with
        | POk node _ _ => rUpdateMachineNodeLabel m node
        | PFail text _ =>
            let '(d, s) := statusFailure text in
            rDeletionUpdate m d s "Delete" (ms_lks (mo_status m)) (statusRetry text) true
        | _ => RDone ShortRetry true
        end))).
    { apply ra_do.
      - intros e resp d f R. destruct (statusFailure e) as [dd ss]. apply ret_status in R. destruct R as [-> ->].
        split; [reflexivity|apply status_period].
      - intros r. destruct r; try rs; try apply L. destruct (statusFailure text). rs. }
    apply ra_do; [exact Logic.I|]. intros r. destruct r; first [apply L|exact G]. }
  destruct (contains InitiateDrain _).
  { unfold rDrainNode. destruct (String.eqb _ _); [rs|].
    assert (R : forall f, rall deletion_period (rRunDrain m f)).
    { intros f. apply ra_do; [cbn; intros e d g H; destruct f; apply ret_status in H; exact H|]. intros r. destruct r; try rs; destruct f; rs. }
    apply ra_do; [exact Logic.I|]. intros r. destruct r; try rs. destruct (mo_dt m); [|rs]. cbv zeta.
    match goal with |- context [if ?b then rRunDrain m _ else _] => generalize b end. intros force.
    apply ra_do.
    - cbn. intros e d f H. destruct force; [|apply ret_status in H; exact H].
      inversion H as [| |c0 k0 r d0 f0 _ H1]; subst. destruct r; try (apply ret_end in H1; exact H1); apply ret_status in H1; exact H1.
    - intros r. destruct r; try rs; [apply R|]. destruct force; [apply R|rs]. }
  destruct (contains DelVolumesAttachments _).
  { apply ra_do; [exact Logic.I|]. intros r. destruct r as [| | |[]| | | | | |]; try rs.
    apply ra_do; [exact Logic.I|]. intros r. destruct r as [| | |[]| | | | | |]; try rs. apply ra_do; [exact Logic.I|]. intros r. rs. }
  destruct (contains InitiateVMDeletion _).
  { apply ra_do.
    - intros e resp d f R. destruct (deleteFailure e) as [dd ss]. apply ret_status in R. destruct R as [-> ->]. split; [reflexivity|apply delete_period].
    - intros r. destruct r; try rs. destruct (deleteFailure _). rs. }
  destruct (contains InitiateNodeDeletion _).
  { unfold rDeleteNodeObject. cbv zeta. destruct (negb _); [|rs].
    apply ra_do; [cbn; intros e d f R; apply ret_status in R; exact R|]. intros r. destruct r; rs. }
  destruct (contains InitiateFinalizerRemoval _); [|exact T].
  unfold rDeleteMachineFinalizers. destruct (hasFin m); [|rs]. apply ra_do; [exact Logic.I|]. intros r. destruct r; rs.
Qed.

Lemma cp_init : forall cf m, rall creation_period (rInitializeMachine cf m).
Proof.
  intros. apply ra_do.
  - intros e resp d f R. unfold readable. destruct (FromError e) as [st ok] eqn:E. cbn [snd]. destruct ok; cbn [negb] in R.
    + destruct (N.eqb _ _); [apply ret_end in R|apply ret_status in R]; destruct R as [-> ->]; (split; [reflexivity|split; [reflexivity|intros N; exfalso; apply N; reflexivity]]).
    + apply ret_end in R. destruct R as [-> ->]. split; [reflexivity|split; [discriminate|reflexivity]].
  - intros r. destruct r; try rs. destruct (FromError text) as [st ok]. destruct (negb ok); [rs|]. destruct (N.eqb _ _); rs.
Qed.

Lemma cp_finish : forall cf m u n p, rall creation_period (rFinishCreation cf m u n p).
Proof.
  intros. unfold rFinishCreation. destruct (_ || _).
  - apply ra_do; [exact Logic.I|]. intros r. destruct r; destruct u; try rs; apply cp_init.
  - destruct u; [apply cp_init|]. unfold rSetPending. destruct (_ || _); [|rs].
    apply ra_do; [exact Logic.I|]. intros r. destruct r; try rs. apply ra_do; [exact Logic.I|]. intros r. rs.
Qed.

Lemma cp_create : forall cf m, rall creation_period (rCreateVM cf m).
Proof.
  intros. apply ra_do.
  - intros e resp d f R. apply ret_status in R. destruct R as [-> ->]. split; [reflexivity|apply create_period].
  - intros r. destruct r; try rs.
    apply ra_do; [exact Logic.I|]. intros r. destruct r; try rs.
    destruct (_ && _); [|apply cp_finish]. apply ra_do; [|intros r; rs].
    exact Logic.I.
Qed.

Lemma cp_creation : forall cf m, rall creation_period (rCreationIfNeeded cf m).
Proof.
  intros. unfold rCreationIfNeeded. destruct (_ || _); [|rs].
  apply ra_do; [cbn; intros e d f _ R; apply ret_end in R; exact R|]. intros r. destruct r; try rs.
  apply ra_do.
  - intros e resp d f N R. destruct (create_period e) as [C1 C2].
    assert (GG : returns stored (rMachineCreateErrorHandler cf m "" e) d f -> f = true /\ (passing e -> d = 5000) /\ (~ passing e -> d = 180000)).
    { intros Q. apply ret_status in Q. destruct Q as [-> ->]. split; [reflexivity|split; assumption]. }
    rewrite code_goes in N. rewrite code_pass in *. destruct (FromError e) as [st ok]. cbn [fst snd] in *.
    destruct ok; cbn [negb andb] in *.
    + destruct (N.eqb (s_code st) cUnimplemented), (N.eqb (s_code st) cNotFound), (N.eqb (s_code st) cUninitialized); cbn in N, R; try (exfalso; apply N; reflexivity).
      exact (GG R).
    + apply ret_end in R. destruct R as [-> ->]. split; [reflexivity|split; [discriminate|reflexivity]].
  - intros r. destruct r; try rs; try apply cp_finish.
    destruct (FromError text) as [st ok]. destruct (negb ok); [rs|]. destruct (_ || _).
    + destruct (has _ _); [apply cp_finish|apply cp_create].
    + destruct (N.eqb _ _); [|rs]. destruct resp as [[[a b] c]|]; [apply cp_finish|rs].
Qed.

Lemma cp_go : forall cf m, rall creation_period (RDo (CSync m) (fun r => match r with RUnit => rCreationIfNeeded cf m | _ => written r (RDone ShortRetry true) end)).
Proof.
  intros. apply ra_do.
  - intros e d f NE R. cbn in R. unfold isConflict in R. apply String.eqb_neq in NE. rewrite NE in R. apply ret_end in R. exact R.
  - intros r. destruct r; try rs. apply cp_creation.
Qed.

Lemma periods_machine : forall cf m, rall creation_period (rReconcileMachine cf m).
Proof.
  intros. apply ra_do; [cbn; intros d f R; apply ret_end in R; exact R|].
  intros r. destruct r as [| | |[]| | | | | |]; try rs.
  apply ra_do; [cbn; intros e d f; split; intros R; apply ret_end in R; exact R|]. intros r. destruct r; try rs.
  destruct (negb (hasFin m)); [apply ra_do; [exact Logic.I|intros r; rs]|].
  destruct (_ && _); [|apply cp_creation].
  apply ra_do.
  { intros d f R. inversion R as [| |c0 k0 r d0 f0 S0 R1]; subst. cbn in S0. destruct S0 as [now ->]. cbn in R1. apply ret_end in R1. exact R1. }
  intros r. destruct r; try rs. apply ra_do; [exact Logic.I|]. intros r. destruct r; try rs.
  destruct (reconcileMachineHealth _ _ _ _ _ _ _).
  - rs.
  - apply ra_do; [exact Logic.I|]. intros r. destruct r; rs.
  - apply ra_do; [cbn; intros dd f R; apply ret_end in R; exact R|]. intros r. destruct r as [| | |[]| | | | | |]; try rs.
    apply ra_do; [exact Logic.I|]. intros r. destruct r; try rs. apply cp_go.
  - apply ra_later. apply cp_go.
  - apply cp_go.
Qed.

(** ** A machine whose time is over is marked as failed. *)

Lemma has_fin : forall m, In MCM (mo_fins m) -> hasFin m = true.
Proof. intros m H. unfold hasFin. apply existsb_exists. exists MCM. split; [exact H|apply String.eqb_refl]. Qed.

Definition is_failed (m : MObj) (p : rprog) : Prop :=
  exists s k, p = RDo (WStatus (withStatus s m)) k /\ cs_phase (ms_cur s) = "Failed".

(** The answer to the look at the clock. *)
Lemma health_says : forall cf m t0 limit a s, waiting cf m t0 limit -> node_absent cf m a ->
  let h := reconcileMachineHealth (cf_show cf) (cf_creation cf) (cf_health cf) (cf_bad cf) s a m in
  if t0 + limit + 1 <=? s
  then (exists st, h = HWrite st /\ cs_phase (ms_cur st) = "Failed") \/ (exists d st, h = HTryFail d st)
  else h = HWait.
Proof.
  intros cf m t0 limit a s [_ [_ [_ [T PH]]]] N. cbv zeta.
  assert (P : (phase m =? "Running")%string = false /\
              ((phase m =? "Pending")%string || (phase m =? "Unknown")%string) = true /\
              (if (phase m =? "Pending")%string then cf_creation cf else cf_health cf) = limit).
  { destruct PH as [[-> ->]|[-> ->]]; repeat split. }
  destruct P as [P1 [P2 P3]].
  assert (F : forall clone,
    let h := if (phase m =? "Pending")%string || (phase m =? "Unknown")%string then
      if 0 <? s - (if (phase m =? "Pending")%string then cf_creation cf else cf_health cf) - cs_time (ms_cur (mo_status m)) then
        if (phase m =? "Pending")%string then
          HWrite (mkMS (ms_conds clone)
                    (mkOp ("Machine " ++ mo_name m ++ " failed to join the cluster in " ++ sh_dur (cf_show cf) (if (phase m =? "Pending")%string then cf_creation cf else cf_health cf) ++ " minutes.")%string
                       "" s "Failed" (lo_type (ms_op (mo_status m))))
                    (mkCur "Failed" false s) (ms_lks clone))
        else HTryFail ("Machine " ++ mo_name m ++ " health checks failing since last " ++ sh_dur (cf_show cf) (if (phase m =? "Pending")%string then cf_creation cf else cf_health cf) ++
                       " minutes. Updating machine phase to Failed. Node Conditions: " ++ sh_conds (cf_show cf) (ms_conds (mo_status m)))%string clone
      else HWait
    else HNone in
    if t0 + limit + 1 <=? s
    then (exists st, h = HWrite st /\ cs_phase (ms_cur st) = "Failed") \/ (exists d st, h = HTryFail d st)
    else h = HWait).
  { intros clone. cbv zeta. rewrite P2, P3, T.
    destruct (t0 + limit + 1 <=? s) eqn:C.
    - replace (0 <? s - limit - t0) with true by lia.
      destruct (phase m =? "Pending")%string; [left; eexists; split; reflexivity|right; eexists; eexists; reflexivity].
    - replace (0 <? s - limit - t0) with false by lia. reflexivity. }
  destruct N as [->|[conds [crit [-> [CH H]]]]].
  - specialize (F (mo_status m)). unfold reconcileMachineHealth. cbv zeta. rewrite P1, andb_false_r. exact F.
  - unfold reconcileMachineHealth. cbv zeta. rewrite CH, H, P1. apply F.
Qed.

Definition kont (p : rprog) (r : Reply) : rprog := match p with RDo _ k => k r | _ => p end.

Section InTime.
Context (cf : Cfg) (m : MObj) (t0 limit delta eps b : Z).
Context (W : waiting cf m t0 limit) (de : 0 <= delta) (ep : 0 <= eps).

Let due : Z := (t0 + limit + 1) * 1000.
Let X : Z := Z.max due b + 60000 + eps.

Let p0 : rprog := rReconcileMachine cf m.
Let p1 : rprog := kont p0 (RBool false).
Let p2 : rprog := kont p1 RUnit.
Let p3 (a : NodeAns) : rprog := kont p2 (RNode a).

Lemma p2_health : p2 = rHealthThenCreate cf m.
Proof.
  destruct W as [_ [F [N [_ PH]]]]. unfold p2, p1, p0, kont, rReconcileMachine. cbv beta iota.
  rewrite (has_fin m F). cbn [negb].
  apply String.eqb_neq in N. rewrite N. cbn [negb andb].
  destruct PH as [[-> _]|[-> _]]; reflexivity.
Qed.

(** Where a reconcile is on its way to the check, and after it. *)
Inductive place (w : ZW) (p : rprog) : Prop :=
| pl_0 : p = p0 -> place w p
| pl_1 : p = p1 -> place w p
| pl_2 : p = p2 -> place w p
| pl_3 : forall a, node_absent cf m a -> p = p3 a -> place w p
| pl_may : forall k, p = RDo (CMayFail m) k -> is_failed m (k (RBool true)) -> place w p
| pl_write : is_failed m p -> place w p
| pl_later : forall d q, p = RLater d q -> d <= 60000 -> z_began w <= due -> place w p
| pl_after : soon X w -> z_began w <= due -> place w p
| pl_old : z_queued w = true -> z_began w <= b -> place w p.

Definition Good (w : ZW) : Prop :=
  failed_since b m w \/
  (ahead w /\ b <= z_now w /\ z_began w <= z_now w /\ z_view w = Some m /\
   ((z_dead w = true /\ z_now w <= X + delta + eps) \/
    (z_dead w = false /\
     match z_run w with
     | None => (z_queued w = true /\ z_ready w <= X) \/ (z_queued w = false /\ exists u, z_due w = Some u /\ u <= X)
     | Some p => place w p /\ z_began w <= X + delta
     end))).

Lemma place_ext : forall w w' p, place w p -> z_began w' = z_began w -> (z_queued w = true -> z_queued w' = true) ->
  (soon X w -> soon X w') -> place w' p.
Proof.
  intros w w' p P B Q S. destruct P.
  - now apply pl_0. - now apply pl_1. - now apply pl_2. - now apply pl_3 with a. - now apply pl_may with k. - now apply pl_write.
  - apply pl_later with d q; auto. rewrite B; auto.
  - apply pl_after; auto. rewrite B; auto.
  - apply pl_old; auto. rewrite B; auto.
Qed.

Lemma failed_mono : forall w w', (forall e, In e (z_log w) -> In e (z_log w')) -> failed_since b m w -> failed_since b m w'.
Proof. intros w w' H [t [m' [r [I R]]]]. exists t, m', r. split; [apply H, I|exact R]. Qed.

Lemma step_log : forall w op e, In e (z_log w) -> In e (z_log (zstep cf false w op)).
Proof.
  intros w op e H. unfold zstep. destruct (z_dead w); [exact H|]. destruct op as [d|v| | |r lim]; auto.
  - unfold zAdd. destruct (z_queued w); exact H.
  - unfold zStart. destruct (z_run w); auto. destruct (z_queued w); auto. destruct (z_view w) as [mm|]; auto. destruct (mo_dt mm); auto.
  - unfold zStep. destruct (z_run w) as [[x f| |x p|c k]|]; auto.
    + change (In e (z_log (zWorker (false && f) lim (zAfter x w)))). destruct (worker_keeps (false && f) lim (zAfter x w)) as [_ [_ [_ [_ [_ [_ [_ L]]]]]]].
      rewrite L. destruct (after_keeps x w) as [_ [_ [_ [_ [_ [_ [_ L']]]]]]]. rewrite L'. exact H.
    + cbn. destruct (after_keeps x w) as [_ [_ [_ [_ [_ [_ [_ L']]]]]]]. rewrite L'. exact H.
    + cbn. right. exact H.
Qed.

Lemma good_time : forall w, prompt delta eps w -> Good w -> failed_since b m w \/ z_now w <= X + delta + eps.
Proof.
  intros w [P1 P2] [F|[A [NB [NBE [V [[D L]|[D H]]]]]]]; [now left|now right|]. right.
  destruct (z_run w) as [p|].
  - destruct H as [_ B]. specialize (P2 ltac:(discriminate)). lia.
  - destruct H as [[Q R]|[Q [u [E L]]]].
    + specialize (P1 Q eq_refl). lia.
    + specialize (A u E). lia.
Qed.

Lemma good_step : forall w op, prompt delta eps w -> undisturbed cf m w op -> Good w -> Good (zstep cf false w op).
Proof.
  intros w op PR U G.
  pose proof (good_time w PR G) as GT.
  destruct GT as [F|NOW]; [left; revert F; apply failed_mono; intros e; apply step_log|].
  destruct G as [F|[A [NB [NBE [V H]]]]]; [left; revert F; apply failed_mono; intros e; apply step_log|].
  unfold zstep. destruct (z_dead w) eqn:D.
  { right. rewrite D. auto 10. }
  destruct H as [[X1 _]|[_ H]]; [discriminate|].
  destruct op as [d|v| | |r lim].
  - right. split; [apply ahead_tick, A|]. split; [cbn; lia|]. split; [cbn; lia|]. split; [exact V|]. right. split; [first [exact D|reflexivity]|].
    cbn [zTick z_run]. cbv zeta.
    change (z_run (zTick d w)) with (z_run w).
    destruct (z_run w) as [p|] eqn:R.
    + destruct H as [PL B]. split; [|exact B].
      apply place_ext with w; [exact PL|reflexivity| |apply soon_tick]. cbn. intros ->. reflexivity.
    + destruct H as [[Q RD]|[Q [u [E L]]]].
      * left. unfold zTick. cbv zeta. cbn. rewrite Q. cbn. rewrite andb_false_r. split; [reflexivity|exact RD].
      * pose proof (A u E) as AU. unfold zTick. cbv zeta. cbn. rewrite E, Q. cbn.
        destruct (u <=? z_now w + Z.abs d) eqn:C; cbn; [left; split; [reflexivity|lia]|right; split; [reflexivity|]].
        exists u. split; [reflexivity|exact L].
  - cbn in U. subst v. right. split; [exact A|]. split; [exact NB|]. split; [exact NBE|]. split; [reflexivity|]. right. split; [first [exact D|reflexivity]|].
    cbn. destruct (z_run w) as [p|]; [|exact H]. destruct H as [PL B]. split; [|exact B].
    apply place_ext with w; auto.
  - right. unfold zAdd. destruct (z_queued w) eqn:Q.
    { split; [exact A|]. split; [exact NB|]. split; [exact NBE|]. split; [exact V|]. right. split; [first [exact D|reflexivity]|]. rewrite Q. exact H. }
    split; [exact A|]. split; [exact NB|]. split; [exact NBE|]. split; [exact V|]. right. split; [first [exact D|reflexivity]|]. cbn.
    destruct (z_run w) as [p|] eqn:R.
    + destruct H as [PL B]. split; [|exact B]. apply place_ext with w; [exact PL|reflexivity|reflexivity|]. intros _. now left.
    + left. split; [reflexivity|]. destruct H as [[Y _]|[_ [u [E L]]]]; [discriminate|]. specialize (A u E). lia.
  - unfold zStart. destruct (z_run w) as [p|] eqn:R.
    { right. split; [exact A|]. split; [exact NB|]. split; [exact NBE|]. split; [exact V|]. right. split; [first [exact D|reflexivity]|]. rewrite R. exact H. }
    destruct (z_queued w) eqn:Q.
    2:{ right. split; [exact A|]. split; [exact NB|]. split; [exact NBE|]. split; [exact V|]. right. split; [first [exact D|reflexivity]|]. rewrite R, Q. exact H. }
    rewrite V. destruct W as [DT _]. rewrite DT. right. split; [exact A|]. split; [exact NB|]. split; [cbn; lia|]. split; [reflexivity|].
    right. split; [first [exact D|reflexivity]|]. cbn. split; [apply pl_0; reflexivity|].
    destruct H as [[_ RD]|[Y _]]; [|discriminate]. destruct PR as [PQ _]. specialize (PQ Q R). lia.
  - unfold zStep. destruct (z_run w) as [p|] eqn:R.
    2:{ right. split; [exact A|]. split; [exact NB|]. split; [exact NBE|]. split; [exact V|]. right. split; [first [exact D|reflexivity]|]. rewrite R. exact H. }
    destruct H as [PL B].
    assert (RUNB : z_now w <= z_began w + eps) by (destruct PR as [_ PP]; apply PP; rewrite R; discriminate).
    (* the end of a reconcile, with the key on its way *)
    assert (FIN : forall x f, soon X w -> z_began w + eps <= X -> Good (zFinish false x f lim w)).
    { intros x f S BE. right. unfold zFinish.
      destruct (worker_keeps (false && f) lim (zAfter x w)) as [W1 [W2 [W3 [W4 [W5 [W6 [W7 W8]]]]]]].
      destruct (after_keeps x w) as [F1 [F2 [F3 [F4 [F5 [F6 [F7 F8]]]]]]].
      assert (S' : soon X (zWorker (false && f) lim (zAfter x w))) by (apply soon_worker, soon_after, S).
      assert (A1 : ahead (zWorker (false && f) lim (zAfter x w))) by (apply ahead_worker, ahead_after, A).
      rewrite F1 in W1. rewrite F2 in W2. rewrite F4 in W4. rewrite F5 in W5.
      clear W3 W6 W7 W8 F1 F2 F3 F4 F5 F6 F7 F8. revert S' A1 W1 W2 W4 W5.
      generalize (zWorker (false && f) lim (zAfter x w)). intros w1 S' A1 W1 W2 W4 W5.
      split; [exact A1|]. cbn. rewrite W1, W2, W4, W5. split; [exact NB|]. split; [exact NBE|]. split; [exact V|]. right. split; [first [exact D|reflexivity]|].
      destruct (z_queued w1) eqn:QQ; [left; split; [reflexivity|lia]|].
      right. split; [reflexivity|]. destruct S' as [Y|Y]; [rewrite Y in QQ; discriminate|exact Y]. }
    destruct PL as [EP|EP|EP|a NA EP|k EP IF|[s [k [EP IF]]]|d q EP DL BL|SX BL|QO BO].
    + subst p. unfold p0, rReconcileMachine. cbn in U. rewrite R in U. unfold p0, rReconcileMachine in U. subst r.
      right. split; [exact A|]. split; [exact NB|]. split; [exact NBE|]. split; [exact V|]. right. split; [first [exact D|reflexivity]|]. cbn.
      split; [|exact B]. apply pl_1. reflexivity.
    + subst p. unfold p1, p0, rReconcileMachine, kont. cbn in U. rewrite R in U. unfold p1, p0, rReconcileMachine, kont in U. subst r.
      right. split; [exact A|]. split; [exact NB|]. split; [exact NBE|]. split; [exact V|]. right. split; [first [exact D|reflexivity]|]. cbn [z_run z_began].
      split; [|exact B]. apply pl_2. reflexivity.
    + cbn in U. rewrite R in U. subst p. rewrite p2_health in *. unfold rHealthThenCreate in U |- *. cbv zeta in U |- *. destruct U as [a [-> NA]].
      right. split; [exact A|]. split; [exact NB|]. split; [exact NBE|]. split; [exact V|]. right. split; [first [exact D|reflexivity]|]. cbn [z_run z_began].
      split; [|exact B]. apply pl_3 with a; [exact NA|]. unfold p3. rewrite p2_health. reflexivity.
    + subst p. unfold p3. rewrite p2_health. unfold rHealthThenCreate, kont. cbv zeta.
      right. split; [exact A|]. split; [exact NB|]. split; [exact NBE|]. split; [exact V|]. right. split; [first [exact D|reflexivity]|]. cbn [z_run z_began].
      split; [|exact B].
      pose proof (health_says cf m t0 limit a (z_now w / 1000) W NA) as HS. cbv zeta in HS.
      destruct (t0 + limit + 1 <=? z_now w / 1000) eqn:C.
      * destruct HS as [[st [-> F]]|[dd [st ->]]].
        { apply pl_write. exists st. eexists. split; [reflexivity|exact F]. }
        { eapply pl_may; [reflexivity|]. cbv beta iota. eexists. eexists. split; [reflexivity|]. reflexivity. }
      * rewrite HS. eapply pl_later; [reflexivity|unfold sleepTime; lia|]. cbn [z_began]. unfold due.
        assert (z_now w < (t0 + limit + 1) * 1000) by (pose proof (Z.div_lt_upper_bound); assert (z_now w / 1000 < t0 + limit + 1) by lia; pose proof (Z.mod_pos_bound (z_now w) 1000 ltac:(lia)); pose proof (Z.div_mod (z_now w) 1000 ltac:(lia)); lia).
        lia.
    + cbn in U. rewrite R in U. subst p. subst r.
      right. split; [exact A|]. split; [exact NB|]. split; [exact NBE|]. split; [exact V|]. right. split; [first [exact D|reflexivity]|]. cbn [z_run z_began].
      split; [|exact B]. apply pl_write. exact IF.
    + subst p. left. exists (z_now w), (withStatus s m), r. split; [cbn; now left|]. split; [exact NB|]. split; [reflexivity|]. exact IF.
    + subst p. destruct (after_keeps d w) as [F1 [F2 [F3 [F4 [F5 [F6 [F7 F8]]]]]]].
      right. split; [exact (ahead_after _ _ A)|]. cbn. rewrite F1, F2, F4, F5. split; [exact NB|]. split; [exact NBE|]. split; [exact V|]. right. split; [first [exact D|reflexivity]|].
      split; [|exact B]. apply pl_after; [|cbn; rewrite F5; exact BL].
      assert (S : soon X (zAfter d w)) by (apply soon_new; unfold X; lia). exact S.
    + destruct p as [x f| |x q|c k].
      * apply FIN; [exact SX|unfold X; lia].
      * right. split; [exact A|]. split; [exact NB|]. split; [exact NBE|]. split; [exact V|]. left. split; [reflexivity|exact NOW].
      * destruct (after_keeps x w) as [F1 [F2 [F3 [F4 [F5 [F6 [F7 F8]]]]]]].
        right. split; [exact (ahead_after _ _ A)|]. cbn. rewrite F1, F2, F4, F5. split; [exact NB|]. split; [exact NBE|]. split; [exact V|]. right. split; [first [exact D|reflexivity]|].
        split; [|exact B]. apply pl_after; [|cbn; rewrite F5; exact BL]. exact (soon_after x X w SX).
      * right. split; [exact A|]. split; [exact NB|]. split; [exact NBE|]. split; [exact V|]. right. split; [first [exact D|reflexivity]|]. cbn [z_run z_began].
        split; [|exact B]. apply pl_after; [exact SX|exact BL].
    + destruct p as [x f| |x q|c k].
      * apply FIN; [now left|unfold X; lia].
      * right. split; [exact A|]. split; [exact NB|]. split; [exact NBE|]. split; [exact V|]. left. split; [reflexivity|exact NOW].
      * destruct (after_keeps x w) as [F1 [F2 [F3 [F4 [F5 [F6 [F7 F8]]]]]]].
        right. split; [exact (ahead_after _ _ A)|]. cbn. rewrite F1, F2, F4, F5. split; [exact NB|]. split; [exact NBE|]. split; [exact V|]. right. split; [first [exact D|reflexivity]|].
        split; [|exact B]. apply pl_old; [|cbn; rewrite F5; exact BO]. cbn. unfold zAfter, zAdd. rewrite QO. destruct (x <=? 0); cbn; first [exact QO|reflexivity].
      * right. split; [exact A|]. split; [exact NB|]. split; [exact NBE|]. split; [exact V|]. right. split; [first [exact D|reflexivity]|]. cbn [z_run z_began].
        split; [|exact B]. apply pl_old; [exact QO|exact BO].
Qed.

Lemma good_run : forall ops w, Good w -> quiet cf m w ops -> Forall (prompt delta eps) (zstates cf false w ops) ->
  failed_since b m (zrun cf false w ops) \/ z_now (zrun cf false w ops) <= X + delta + eps.
Proof.
  induction ops as [|op ops IH]; intros w G Q P; cbn in P.
  - inversion P; subst. exact (good_time w H1 G).
  - inversion P as [|? ? P1 P2]; subst. destruct Q as [Q1 Q2]. apply (IH (zstep cf false w op)); auto. apply good_step; auto.
Qed.
End InTime.

Lemma failed_in_time : forall cf m t0 limit delta eps t v before ops w0,
  waiting cf m t0 limit -> 0 <= delta -> 0 <= eps ->
  w0 = zrun cf false (zinit t v) before -> z_dead w0 = false -> z_queued w0 = true -> z_view w0 = Some m ->
  quiet cf m w0 ops -> Forall (prompt delta eps) (zstates cf false w0 ops) ->
  failed_since (z_now w0) m (zrun cf false w0 ops) \/
  z_now (zrun cf false w0 ops) <= Z.max ((t0 + limit + 1) * 1000) (z_now w0) + 60000 + delta + 2 * eps.
Proof.
  intros cf m t0 limit delta eps t v before ops w0 W de ep -> D Q V QU PR.
  set (w0 := zrun cf false (zinit t v) before) in *.
  pose proof (inv_run cf false before _ (inv_init t v)) as [A _ _ _ B]. fold w0 in A, B.
  pose proof (ready_run cf false before (zinit t v) ltac:(cbn; lia)) as RD. fold w0 in RD.
  assert (G : Good cf m t0 limit delta eps (z_now w0) w0).
  { right. split; [exact A|]. split; [lia|]. split; [exact B|]. split; [exact V|]. right. split; [exact D|].
    destruct (z_run w0) as [p|]; [split; [apply pl_old; [exact Q|exact B]|lia]|]. left. split; [exact Q|]. lia. }
  destruct (good_run cf m t0 limit delta eps (z_now w0) W de ep ops w0 G QU PR) as [F|L]; [now left|right; lia].
Qed.
