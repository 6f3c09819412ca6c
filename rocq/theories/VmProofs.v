(** Proofs about the VMs of one machine name. *)
Require Import Coq.ZArith.ZArith Coq.Lists.List Coq.Strings.String Coq.Bool.Bool Coq.micromega.Lia Coq.NArith.NArith.
From Verif Require Import CodesModel MachModel LevModel HealthModel LifeModel LifeSpec VmSpec.
Import ListNotations.
Open Scope string_scope.
Open Scope list_scope.
Open Scope Z_scope.

(** The answer after which a VM may be created. *)
Definition none (c : Call) (r : Reply) : bool :=
  match c, r with
  | CGetStatus _, PFail text _ =>
      snd (FromError text) && (N.eqb (s_code (fst (FromError text))) cNotFound || N.eqb (s_code (fst (FromError text))) cUnimplemented)
  | _, _ => false
  end.

(** A VM is created directly after such an answer only. *)
Fixpoint okS (g : bool) (p : prog) : Prop :=
  match p with
  | Done | Panic => True
  | Do c k => (match c with CCreate _ => g = true | _ => True end) /\ forall r, okS (none c r) (k r)
  end.

(** No VM is created. *)
Fixpoint okN (p : prog) : Prop :=
  match p with
  | Done | Panic => True
  | Do c k => (match c with CCreate _ => False | _ => True end) /\ forall r, okN (k r)
  end.

Lemma okN_S : forall p g, okN p -> okS g p.
Proof.
  induction p as [| | c k IH]; cbn; intros g H; auto. destruct H as (A & B). split; [destruct c; tauto|].
  intros r. apply IH. apply B.
Qed.

Lemma okN_next : forall p rs x, okN p -> next p rs <> Some (CCreate x).
Proof.
  induction p as [| | c k IH]; intros rs x H; destruct rs; cbn; try discriminate.
  - cbn in H. destruct H as (H & _). intros E. injection E as ->. exact H.
  - apply IH. apply H.
Qed.

Lemma okN_update m d code st ty cur lks : okN (statusUpdate m d code st ty cur lks).
Proof. unfold statusUpdate. cbn [okN]. split; [exact I|]. intros []; cbn; auto. destruct (machineStatusUpdate _ _ _ _ _); cbn; auto. Qed.
Lemma okN_deletion m d st ty lks : okN (deletionUpdate m d st ty lks).
Proof. apply okN_update. Qed.
Ltac okn := repeat first
  [ exact I | apply okN_update | apply okN_deletion
  | match goal with
    | |- okN (Do _ _) => cbn [okN]; split; [exact I|]; intros r; destruct r
    | |- okN (if ?b then _ else _) => destruct b
    | |- okN (match ?x with _ => _ end) => destruct x
    end ].

Lemma okN_termination cf m : okN (reconcileTermination cf m).
Proof.
  unfold reconcileTermination. okn. unfold triggerDeletionFlow, setMachineTerminationStatus, updateMachineStatusAndNodeLabel,
    updateMachineNodeLabel, drainNode, runDrain, deleteNodeVolAttachments, deleteVM, deleteNodeObject, deleteMachineFinalizers.
  okn.
Qed.

Lemma okN_init cf m : okN (initializeMachine cf m).
Proof. unfold initializeMachine. okn. Qed.
Lemma okN_error cf m lks t : okN (machineCreateErrorHandler cf m lks t).
Proof. apply okN_update. Qed.
Lemma okN_finish cf m u n p : okN (finishCreation cf m u n p).
Proof. unfold finishCreation, setPending. okn; apply okN_init. Qed.

Lemma okN_labelled cf m : has "node" (mo_labels m) = true -> okN (reconcileMachine cf m).
Proof.
  intros H.
  assert (T : okN (creationIfNeeded cf m)).
  { unfold creationIfNeeded, triggerCreationFlow. destruct (_ || _ || _); [|exact I]. rewrite H.
    okn; try apply okN_finish; try apply okN_error. }
  unfold reconcileMachine, healthThenCreate. okn; exact T.
Qed.

Lemma okS_creation cf m g : okS g (creationIfNeeded cf m).
Proof.
  unfold creationIfNeeded, triggerCreationFlow. destruct (_ || _ || _); [|exact I].
  cbn [okS]. split; [exact I|]. intros r. destruct r; try exact I.
  cbn [okS]. split; [exact I|]. intros r. destruct r; try exact I.
  - apply okN_S, okN_finish.
  - cbn [none]. destruct (FromError text) as (st & ok). cbn [fst snd]. destruct ok; cbn [negb andb]; [|exact I].
    destruct (N.eqb (s_code st) cNotFound || N.eqb (s_code st) cUnimplemented)%bool eqn:E.
    + destruct (has "node" (mo_labels m)); [apply okN_S, okN_finish|].
      unfold createVM. cbn [okS]. split; [reflexivity|]. intros r. apply okN_S.
      destruct r; try exact I; [|apply okN_error]. okn. apply okN_finish.
    + destruct (N.eqb (s_code st) cUninitialized); [|apply okN_S, okN_error].
      destruct resp as [((nd & p) & l) |]; [apply okN_S, okN_finish | exact I].
Qed.

Lemma okS_reconcile cf m g : okS g (reconcileMachine cf m).
Proof.
  unfold reconcileMachine. cbn [okS]. split; [exact I|]. intros r. destruct r; try exact I. destruct b; [exact I|].
  cbn [okS]. split; [exact I|]. intros r. destruct r; try exact I.
  destruct (negb (hasFin m)); [cbn; auto|]. destruct (_ && _)%bool; [|apply okS_creation].
  unfold healthThenCreate.
  assert (G : forall g, okS g (Do (CSync m) (fun r => match r with RUnit => creationIfNeeded cf m | _ => Done end))).
  { intros g0. cbn [okS]. split; [exact I|]. intros r. destruct r; try exact I. apply okS_creation. }
  cbn [okS]. split; [exact I|]. intros r. destruct r; try exact I.
  cbn [okS]. split; [exact I|]. intros r. destruct r; try exact I.
  destruct (reconcileMachineHealth _ _ _ _ _ _ _); try exact I; try apply G.
  - cbn; auto.
  - cbn [okS]. split; [exact I|]. intros r. destruct r; try exact I. destruct b; [|exact I].
    cbn [okS]. split; [exact I|]. intros r. destruct r; first [exact I | apply G].
Qed.

Record VInv (w : World) : Prop := {
  v_len : (List.length (w_vms w) <= 1)%nat;
  v_c : match w_c w with Some p => exists g, okS g p /\ (g = true -> w_vms w = []) | None => True end;
  v_t : match w_t w with Some p => okN p | None => True end }.

Lemma shrunk_len a b : shrunk a b -> (List.length b <= List.length a)%nat.
Proof. intros (f & ->). induction a; cbn; [lia|]. destruct (f a); cbn; lia. Qed.
Lemma shrunk_nil b : shrunk [] b -> b = [].
Proof. intros (f & ->). reflexivity. Qed.

Lemma v_shrunk w l vms : VInv w -> shrunk (w_vms w) vms -> VInv (setLog w l vms).
Proof.
  intros [A B C] S. constructor; cbn.
  - pose proof (shrunk_len _ _ S). lia.
  - destruct (w_c w); [|exact I]. destruct B as (g & B1 & B2). exists g. split; [exact B1|]. intros G. rewrite (B2 G) in S. apply shrunk_nil, S.
  - exact C.
Qed.

Lemma store_same w o n : w_vms (store w o n) = w_vms w /\ w_c (store w o n) = w_c w /\ w_t (store w o n) = w_t w /\ w_log (store w o n) = w_log w.
Proof. unfold store. destruct (MObj_eq_dec o n); cbn; auto. Qed.
Lemma v_store w o n : VInv w -> VInv (store w o n).
Proof. intros [A B C]. destruct (store_same w o n) as (E1 & E2 & E3 & _). constructor; rewrite ?E1, ?E2, ?E3; assumption. Qed.
Lemma write_same w merge m f w' r : apiWrite w merge m f = (w', r) ->
  w_vms w' = w_vms w /\ w_c w' = w_c w /\ w_t w' = w_t w /\ w_log w' = w_log w.
Proof.
  unfold apiWrite. destruct f; destruct (accepted w merge m) as [(o & n) |]; intros E; injection E as <- <-; try (repeat split; reflexivity).
  all: apply store_same.
Qed.
Lemma perform_same w who c r f vms w' r' : perform w who c r f vms = (w', r') ->
  w_vms w' = vmsAfter w c vms /\ w_c w' = w_c w /\ w_t w' = w_t w /\ w_log w' = (who, c, r') :: w_log w /\
  (match c with CNow | WMeta _ | WStatus _ => True | _ => r' = r end).
Proof.
  unfold perform. intros E.
  destruct c;
  try (injection E as <- <-; cbn; repeat split; reflexivity).
  - destruct (apiWrite w mergeMeta m f) as (w1 & r1) eqn:EW. apply write_same in EW. destruct EW as (A & B & C & D).
    injection E as <- <-. cbn. rewrite B, C, D. repeat split; reflexivity.
  - destruct (apiWrite w mergeStatus m f) as (w1 & r1) eqn:EW. apply write_same in EW. destruct EW as (A & B & C & D).
    injection E as <- <-. cbn. rewrite B, C, D. repeat split; reflexivity.
Qed.

Lemma v_step cf w op : VInv w -> truthful w op -> VInv (step cf w op).
Proof.
  intros V T. destruct op; cbn [step].
  - destruct (w_obj w); [exact V|]. destruct V as [A B C]. constructor; assumption.
  - destruct (w_obj w); [|exact V]. destruct (mo_dt m); [exact V | apply v_store, V].
  - destruct (w_obj w); [|exact V]. destruct (String.eqb k "node"); [exact V | apply v_store, V].
  - destruct (w_obj w); [|exact V]. apply v_store, V.
  - destruct (w_obj w); [|exact V]. apply v_store, V.
  - destruct (w_obj w); [|exact V]. apply v_store, V.
  - destruct (w_pend w); [exact V|]. destruct V as [A B C]. constructor; assumption.
  - destruct (if t then w_t w else w_c w); [exact V|]. destruct (t && negb (w_tq w))%bool; [exact V|].
    unfold start. destruct V as [A B C]. destruct (w_view w).
    + destruct t; [constructor; cbn [setSlots w_vms w_c w_t]; try assumption; apply okN_termination|].
      destruct (mo_dt m); [constructor; assumption|].
      constructor; cbn [setSlots w_vms w_c w_t]; try assumption. exists false. split; [apply okS_reconcile | discriminate].
    + destruct t; constructor; assumption.
  - cbn [truthful] in T. destruct t.
    + destruct (w_t w) as [[| | c k] |] eqn:ET; try exact V.
      * destruct V as [A B C]. constructor; cbn; assumption || exact I.
      * destruct V as [A B C]. constructor; cbn; assumption || exact I.
      * destruct (perform w QT c r f vms) as (w' & r') eqn:EP.
        destruct (perform_same _ _ _ _ _ _ _ _ EP) as (P1 & P2 & P3 & P4 & P5).
        destruct V as [A B C]. rewrite ET in C. cbn [okN] in C. destruct C as (C1 & C2).
        assert (S : shrunk (w_vms w) (w_vms w')).
        { rewrite P1. assert (R : shrunk (w_vms w) (w_vms w)).
          { exists (fun _ => true). clear. induction (w_vms w); cbn; congruence. }
          destruct c; cbn [vmsAfter]; auto; [destruct C1|]. apply T. }
        constructor; cbn.
        -- pose proof (shrunk_len _ _ S). lia.
        -- rewrite P2. destruct (w_c w); [|exact I]. destruct B as (g & B1 & B2). exists g. split; [exact B1|].
           intros G. rewrite (B2 G) in S. apply shrunk_nil, S.
        -- apply C2.
    + destruct (w_c w) as [[| | c k] |] eqn:EC; try exact V.
      * destruct V as [A B C]. constructor; cbn; assumption || exact I.
      * destruct V as [A B C]. constructor; cbn; assumption || exact I.
      * destruct (perform w QC c r f vms) as (w' & r') eqn:EP.
        destruct (perform_same _ _ _ _ _ _ _ _ EP) as (P1 & P2 & P3 & P4 & P5).
        destruct V as [A B C]. rewrite EC in B. destruct B as (g & (B1 & B2) & B3).
        constructor; cbn.
        -- rewrite P1. destruct c; cbn [vmsAfter]; auto.
           ++ cbn [truthful] in T. rewrite (B3 B1) in T. destruct r; cbn [create_true] in T; try (rewrite T; cbn; lia).
              destruct T as [T | (p & T)]; rewrite T; cbn; lia.
           ++ destruct T as (T & _). pose proof (shrunk_len _ _ T). lia.
        -- exists (none c r'). split; [apply B2|]. intros G. rewrite P1.
           destruct c; try discriminate. cbn [vmsAfter]. subst r'. destruct r; try discriminate.
           cbn [none] in G. cbn [status_true] in T. apply andb_true_iff in G. destruct G as (G1 & G2).
           destruct (T G1) as (T1 & T2 & _). apply orb_true_iff in G2. destruct G2 as [G2 | G2]; apply N.eqb_eq in G2; [apply T2, G2 | contradiction].
        -- rewrite P3. exact C.
  - destruct (spared (w_view w) pid); [exact V|]. apply v_shrunk; [exact V | apply T].
  - apply v_shrunk; [exact V | exact T].
  - destruct V as [A B C]. constructor; assumption.
  - destruct V as [A B C]. constructor; cbn; assumption || exact I.
Qed.

Lemma v_init now : VInv (init now).
Proof. constructor; cbn; auto. Qed.

Lemma v_run cf : forall ops w, VInv w -> truthful_run cf w ops -> VInv (run cf w ops).
Proof.
  induction ops as [| op ops IH]; intros w V T; [exact V|]. destruct T as (T1 & T2).
  apply (IH (step cf w op)); [apply v_step; assumption | exact T2].
Qed.

(** ** Counting *)
Lemma truthful_app cf : forall a b w, truthful_run cf w (a ++ b) -> truthful_run cf w a /\ truthful_run cf (run cf w a) b.
Proof.
  induction a as [| op a IH]; intros b w H; [split; [exact I | exact H]|]. destruct H as (H1 & H2). destruct (IH _ _ H2) as (H3 & H4).
  split; [split; assumption | exact H4].
Qed.

Definition balanced (w : World) : Prop := (count created (w_log w) <= List.length (w_vms w) + count deleting (w_log w))%nat.

Lemma count_step cf w op : VInv w -> truthful w op -> steady op -> balanced w -> balanced (step cf w op).
Proof.
  intros V T S B. unfold balanced in *. destruct op; cbn [step]; try exact B.
  - destruct (w_obj w); exact B.
  - destruct (w_obj w) as [o|]; [|exact B]. destruct (mo_dt o); [exact B|].
    destruct (store_same w o (withDt (w_now w) o)) as (-> & _ & _ & ->). exact B.
  - destruct (w_obj w) as [o|]; [|exact B]. destruct (String.eqb k "node"); [exact B|].
    destruct (store_same w o (withLabels (put k v (mo_labels o)) o)) as (-> & _ & _ & ->). exact B.
  - destruct (w_obj w) as [o|]; [|exact B]. match goal with |- context [store ?a ?b ?c] => destruct (store_same a b c) as (-> & _ & _ & ->) end. exact B.
  - destruct (w_obj w) as [o|]; [|exact B]. match goal with |- context [store ?a ?b ?c] => destruct (store_same a b c) as (-> & _ & _ & ->) end. exact B.
  - destruct (w_obj w) as [o|]; [|exact B]. match goal with |- context [store ?a ?b ?c] => destruct (store_same a b c) as (-> & _ & _ & ->) end. exact B.
  - destruct (w_pend w); exact B.
  - destruct (if t then w_t w else w_c w); [exact B|]. destruct (t && negb (w_tq w))%bool; [exact B|].
    unfold start. destruct (w_view w); [|destruct t; exact B]. destruct t; [exact B|]. destruct (mo_dt m); exact B.
  - assert (G : forall c k who, (if t then w_t w else w_c w) = Some (Do c k) ->
       (count created (w_log (fst (perform w who c r f vms))) <= List.length (w_vms (fst (perform w who c r f vms))) + count deleting (w_log (fst (perform w who c r f vms))))%nat).
    { intros c k who ES. destruct (perform w who c r f vms) as (w' & r') eqn:EP. cbn [fst].
      destruct (perform_same _ _ _ _ _ _ _ _ EP) as (P1 & _ & _ & P4 & P5). rewrite P1, P4.
      cbn [truthful] in T. rewrite ES in T. unfold count in *. cbn [filter created deleting].
      destruct c; cbn [vmsAfter]; try exact B.
      - subst r'. destruct r; cbn [create_true] in T; try (rewrite T; exact B).
        + rewrite T. cbn [List.length]. lia.
        + destruct T as [T | (p & T)]; rewrite T; cbn [List.length]; lia.
      - cbn [List.length]. pose proof (v_len _ V). lia. }
    destruct t.
    + destruct (w_t w) as [[| | c k] |] eqn:ET; try exact B. specialize (G c k QT eq_refl).
      destruct (perform w QT c r f vms) as (w' & r'). exact G.
    + destruct (w_c w) as [[| | c k] |] eqn:ET; try exact B. specialize (G c k QC eq_refl).
      destruct (perform w QC c r f vms) as (w' & r'). exact G.
  - destruct (spared (w_view w) pid); [exact B|]. unfold count in *. cbn. pose proof (v_len _ V). lia.
  - destruct S.
Qed.

Lemma count_run cf : forall ops w, VInv w -> truthful_run cf w ops -> Forall steady ops -> balanced w -> balanced (run cf w ops).
Proof.
  induction ops as [| op ops IH]; intros w V T S B; [exact B|]. destruct T as (T1 & T2). inversion S; subst.
  apply (IH (step cf w op)); auto using v_step, count_step.
Qed.

(** ** Adoption *)
Lemma finish_records cf m uninit node pid :
  has "node" (mo_labels m) = false \/ has MachinePriority (mo_annots m) = false \/ mo_pid m = "" ->
  next (finishCreation cf m uninit node pid) [] = Some (WMeta (labelled m node pid)).
Proof.
  intros H. unfold finishCreation.
  destruct (has "node" (mo_labels m)) eqn:E1; [|reflexivity].
  destruct (has MachinePriority (mo_annots m)) eqn:E2; [|reflexivity].
  destruct H as [H | [H | H]]; try discriminate. rewrite H. reflexivity.
Qed.

Lemma adopts cf m node pid lks rs x :
  next (triggerCreationFlow cf m) (RUnit :: POk node pid lks :: rs) <> Some (CCreate x).
Proof. change (next (finishCreation cf m false node pid) rs <> Some (CCreate x)). apply okN_next, okN_finish. Qed.

(** ** The cache *)
Definition tailOk (w : World) : Prop := last (w_pend w) (w_view w) = w_obj w.

Lemma last_snoc {A} (l : list A) x d : last (l ++ [x]) d = x.
Proof. induction l; [reflexivity|]. cbn. destruct (l ++ [x]) eqn:E; [destruct l; discriminate | exact IHl]. Qed.
Lemma last_cons {A} (l : list A) x d : last (x :: l) d = last l x.
Proof.
  revert x d. induction l as [| y l IH]; intros; [reflexivity|].
  change (last (y :: l) d = last (y :: l) x). rewrite IH. symmetry. apply IH.
Qed.

Lemma tail_store w o n : tailOk w -> tailOk (store w o n).
Proof. intros T. unfold store. destruct (MObj_eq_dec o n); [exact T|]. unfold tailOk. cbn. apply last_snoc. Qed.

Lemma tail_perform w who c r f vms : tailOk w -> tailOk (fst (perform w who c r f vms)).
Proof.
  intros T. unfold perform.
  assert (G : forall merge m, tailOk (fst (apiWrite w merge m f))).
  { intros merge m. unfold apiWrite. destruct f; destruct (accepted w merge m) as [(o & n) |]; cbn [fst]; try exact T; apply tail_store, T. }
  destruct c; try exact T.
  - specialize (G mergeMeta m). destruct (apiWrite w mergeMeta m f). exact G.
  - specialize (G mergeStatus m). destruct (apiWrite w mergeStatus m f). exact G.
Qed.

Lemma tail_step cf w op : tailOk w -> tailOk (step cf w op).
Proof.
  intros T. destruct op; cbn [step]; try exact T.
  - destruct (w_obj w) eqn:E; [exact T|]. unfold tailOk. cbn. apply last_snoc.
  - destruct (w_obj w) as [o|]; [|exact T]. destruct (mo_dt o); [exact T | apply tail_store, T].
  - destruct (w_obj w) as [o|]; [|exact T]. destruct (String.eqb k "node"); [exact T | apply tail_store, T].
  - destruct (w_obj w) as [o|]; [|exact T]. apply tail_store, T.
  - destruct (w_obj w) as [o|]; [|exact T]. apply tail_store, T.
  - destruct (w_obj w) as [o|]; [|exact T]. apply tail_store, T.
  - destruct (w_pend w) as [| v p] eqn:E; [exact T|]. unfold tailOk in *. cbn [w_obj w_pend w_view]. rewrite E, last_cons in T. exact T.
  - destruct (if t then w_t w else w_c w); [exact T|]. destruct (t && negb (w_tq w))%bool; [exact T|].
    unfold start. destruct (w_view w) eqn:E; [|destruct t; unfold tailOk in *; cbn [w_obj w_pend w_view]; try rewrite E in *; exact T]. 
    destruct t; [exact T|]. destruct (mo_dt m); exact T.
  - destruct t.
    + destruct (w_t w) as [[| | c k] |]; try exact T. pose proof (tail_perform w QT c r f vms T) as G.
      destruct (perform w QT c r f vms). exact G.
    + destruct (w_c w) as [[| | c k] |]; try exact T. pose proof (tail_perform w QC c r f vms T) as G.
      destruct (perform w QC c r f vms). exact G.
  - destruct (spared (w_view w) pid); exact T.
Qed.

Lemma tail_run cf : forall ops w, tailOk w -> tailOk (run cf w ops).
Proof. induction ops as [| op ops IH]; intros w T; [exact T|]. apply (IH (step cf w op)), tail_step, T. Qed.

Lemma fresh_spared cf now ops o r vms : let w := run cf (init now) ops in
  w_pend w = [] -> w_obj w = Some o -> step cf w (OOrphan (mo_pid o) r vms) = w.
Proof.
  intros w P O. assert (T : tailOk w) by (apply tail_run; reflexivity).
  unfold tailOk in T. rewrite P, O in T. cbn in T. cbn [step]. rewrite T. cbn [spared]. rewrite String.eqb_refl. reflexivity.
Qed.

(** ** A round of orphan collection *)
Definition collecting (op : Op) : Prop := match op with OOrphan _ r _ => vm_gone r | _ => False end.

Lemma collect_keeps cf : forall ops w, Forall collecting ops -> truthful_run cf w ops -> w_view w = None ->
  (forall p, ~ In p (w_vms w) -> ~ In p (w_vms (run cf w ops))).
Proof.
  induction ops as [| op ops IH]; intros w F T N p H; [exact H|]. inversion F; subst. destruct T as (T1 & T2).
  destruct op; try contradiction.
  assert (E : step cf w (OOrphan pid r vms) = setLog w ((QO, CDelete (orphanObj pid), r) :: w_log w) vms)
    by (cbn [step]; rewrite N; reflexivity).
  change (~ In p (w_vms (run cf (step cf w (OOrphan pid r vms)) ops))). rewrite E in *. apply IH; auto.
  cbn. destruct T1 as ((keep & ->) & _). intros I0. apply filter_In in I0. tauto.
Qed.

Lemma collected cf : forall ops w, Forall collecting ops -> truthful_run cf w ops -> w_view w = None ->
  forall p, (exists r v, In (OOrphan p r v) ops) -> ~ In p (w_vms (run cf w ops)).
Proof.
  induction ops as [| op ops IH]; intros w F T N p (r & v & H); [destruct H|]. inversion F; subst. destruct T as (T1 & T2).
  destruct op; try contradiction.
  assert (E : step cf w (OOrphan pid r0 vms) = setLog w ((QO, CDelete (orphanObj pid), r0) :: w_log w) vms)
    by (cbn [step]; rewrite N; reflexivity).
  change (~ In p (w_vms (run cf (step cf w (OOrphan pid r0 vms)) ops))). rewrite E in *.
  destruct H as [H | H].
  - injection H as <- <- <-.
    apply collect_keeps; auto. cbn. destruct T1 as (_ & T1). apply T1. assumption.
  - apply IH; auto. exists r, v. exact H.
Qed.

Lemma collect_all cf ops w : Forall collecting ops -> truthful_run cf w ops -> w_view w = None ->
  (forall p, In p (w_vms w) -> exists r v, In (OOrphan p r v) ops) -> w_vms (run cf w ops) = [].
Proof.
  intros F T N A.
  assert (G : forall p, ~ In p (w_vms (run cf w ops))).
  { intros p. destruct (in_dec string_dec p (w_vms w)) as [I0 | I0]; [apply collected; auto | apply collect_keeps; auto]. }
  destruct (w_vms (run cf w ops)) as [| p l]; [reflexivity|]. exfalso. apply (G p). left; reflexivity.
Qed.
