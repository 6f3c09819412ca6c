(* In every history of a machine its stored status is consistent in itself. *)
Require Import List String Bool Arith ZArith Lia.
From Verif Require Import CodesModel MachModel LevModel HealthModel LifeModel CreaSpec.
Import ListNotations.
Open Scope string_scope.
Open Scope list_scope.
Open Scope Z_scope.

Definition sane (T : Z) (m : MObj) : Prop := saneStatus T (mo_status m).

Lemma sane_later : forall T T' m, T <= T' -> sane T m -> sane T' m.
Proof. intros T T' m L (A & B & C & D & E & F). unfold sane, saneStatus. do 5 (split; [assumption|]). intros N. destruct (F N). split; lia. Qed.

(* Every status that the reconcile writes is sane at the time it is written, if its
   answers are. *)
Fixpoint okP (T : Z) (p : prog) : Prop :=
  match p with
  | Do c k =>
      (forall x, c = WStatus x -> sane T x) /\
      (forall T' r, T <= T' -> (forall t, c = CNow -> r = RTime t -> t <= T') ->
         (forall x y, c = WMeta x \/ c = WStatus x -> r = RObj y -> sane T' y) -> okP T' (k r))
  | _ => True
  end.

Lemma okP_later : forall p T T', T <= T' -> okP T p -> okP T' p.
Proof.
  intros [| |c k] T T' L H; cbn in *; [exact I | exact I|]. destruct H as (A & B). split.
  - intros x E. eapply sane_later; [exact L | apply A; exact E].
  - intros T2 r L2 C D. apply B; [lia | exact C | exact D].
Qed.

Lemma do_c : forall T c k, (forall x, c <> WStatus x) -> (forall x, c <> WMeta x) -> c <> CNow ->
  (forall T' r, T <= T' -> okP T' (k r)) -> okP T (Do c k).
Proof. intros T c k A B C H. cbn. split; [intros x E; destruct (A x E)|]. intros T' r L _ _. apply H. exact L. Qed.
Lemma do_now : forall T k, (forall T' t, T <= T' -> t <= T' -> okP T' (k (RTime t))) -> (forall T' r, (forall t, r <> RTime t) -> okP T' (k r)) -> okP T (Do CNow k).
Proof.
  intros T k A B. cbn. split; [discriminate|]. intros T' r L C _. destruct r; try (apply B; discriminate). apply A; [exact L|]. apply C; reflexivity.
Qed.
Lemma do_last : forall T x, sane T x -> okP T (Do (WStatus x) (fun _ => Done)).
Proof. intros T x S. cbn. split; [intros y E; injection E as <-; exact S | intros; exact I]. Qed.
Lemma do_meta : forall T x k, (forall T' y, T <= T' -> sane T' y -> okP T' (k (RObj y))) -> (forall T' r, T <= T' -> (forall y, r <> RObj y) -> okP T' (k r)) -> okP T (Do (WMeta x) k).
Proof.
  intros T x k A B. cbn. split; [discriminate|]. intros T' r L _ C. destruct r; try (apply B; [exact L | discriminate]). apply A; [exact L|]. eapply C; [left; reflexivity | reflexivity].
Qed.

Ltac phases := cbn; tauto.

(* A status with a non-empty phase and times not after T. *)
Lemma sane_new : forall T conds d code t st ty ph tm t' lks, t <= T -> t' <= T ->
  (tm = true <-> ph = "Pending") -> ph <> "" -> In ph ["Pending"; "Running"; "Unknown"; "Failed"; "CrashLoopBackOff"; "Terminating"] ->
  In st [""; "Processing"; "Failed"; "Successful"] -> In ty [""; "Create"; "HealthCheck"; "Delete"] ->
  saneStatus T (mkMS conds (mkOp d code t st ty) (mkCur ph tm t') lks).
Proof.
  intros T conds d code t st ty ph tm t' lks L L' TM NE P S Y. unfold saneStatus. cbn [ms_cur ms_op cs_phase cs_timeoutActive cs_time lo_state lo_type lo_time].
  split; [exact TM|]. split; [right; exact P|]. split; [exact S|]. split; [exact Y|]. split; [intros E; contradiction | auto].
Qed.

Lemma ok_status : forall T m d code st ty cur lks, In st [""; "Processing"; "Failed"; "Successful"] -> In ty [""; "Create"; "HealthCheck"; "Delete"] ->
  (forall T' now, T <= T' -> now <= T' -> (cs_timeoutActive (cur now) = true <-> cs_phase (cur now) = "Pending") /\ cs_phase (cur now) <> "" /\
     In (cs_phase (cur now)) ["Pending"; "Running"; "Unknown"; "Failed"; "CrashLoopBackOff"; "Terminating"] /\ cs_time (cur now) <= T') ->
  okP T (statusUpdate m d code st ty cur lks).
Proof.
  intros T m d code st ty cur lks S Y C. unfold statusUpdate. apply do_now.
  - intros T' now L N. unfold machineStatusUpdate. cbv zeta. destruct (isMachineStatusSimilar _ _ _); [exact I|]. apply do_last.
    destruct (C T' now L N) as (A & B & D & E). unfold sane. cbn. destruct (cur now) as [ph tm t']. cbn in *. apply sane_new; assumption.
  - intros T' r NR. destruct r; try exact I. destruct (NR t eq_refl).
Qed.

Lemma sane_cur : forall T m, sane T m -> phase m <> "" ->
  (cs_timeoutActive (ms_cur (mo_status m)) = true <-> cs_phase (ms_cur (mo_status m)) = "Pending") /\ cs_phase (ms_cur (mo_status m)) <> "" /\
  In (cs_phase (ms_cur (mo_status m))) ["Pending"; "Running"; "Unknown"; "Failed"; "CrashLoopBackOff"; "Terminating"] /\ cs_time (ms_cur (mo_status m)) <= T.
Proof.
  intros T m (A & B & _ & _ & _ & F) N. unfold phase in N. split; [exact A|]. split; [exact N|]. destruct B as [B|B]; [congruence|]. split; [exact B | apply F; exact N].
Qed.

Lemma ok_deletion : forall T m d st ty lks, sane T m -> phase m <> "" -> In st [""; "Processing"; "Failed"; "Successful"] -> In ty [""; "Create"; "HealthCheck"; "Delete"] ->
  okP T (deletionUpdate m d st ty lks).
Proof.
  intros T m d st ty lks S N A B. unfold deletionUpdate. apply ok_status; [exact A | exact B|]. intros T' now L _. apply sane_cur; [eapply sane_later; eassumption | exact N].
Qed.

Ltac sst := match goal with
  | |- okP _ Done => exact I
  | |- okP _ Panic => exact I
  | |- okP _ (deletionUpdate _ _ _ _ _) => apply ok_deletion; [ eapply sane_later; [|eassumption]; lia | assumption | phases | phases]
  | |- okP _ (Do CNow _) => apply do_now; [intros ? ? ? ? | intros ? ? ?]
  | |- okP _ (Do (WMeta _) _) => apply do_meta; [intros ? ? ? ? | intros ? ? ? ?]
  | |- okP _ (Do (WStatus _) (fun _ => Done)) => apply do_last
  | |- okP _ (Do _ _) => apply do_c; [discriminate | discriminate | discriminate | intros ? ? ?]
  | H : forall t, RTime ?x <> RTime t |- _ => destruct (H x eq_refl)
  | H : forall y, RObj ?x <> RObj y |- _ => destruct (H x eq_refl)
  | |- okP _ (match ?x with _ => _ end) => destruct x eqn:?
  | |- okP _ (if ?x then _ else _) => destruct x eqn:?
  end.

Lemma ok_setTermination : forall T m, okP T (setMachineTerminationStatus m).
Proof. intros. unfold setMachineTerminationStatus. repeat sst. apply sane_new; try assumption; try phases; try discriminate. split; discriminate. Qed.

Lemma ok_runDrain : forall T m f, sane T m -> phase m <> "" -> okP T (runDrain m f).
Proof. intros T m f S N. unfold runDrain. repeat sst. Qed.

Lemma ok_trigger : forall cf T m, sane T m -> okP T (triggerDeletionFlow cf m).
Proof.
  intros cf T m S. unfold triggerDeletionFlow. destruct (negb (hasFin m)); [exact I|].
  destruct (String.eqb_spec (phase m) "Terminating") as [P|P]; cbn [negb]; [|apply ok_setTermination].
  assert (N : phase m <> "") by congruence.
  destruct (contains GetVMStatus (desc m)).
  { unfold updateMachineStatusAndNodeLabel, updateMachineNodeLabel. repeat sst. all: apply ok_deletion; [eapply sane_later; [|exact S]; lia | exact N | | phases].
    all: match goal with H : statusFailure ?t = (_, ?s) |- _ => unfold statusFailure in H; destruct (FromError t) as [st ok];
      repeat match type of H with (if ?b then _ else _) = _ => destruct b end; injection H as _ <-; phases end. }
  destruct (contains InitiateDrain (desc m)).
  { unfold drainNode. cbv zeta. repeat first [match goal with |- okP _ (runDrain _ _) => apply ok_runDrain; [eapply sane_later; [|exact S]; lia | exact N] end | sst]. }
  destruct (contains DelVolumesAttachments (desc m)).
  { assert (Y : In (lo_type (ms_op (mo_status m))) [""; "Create"; "HealthCheck"; "Delete"]) by (destruct S as (_ & _ & _ & S & _); exact S).
    unfold deleteNodeVolAttachments. cbv zeta. repeat first [match goal with |- okP _ (deletionUpdate _ _ _ _ _) => apply ok_deletion; [ eapply sane_later; [|exact S]; lia | exact N | phases | exact Y] end | sst]. }
  destruct (contains InitiateVMDeletion (desc m)).
  { unfold deleteVM. repeat sst. all: apply ok_deletion; [eapply sane_later; [|exact S]; lia | exact N | | phases].
    all: match goal with H : deleteFailure ?t = (_, ?s) |- _ => unfold deleteFailure in H; destruct (FromError t) as [st ok];
      repeat match type of H with (if ?b then _ else _) = _ => destruct b end; injection H as _ <-; phases end. }
  destruct (contains InitiateNodeDeletion (desc m)); [unfold deleteNodeObject; cbv zeta; repeat sst|].
  destruct (contains InitiateFinalizerRemoval (desc m)); [unfold deleteMachineFinalizers; repeat sst|].
  apply ok_setTermination.
Qed.

Lemma ok_termination : forall cf T m, sane T m -> okP T (reconcileTermination cf m).
Proof. intros. unfold reconcileTermination. repeat sst. apply ok_trigger. eapply sane_later; eassumption. Qed.

Lemma fail_cur : forall cf m T' now, now <= T' -> let c := mkCur (createFailurePhase cf m now) false now in
  (cs_timeoutActive c = true <-> cs_phase c = "Pending") /\ cs_phase c <> "" /\
  In (cs_phase c) ["Pending"; "Running"; "Unknown"; "Failed"; "CrashLoopBackOff"; "Terminating"] /\ cs_time c <= T'.
Proof.
  intros cf m T' now L. cbn [cs_timeoutActive cs_phase cs_time]. unfold createFailurePhase. destruct (0 <? _); (split; [split; discriminate|]); (split; [discriminate|]); (split; [phases | exact L]).
Qed.

Lemma ok_createError : forall cf T m l t, okP T (machineCreateErrorHandler cf m l t).
Proof. intros. unfold machineCreateErrorHandler. apply ok_status; [phases | phases|]. intros. apply fail_cur. assumption. Qed.

Lemma ok_init : forall cf T m, okP T (initializeMachine cf m).
Proof. intros. unfold initializeMachine. repeat sst. apply ok_status; [phases | phases|]. intros. apply fail_cur. assumption. Qed.

Lemma ok_pending : forall T m, okP T (setPending m).
Proof. intros. unfold setPending. repeat sst. apply sane_new; try assumption; try phases; try discriminate. Qed.

Lemma ok_finish : forall cf T m u n p, okP T (finishCreation cf m u n p).
Proof. intros. unfold finishCreation. repeat first [match goal with |- okP _ (initializeMachine _ _) => apply ok_init | |- okP _ (setPending _) => apply ok_pending end | sst]. Qed.

Lemma ok_creation : forall cf T m, okP T (triggerCreationFlow cf m).
Proof.
  intros. unfold triggerCreationFlow, createVM.
  repeat first [match goal with |- okP _ (finishCreation _ _ _ _ _) => apply ok_finish | |- okP _ (machineCreateErrorHandler _ _ _ _) => apply ok_createError
    | |- okP _ (statusUpdate _ _ _ _ _ _ _) => apply ok_status; [phases | phases|] end | sst].
  intros T2 now _ L. cbn. split; [split; discriminate|]. split; [discriminate|]. split; [tauto | exact L].
Qed.

Lemma ok_needed : forall cf T m, okP T (creationIfNeeded cf m).
Proof. intros. unfold creationIfNeeded. destruct (_ || _); [apply ok_creation | exact I]. Qed.

Lemma sane_health : forall sh creation health bad now a m T, now <= T -> sane T m -> phase m <> "" ->
  match reconcileMachineHealth sh creation health bad now a m with HWrite s => saneStatus T s | HTryFail _ s => True | _ => True end.
Proof.
  intros sh creation health bad now a m T L S N.
  assert (Y : In (lo_type (ms_op (mo_status m))) [""; "Create"; "HealthCheck"; "Delete"]) by (destruct S as (_ & _ & _ & S & _); exact S).
  assert (K : forall cs, saneStatus T (mkMS cs (ms_op (mo_status m)) (ms_cur (mo_status m)) (ms_lks (mo_status m)))) by (intros cs; exact S).
  unfold reconcileMachineHealth. cbv zeta.
  repeat match goal with |- match (match ?x with _ => _ end) with _ => _ end => destruct x eqn:? | |- match (if ?x then _ else _) with _ => _ end => destruct x eqn:? | |- match (HWrite _) with _ => _ end => cbn end;
  try exact I; try apply K; try (apply sane_new; try assumption; try phases; try discriminate; split; discriminate).
  all: try (destruct (String.eqb (lo_type (ms_op (mo_status m))) "Create" && _); apply sane_new; try assumption; try phases; try discriminate; split; discriminate).
Qed.

Lemma ok_health : forall cf T m, sane T m -> phase m <> "" -> okP T (healthThenCreate cf m).
Proof.
  intros cf T m S N. unfold healthThenCreate. cbv zeta. apply do_c; [discriminate|discriminate|discriminate|]. intros T1 r L1. destruct r; try exact I.
  apply do_now; [|intros T' r NR; destruct r; try exact I; destruct (NR t eq_refl)]. intros T2 now L2 LN.
  assert (GO : forall T', okP T' (Do (CSync m) (fun r => match r with RUnit => creationIfNeeded cf m | _ => Done end))).
  { intros T'. apply do_c; [discriminate|discriminate|discriminate|]. intros T3 r _. destruct r; try exact I. apply ok_needed. }
  assert (S2 : sane T2 m) by (eapply sane_later; [|exact S]; lia).
  pose proof (sane_health (cf_show cf) (cf_creation cf) (cf_health cf) (cf_bad cf) now a m T2 LN S2 N) as H.
  destruct (reconcileMachineHealth _ _ _ _ _ _ _); [exact I | apply do_last; exact H | | apply GO | apply GO].
  apply do_c; [discriminate|discriminate|discriminate|]. intros T3 r L3. destruct r; try exact I. destruct b; [|exact I]. cbn [okP]. split.
  - intros x E. injection E as <-. unfold sane. cbn. unfold failedStatus.
    assert (Y : In (lo_type (ms_op (mo_status m))) [""; "Create"; "HealthCheck"; "Delete"]) by (destruct S as (_ & _ & _ & S & _); exact S).
    apply sane_new; try lia; try exact Y; try discriminate; try (split; discriminate); phases.
  - intros T' r L _ _. destruct r; try exact I. apply GO.
Qed.

Lemma ok_reconcile : forall cf T m, sane T m -> okP T (reconcileMachine cf m).
Proof.
  intros cf T m S. unfold reconcileMachine. repeat sst.
  - apply ok_health; [eapply sane_later; [|exact S]; lia|].
    match goal with H : (negb _ && negb _)%bool = true |- _ => apply andb_true_iff in H as (_ & H); apply negb_true_iff, String.eqb_neq in H; exact H end.
  - apply ok_needed.
Qed.

Definition runInv (w : World) : Prop :=
  (forall o, w_obj w = Some o -> sane (w_now w) o) /\ (forall o, w_view w = Some o -> sane (w_now w) o) /\
  (forall o, In (Some o) (w_pend w) -> sane (w_now w) o) /\ (forall o, In o (w_vers w) -> sane (w_now w) o) /\
  (forall p, w_c w = Some p -> okP (w_now w) p) /\ (forall p, w_t w = Some p -> okP (w_now w) p).

Lemma inv_obj : forall w o, runInv w -> w_obj w = Some o -> sane (w_now w) o.
Proof. intros w o (A & _). apply A. Qed.
Lemma inv_view : forall w o, runInv w -> w_view w = Some o -> sane (w_now w) o.
Proof. intros w o (_ & A & _). apply A. Qed.
Lemma inv_c : forall w p, runInv w -> w_c w = Some p -> okP (w_now w) p.
Proof. intros w o (_ & _ & _ & _ & A & _). apply A. Qed.
Lemma inv_t : forall w p, runInv w -> w_t w = Some p -> okP (w_now w) p.
Proof. intros w o (_ & _ & _ & _ & _ & A). apply A. Qed.

Lemma inv_store : forall w o n, runInv w -> sane (w_now w) n -> runInv (store w o n).
Proof.
  intros w o n (A & B & C & V & D & E) S. unfold store. destruct (MObj_eq_dec o n); [unfold runInv; auto 10|].
  assert (S' : sane (w_now w) (withRv (w_next w) n)) by exact S. cbv zeta.
  set (st := match mo_dt (withRv (w_next w) n), mo_fins (withRv (w_next w) n) with Some _, [] => None | _, _ => Some (withRv (w_next w) n) end).
  assert (X : forall x, st = Some x -> x = withRv (w_next w) n).
  { intros x. unfold st. destruct (mo_dt _); [destruct (mo_fins _)|]; congruence. }
  unfold runInv. cbn [w_obj w_view w_pend w_vers w_c w_t w_now]. split; [intros x H; apply X in H; subst; exact S'|]. split; [exact B|]. split.
  - intros x H. apply in_app_or in H as [H|[H|[]]]; [apply C; exact H | apply X in H; subst; exact S'].
  - split; [intros x [<- | H]; [exact S' | apply V; exact H]|]. auto.
Qed.

Lemma now_store : forall w o n, w_now (store w o n) = w_now w.
Proof. intros. unfold store. destruct (MObj_eq_dec o n); reflexivity. Qed.

Lemma inv_write : forall w g m f w' r, runInv w -> (forall o, w_obj w = Some o -> sane (w_now w) (g o m)) -> apiWrite w g m f = (w', r) ->
  runInv w' /\ w_now w' = w_now w /\ w_c w' = w_c w /\ w_t w' = w_t w /\ (forall y, r = RObj y -> sane (w_now w) y).
Proof.
  intros w g m f w' r I S H. assert (SF : forall o n, w_c (store w o n) = w_c w /\ w_t (store w o n) = w_t w) by (intros; unfold store; destruct (MObj_eq_dec o n); auto).
  unfold apiWrite in H. destruct (accepted w g m) as [[o n]|] eqn:A.
  - unfold accepted in A. destruct (w_obj w) as [o'|] eqn:O; [|discriminate]. destruct (_ && _)%bool; [|discriminate]. injection A as -> <-.
    specialize (S o eq_refl). destruct (SF o (g o m)) as (SC & ST).
    destruct f; injection H as <- <-; rewrite ?now_store.
    + split; [apply inv_store; assumption|]. split; [reflexivity|]. split; [exact SC|]. split; [exact ST|]. intros y E. injection E as <-.
      destruct (MObj_eq_dec o (g o m)); [exact (inv_obj _ _ I O) | exact S].
    + split; [exact I|]. do 3 (split; [reflexivity|]). discriminate.
    + split; [apply inv_store; assumption|]. split; [reflexivity|]. split; [exact SC|]. split; [exact ST|]. discriminate.
  - destruct f; injection H as <- <-; (split; [exact I|]); do 3 (split; [reflexivity|]); discriminate.
Qed.

Lemma inv_perform : forall w who c r f vms w' r', runInv w -> (forall x, c = WStatus x -> sane (w_now w) x) -> perform w who c r f vms = (w', r') ->
  runInv w' /\ w_now w' = w_now w /\ (forall t, c = CNow -> r' = RTime t -> t <= w_now w) /\
  (forall x y, c = WMeta x \/ c = WStatus x -> r' = RObj y -> sane (w_now w) y).
Proof.
  intros w who c r f vms w' r' I S H. unfold perform in H.
  destruct (match c with CNow => _ | WMeta m => _ | WStatus m => _ | _ => _ end) as [w1 r1] eqn:Q. injection H as <- <-.
  assert (K : runInv w1 /\ w_now w1 = w_now w /\ (forall t, c = CNow -> r1 = RTime t -> t <= w_now w) /\ (forall x y, c = WMeta x \/ c = WStatus x -> r1 = RObj y -> sane (w_now w) y)).
  { destruct c; try (injection Q as <- <-; split; [exact I|]; split; [reflexivity|]; split; [intros t0 E; try discriminate E; intros F; try (injection F as <-; lia) | intros x y [E|E]; discriminate E]).
    - destruct (inv_write w mergeMeta m f w1 r1 I) as (A & B & _ & _ & D); [intros o E; exact (inv_obj _ _ I E) | exact Q|].
      split; [exact A|]. split; [exact B|]. split; [discriminate|]. intros x y _. apply D.
    - destruct (inv_write w mergeStatus m f w1 r1 I) as (A & B & _ & _ & D); [intros o _; exact (S m eq_refl) | exact Q|].
      split; [exact A|]. split; [exact B|]. split; [discriminate|]. intros x y _. apply D. }
  destruct K as (A & B & C & D). split; [exact A|]. auto.
Qed.

Lemma inv_slots : forall w c t, runInv w -> (forall p, c = Some p -> okP (w_now w) p) -> (forall p, t = Some p -> okP (w_now w) p) -> runInv (setSlots w c t).
Proof. intros w c t (A & B & C & V & _ & _) D E. unfold runInv. auto 10. Qed.

Lemma inv_step : forall cf w op, runInv w -> runInv (step cf w op).
Proof.
  intros cf w op I. destruct op; cbn [step].
  - destruct (w_obj w) eqn:O; [exact I|]. destruct I as (A & B & C & V & D & E). unfold runInv. cbn [w_obj w_view w_pend w_vers w_c w_t w_now].
    assert (S : sane (w_now w) (mkMO "m" (S (w_uids w)) (w_next w) (w_now w) None fins labels annots pid (mkMS [] (mkOp "" "" 0 "" "") (mkCur "" false 0) ""))).
    { unfold sane, saneStatus. cbn. split; [split; discriminate|]. split; [tauto|]. split; [tauto|]. split; [tauto|]. split; [auto|]. intros N. destruct (N eq_refl). }
    split; [intros o H; injection H as <-; exact S|]. split; [exact B|]. split; [|split; [intros o [<- | H]; [exact S | apply V; exact H] | auto]].
    intros o H. apply in_app_or in H as [H|[H|[]]]; [apply C; exact H | injection H as <-; exact S].
  - destruct (w_obj w) as [o|] eqn:O; [|exact I]. destruct (mo_dt o); [exact I|]. apply inv_store; [exact I|]. exact (inv_obj _ _ I O).
  - destruct (w_obj w) as [o|] eqn:O; [|exact I]. destruct (String.eqb k "node"); [exact I|]. apply inv_store; [exact I|]. exact (inv_obj _ _ I O).
  - destruct (w_obj w) as [o|] eqn:O; [|exact I]. apply inv_store; [exact I|]. exact (inv_obj _ _ I O).
  - destruct (w_obj w) as [o|] eqn:O; [|exact I]. apply inv_store; [exact I|]. exact (inv_obj _ _ I O).
  - destruct (w_obj w) as [o|] eqn:O; [|exact I]. apply inv_store; [exact I|]. unfold setTerminating, sane. cbn.
    apply sane_new; try lia; try phases; try discriminate. split; discriminate.
  - destruct (w_pend w) as [|v r] eqn:P; [exact I|]. destruct I as (A & B & C & V & D & E). rewrite P in C. unfold runInv. cbn [w_obj w_view w_pend w_vers w_c w_t w_now].
    split; [exact A|]. split; [intros o ->; apply C; left; reflexivity|]. split; [intros o H; apply C; right; exact H|]. auto.
  - destruct (if t then w_t w else w_c w) eqn:Q; [exact I|]. destruct (t && negb (w_tq w))%bool; [exact I|]. unfold start. destruct (w_view w) as [m|] eqn:M.
    + assert (S : sane (w_now w) m) by exact (inv_view _ _ I M). destruct t.
      * apply inv_slots; [exact I | intros p H; exact (inv_c _ _ I H)|]. intros p H. injection H as <-. apply ok_termination. exact S.
      * destruct (mo_dt m); [exact I|]. apply inv_slots; [exact I | | intros p H; exact (inv_t _ _ I H)]. intros p H. injection H as <-. apply ok_reconcile. exact S.
    + destruct t; [|exact I]. unfold runInv. cbn [w_obj w_view w_pend w_vers w_c w_t w_now]. destruct I as (A & B & C & V & D & E). split; [exact A|]. split; [discriminate|]. auto.
  - destruct (if t then w_t w else w_c w) as [p|] eqn:P; [|exact I].
    assert (OK : okP (w_now w) p) by (destruct t; [exact (inv_t _ _ I P) | exact (inv_c _ _ I P)]). destruct p as [| |c k].
    + destruct t; apply inv_slots; try exact I; try discriminate; intros p H; [exact (inv_c _ _ I H) | exact (inv_t _ _ I H)].
    + unfold crash, runInv. cbn [w_obj w_view w_pend w_vers w_c w_t w_now]. destruct I as (A & B & C & V & _ & _). repeat (split; [assumption|]). split; discriminate.
    + destruct OK as (W & K). destruct (perform w (if t then QT else QC) c r f vms) as [w' r'] eqn:F.
      destruct (inv_perform _ _ _ _ _ _ _ _ I W F) as (I' & N & T & O). specialize (K (w_now w) r' (Z.le_refl _) T O). rewrite <- N in K.
      destruct t; apply inv_slots; try exact I'; intros p H; first [exact (inv_c _ _ I' H) | exact (inv_t _ _ I' H) | injection H as <-; exact K].
  - destruct (spared (w_view w) pid); [exact I|]. exact I.
  - exact I.
  - destruct I as (A & B & C & V & D & E). unfold runInv. cbn [w_obj w_view w_pend w_vers w_c w_t w_now].
    assert (L : w_now w <= w_now w + Z.abs d) by lia.
    split; [intros o H; eapply sane_later; [exact L | apply A; exact H]|]. split; [intros o H; eapply sane_later; [exact L | apply B; exact H]|].
    split; [intros o H; eapply sane_later; [exact L | apply C; exact H]|]. split; [intros o H; eapply sane_later; [exact L | apply V; exact H]|].
    split; intros p H; (eapply okP_later; [exact L|]); [apply D | apply E]; exact H.
  - unfold crash, runInv. cbn [w_obj w_view w_pend w_vers w_c w_t w_now]. destruct I as (A & B & C & V & _ & _). repeat (split; [assumption|]). split; discriminate.
Qed.

Lemma inv_run : forall cf ops w, runInv w -> runInv (run cf w ops).
Proof. intros cf ops. unfold run. induction ops as [|op ops IH]; intros w I; [exact I|]. cbn [fold_left]. apply IH, inv_step. exact I. Qed.

Lemma run_sane : forall cf now ops o, In o (w_vers (run cf (init now) ops)) -> saneStatus (w_now (run cf (init now) ops)) (mo_status o).
Proof.
  intros cf now ops o H. assert (I : runInv (run cf (init now) ops)).
  { apply inv_run. unfold runInv, init. cbn. split; [discriminate|]. split; [discriminate|]. split; [tauto|]. split; [tauto|]. split; discriminate. }
  destruct I as (_ & _ & _ & V & _). exact (V o H).
Qed.
