(** Proofs of C109 for histories and passes in which calls fail. *)
Require Import Coq.ZArith.ZArith Coq.Lists.List Coq.Strings.String Coq.Bool.Bool Coq.NArith.NArith Coq.micromega.Lia Coq.micromega.ZifyBool.
From Verif Require Import CodesModel MachModel LevModel HealthModel LifeModel LifeSpec LifeProofs CreaSpec LiveSpec LiveProofs JoinSpec JoinProofs.
Import ListNotations.
Open Scope string_scope.
Open Scope list_scope.
Open Scope Z_scope.

Section Writes.
(** What is asked of the status and of the rest of every object that is written. *)
Variables S M : MObj -> Prop.
Fixpoint okW (p : prog) : Prop :=
  match p with
  | Do c k =>
      (forall x, c = WStatus x -> S x) /\ (forall x, c = WMeta x -> M x) /\
      (forall r, fair c r -> (forall x y, c = WMeta x \/ c = WStatus x -> r = RObj y -> S y /\ M y) -> okW (k r))
  | _ => True
  end.

Lemma ow_c c k : (forall x, c <> WStatus x) -> (forall x, c <> WMeta x) -> (forall r, fair c r -> okW (k r)) -> okW (Do c k).
Proof. intros A B H. cbn. split; [intros x E; destruct (A x E)|]. split; [intros x E; destruct (B x E)|]. intros r F _. apply H. exact F. Qed.
Lemma ow_last x : S x -> okW (Do (WStatus x) (fun _ => Done)).
Proof. intros H. cbn. split; [intros y E; injection E as <-; exact H|]. split; [discriminate|]. intros; exact Logic.I. Qed.
Lemma ow_status x k : S x -> (forall r, okW (k r)) -> okW (Do (WStatus x) k).
Proof. intros H K. cbn. split; [intros y E; injection E as <-; exact H|]. split; [discriminate|]. intros r _ _. apply K. Qed.
Lemma ow_meta x k : M x -> (forall y, S y -> M y -> okW (k (RObj y))) -> (forall r, (forall y, r <> RObj y) -> okW (k r)) -> okW (Do (WMeta x) k).
Proof.
  intros H A B. cbn. split; [discriminate|]. split; [intros y E; injection E as <-; exact H|]. intros r _ K. destruct r; try (apply B; discriminate).
  destruct (K x m (or_introl eq_refl) eq_refl). now apply A.
Qed.

(** The status depends on the status only; a failure or Pending with the old conditions is fine. *)
Hypothesis S_set : forall y s, S y -> ms_conds s = ms_conds (mo_status y) -> In (cs_phase (ms_cur s)) ["Pending"; "Failed"; "CrashLoopBackOff"; "Terminating"] -> S (withStatus s y).
Hypothesis S_ext : forall a b, mo_status a = mo_status b -> S a -> S b.
Hypothesis M_ext : forall a b, mo_fins a = mo_fins b -> mo_labels a = mo_labels b -> mo_annots a = mo_annots b -> mo_pid a = mo_pid b -> M a -> M b.

Lemma ow_update y d code st ty cur lks : S y -> (forall now, In (cs_phase (cur now)) ["Pending"; "Failed"; "CrashLoopBackOff"; "Terminating"]) -> okW (statusUpdate y d code st ty cur lks).
Proof.
  intros H C. unfold statusUpdate. apply ow_c; [discriminate|discriminate|]. intros r _. destruct r; try exact Logic.I.
  unfold machineStatusUpdate. cbv zeta. destruct (isMachineStatusSimilar _ _ _); [exact Logic.I|]. apply ow_last. apply S_set; [exact H|reflexivity|apply C].
Qed.

Lemma ow_phase cf y now : In (createFailurePhase cf y now) ["Pending"; "Failed"; "CrashLoopBackOff"; "Terminating"].
Proof. unfold createFailurePhase. destruct (0 <? _); cbn; tauto. Qed.
Lemma ow_error cf y l t : S y -> okW (machineCreateErrorHandler cf y l t).
Proof. intros H. unfold machineCreateErrorHandler. apply ow_update; [exact H|]. intros now. apply ow_phase. Qed.
Lemma ow_init cf y : S y -> okW (initializeMachine cf y).
Proof.
  intros H. unfold initializeMachine. apply ow_c; [discriminate|discriminate|]. intros r _. destruct r; try exact Logic.I.
  destruct (FromError text) as [st ok]. destruct (negb ok); [exact Logic.I|]. destruct (N.eqb _ _); [exact Logic.I|]. apply ow_update; [exact H|]. intros now. apply ow_phase.
Qed.
Lemma ow_pending y : S y -> okW (setPending y).
Proof.
  intros H. unfold setPending. destruct (_ || _); [|exact Logic.I]. apply ow_c; [discriminate|discriminate|]. intros r _. destruct r; try exact Logic.I.
  apply ow_last. apply S_set; [exact H|reflexivity|cbn; tauto].
Qed.

Variable cf : Cfg.
Variable m : MObj.
Hypothesis Sm : S m.
Hypothesis Mm : M m.
Hypothesis M_fin : M (withFins (MCM :: mo_fins m) m).
Hypothesis M_lab : forall n p, n <> "" -> p <> "" -> ~ recorded m -> M (labelled m n p).
Hypothesis M_lost : ~ recorded m -> M (labelled m (nodeName m) "").
Hypothesis S_health : hasFin m = true -> nodeName m <> "" -> phase m <> "" -> forall now a, clear a ->
  match reconcileMachineHealth (cf_show cf) (cf_creation cf) (cf_health cf) (cf_bad cf) now a m with
  | HWrite s => S (withStatus s m)
  | HTryFail d s => S (withStatus (failedStatus now d m s) m)
  | _ => True
  end.

Lemma ow_finish u n p : (n <> "" /\ p <> "" \/ n = nodeName m /\ p = "") -> okW (finishCreation cf m u n p).
Proof.
  intros H. unfold finishCreation.
  destruct (negb (has "node" (mo_labels m)) || negb (has MachinePriority (mo_annots m)) || String.eqb (mo_pid m) "")%bool eqn:C.
  - assert (N : ~ recorded m) by (intros Q; apply jn_rec in Q; congruence).
    apply ow_meta.
    + destruct H as [(A & B)|(-> & ->)]; [now apply M_lab | now apply M_lost].
    + intros y Sy My. destruct u; [now apply ow_init | exact Logic.I].
    + intros r NR. destruct r; try (destruct u; [now apply ow_init | exact Logic.I]). destruct (NR m0 eq_refl).
  - destruct u; [now apply ow_init | now apply ow_pending].
Qed.

Lemma ow_trigger : okW (triggerCreationFlow cf m).
Proof.
  unfold triggerCreationFlow. apply ow_c; [discriminate|discriminate|]. intros r _. destruct r; try exact Logic.I.
  apply ow_c; [discriminate|discriminate|]. intros r F. destruct r; try exact Logic.I.
  - cbn in F. apply ow_finish. now left.
  - destruct (FromError text) as [st ok] eqn:FE. destruct ok; cbn [negb]; [|exact Logic.I].
    destruct (N.eqb (s_code st) cNotFound || N.eqb (s_code st) cUnimplemented)%bool.
    + destruct (has "node" (mo_labels m)); [apply ow_finish; now right|].
      unfold createVM. apply ow_c; [discriminate|discriminate|]. intros r F2. destruct r; try exact Logic.I; [|now apply ow_error].
      cbn in F2. apply ow_c; [discriminate|discriminate|]. intros r _. destruct r; try exact Logic.I.
      destruct (b && negb (String.eqb node (mo_name m)))%bool; [|apply ow_finish; now left].
      apply ow_c; [discriminate|discriminate|]. intros r _. apply ow_update; [exact Sm|]. intros now. cbn. tauto.
    + destruct (N.eqb_spec (s_code st) cUninitialized) as [U|U]; [|now apply ow_error].
      destruct resp as [[[n p] l]|]; [|exact Logic.I]. apply ow_finish. left. cbn in F. apply F.
      exists text, (Some (n, p, l)), (s_msg st). split; [reflexivity|]. rewrite FE. destruct st as [sc sm]. cbn in U. now subst sc.
Qed.

Lemma ow_needed : okW (creationIfNeeded cf m).
Proof. unfold creationIfNeeded. destruct (_ || _)%bool; [apply ow_trigger | exact Logic.I]. Qed.

Lemma ow_reconcile : okW (reconcileMachine cf m).
Proof.
  unfold reconcileMachine. apply ow_c; [discriminate|discriminate|]. intros r _. destruct r; try exact Logic.I. destruct b; [exact Logic.I|].
  apply ow_c; [discriminate|discriminate|]. intros r _. destruct r; try exact Logic.I.
  destruct (hasFin m) eqn:HF; cbn [negb].
  2:{ apply ow_meta; [exact M_fin | intros; exact Logic.I | intros; exact Logic.I]. }
  destruct (String.eqb_spec (nodeName m) "") as [NN|NN]; cbn [negb andb]; [apply ow_needed|].
  destruct (String.eqb_spec (phase m) "") as [PE|PE]; cbn [negb]; [apply ow_needed|].
  unfold healthThenCreate. cbv zeta. apply ow_c; [discriminate|discriminate|]. intros r F. destruct r; try exact Logic.I. cbn in F.
  apply ow_c; [discriminate|discriminate|]. intros r _. destruct r; try exact Logic.I.
  assert (GO : okW (Do (CSync m) (fun r => match r with RUnit => creationIfNeeded cf m | _ => Done end))).
  { apply ow_c; [discriminate|discriminate|]. intros r _. destruct r; try exact Logic.I. apply ow_needed. }
  pose proof (S_health eq_refl NN PE t a F) as H.
  destruct (reconcileMachineHealth _ _ _ _ _ _ _); [exact Logic.I | apply ow_last; exact H | | exact GO | exact GO].
  apply ow_c; [discriminate|discriminate|]. intros r _. destruct r; try exact Logic.I. destruct b; [|exact Logic.I].
  apply ow_status; [exact H|]. intros r. destruct r; try exact Logic.I. exact GO.
Qed.
End Writes.

(** ** Every stored object is one from which creation can go on *)
Definition goodC (m : MObj) : Prop := NoDup (map nc_type (ms_conds (mo_status m))).
Definition goodN (m : MObj) : Prop := nodeName m <> "" \/ mo_pid m = "".

Lemma health_conds sh cr he bad now a m : goodC m -> clear a ->
  match reconcileMachineHealth sh cr he bad now a m with
  | HWrite s | HTryFail _ s => NoDup (map nc_type (ms_conds s))
  | _ => True
  end.
Proof.
  intros G C. unfold reconcileMachineHealth, goodC in *. cbv zeta. destruct a as [| |conds b]; cbn in C; [exact Logic.I | |];
  repeat match goal with
  | |- match (match ?x with _ => _ end) with _ => _ end => destruct x eqn:?
  | |- match (if ?x then _ else _) with _ => _ end => destruct x eqn:?
  | |- NoDup (map nc_type (ms_conds _)) => cbn [ms_conds]
  | |- NoDup (map nc_type (if ?x then _ else _)) => destruct x
  end; try exact Logic.I; try assumption.
Qed.

Lemma labelled_name m n p : nodeName (labelled m n p) = n.
Proof. unfold nodeName, getS, labelled. cbn [mo_labels]. now rewrite jn_get_put. Qed.

Lemma good_reconcile cf m : goodC m -> goodN m -> okW goodC goodN (reconcileMachine cf m).
Proof.
  intros C N. apply ow_reconcile; auto.
  - intros y s Gy E _. unfold goodC in *. cbn. rewrite E. exact Gy.
  - intros n p A B _. left. now rewrite labelled_name.
  - intros _. right. reflexivity.
  - intros _ _ _ now a CL. pose proof (health_conds (cf_show cf) (cf_creation cf) (cf_health cf) (cf_bad cf) now a m C CL) as H.
    destruct (reconcileMachineHealth _ _ _ _ _ _ _); try exact Logic.I; exact H.
Qed.

Lemma good_update m d code st ty cur lks : goodC m -> okW goodC goodN (statusUpdate m d code st ty cur lks).
Proof.
  intros H. unfold statusUpdate. apply ow_c; [discriminate|discriminate|]. intros r _. destruct r; try exact Logic.I.
  unfold machineStatusUpdate. cbv zeta. destruct (isMachineStatusSimilar _ _ _); [exact Logic.I|]. apply ow_last. exact H.
Qed.

Ltac dst H := repeat match goal with
  | |- okW _ _ Done => exact Logic.I
  | |- okW _ _ Panic => exact Logic.I
  | |- okW _ _ (deletionUpdate _ _ _ _ _) => apply good_update; exact H
  | |- okW _ _ (statusUpdate _ _ _ _ _ _ _) => apply good_update; exact H
  | |- okW _ _ (Do (WStatus _) (fun _ => Done)) => apply ow_last; exact H
  | |- okW _ _ (Do (WMeta _) _) => fail 1
  | |- okW _ _ (Do _ _) => apply ow_c; [discriminate | discriminate | intros ? ?]
  | |- okW _ _ (match ?x with _ => _ end) => destruct x eqn:?
  | |- okW _ _ (if ?x then _ else _) => destruct x eqn:?
  end.

Lemma good_label m n : goodC m -> n <> "" -> okW goodC goodN (updateMachineNodeLabel m n).
Proof.
  intros H N. unfold updateMachineNodeLabel. apply ow_meta.
  - left. unfold nodeName, getS. cbn. now rewrite jn_get_put.
  - intros y Cy _. dst H.
  - intros r NR. destruct r; try exact Logic.I. destruct (NR m0 eq_refl).
Qed.

Lemma good_termination cf m : goodC m -> goodN m -> okW goodC goodN (reconcileTermination cf m).
Proof.
  intros H N. unfold reconcileTermination. dst H. unfold triggerDeletionFlow. destruct (negb (hasFin m)); [exact Logic.I|].
  destruct (negb _); [unfold setMachineTerminationStatus; dst H|].
  destruct (contains GetVMStatus (desc m)).
  { unfold updateMachineStatusAndNodeLabel. dst H; match goal with F : fair _ _ |- okW _ _ (updateMachineNodeLabel _ _) => apply good_label; [exact H | cbn in F; try exact F; tauto] end. }
  destruct (contains InitiateDrain (desc m)); [unfold drainNode, runDrain; cbv zeta; dst H|].
  destruct (contains DelVolumesAttachments (desc m)); [unfold deleteNodeVolAttachments; cbv zeta; dst H|].
  destruct (contains InitiateVMDeletion (desc m)); [unfold deleteVM; dst H|].
  destruct (contains InitiateNodeDeletion (desc m)); [unfold deleteNodeObject; cbv zeta; dst H|].
  destruct (contains InitiateFinalizerRemoval (desc m)).
  { unfold deleteMachineFinalizers. destruct (hasFin m); [|exact Logic.I]. apply ow_meta; [exact N | intros; exact Logic.I | intros; exact Logic.I]. }
  unfold setMachineTerminationStatus; dst H.
Qed.

(** ** The world *)
Definition good (m : MObj) : Prop := goodC m /\ goodN m.
Definition gInv (w : World) : Prop :=
  (forall o, w_obj w = Some o -> good o) /\ (forall o, w_view w = Some o -> good o) /\ (forall o, In (Some o) (w_pend w) -> good o) /\
  (forall p, w_c w = Some p -> okW goodC goodN p) /\ (forall p, w_t w = Some p -> okW goodC goodN p).

Lemma g_store w o n : gInv w -> good n -> gInv (store w o n).
Proof.
  intros (A & B & C & D & E) S. unfold store. destruct (MObj_eq_dec o n); [unfold gInv; auto 10|].
  assert (S' : good (withRv (w_next w) n)) by exact S. cbv zeta.
  set (st := match mo_dt (withRv (w_next w) n), mo_fins (withRv (w_next w) n) with Some _, [] => None | _, _ => Some (withRv (w_next w) n) end).
  assert (X : forall x, st = Some x -> x = withRv (w_next w) n).
  { intros x. unfold st. destruct (mo_dt _); [destruct (mo_fins _)|]; congruence. }
  unfold gInv. cbn [w_obj w_view w_pend w_c w_t]. split; [intros x H; apply X in H; subst; exact S'|]. split; [exact B|]. split; [|auto].
  intros x H. apply in_app_or in H as [H|[H|[]]]; [apply C; exact H | apply X in H; subst; exact S'].
Qed.

Lemma g_write w g x f w' r : gInv w -> (forall o, w_obj w = Some o -> good (g o x)) -> apiWrite w g x f = (w', r) ->
  gInv w' /\ (forall y, r = RObj y -> goodC y /\ goodN y).
Proof.
  intros G S H. unfold apiWrite in H. destruct (accepted w g x) as [[o n]|] eqn:A.
  - unfold accepted in A. destruct (w_obj w) as [o'|] eqn:O; [|discriminate A]. destruct (_ && _)%bool; [|discriminate A]. injection A as -> <-.
    specialize (S o eq_refl). destruct f; injection H as <- <-.
    + split; [apply g_store; assumption|]. intros y E. injection E as <-. destruct (MObj_eq_dec o (g o x)); [exact (proj1 G o O) | exact S].
    + split; [exact G | discriminate].
    + split; [apply g_store; assumption | discriminate].
  - destruct f; injection H as <- <-; (split; [exact G | discriminate]).
Qed.

Lemma g_perform w who c r f vms w' r' : gInv w -> (forall x, c = WStatus x -> goodC x) -> (forall x, c = WMeta x -> goodN x) -> perform w who c r f vms = (w', r') ->
  gInv w' /\ (forall x y, c = WMeta x \/ c = WStatus x -> r' = RObj y -> goodC y /\ goodN y) /\ In (who, c, r') (w_log w').
Proof.
  intros G S N H. unfold perform in H.
  destruct (match c with CNow => _ | WMeta m => _ | WStatus m => _ | _ => _ end) as [w1 r1] eqn:Q. injection H as <- <-.
  assert (K : gInv w1 /\ (forall x y, c = WMeta x \/ c = WStatus x -> r1 = RObj y -> goodC y /\ goodN y)).
  { destruct c; try (injection Q as <- <-; split; [exact G | intros x y [E|E]; discriminate E]).
    - destruct (g_write w mergeMeta m f w1 r1 G) as (A & B); [|exact Q|split; [exact A|intros x y _; apply B]].
      intros o O. destruct (proj1 G o O) as (C1 & _). split; [exact C1 | exact (N m eq_refl)].
    - destruct (g_write w mergeStatus m f w1 r1 G) as (A & B); [|exact Q|split; [exact A|intros x y _; apply B]].
      intros o O. destruct (proj1 G o O) as (_ & C2). split; [exact (S m eq_refl) | exact C2]. }
  destruct K as (A & B). split; [exact A|]. split; [exact B | left; reflexivity].
Qed.

Lemma g_slots w c t : gInv w -> (forall p, c = Some p -> okW goodC goodN p) -> (forall p, t = Some p -> okW goodC goodN p) -> gInv (setSlots w c t).
Proof. intros (A & B & C & _ & _) D E. unfold gInv. auto 10. Qed.

Lemma nodeName_put k v m : k <> "node" -> nodeName (withLabels (put k v (mo_labels m)) m) = nodeName m.
Proof. intros N. unfold nodeName, getS. cbn. rewrite get_put. destruct (String.eqb_spec "node" k); [congruence | reflexivity]. Qed.

Lemma g_step cf w op : sensible op -> fairLog (w_log (step cf w op)) -> gInv w -> gInv (step cf w op).
Proof.
  intros SE FL I. destruct op; cbn [step] in *.
  - destruct (w_obj w) eqn:O; [exact I|]. destruct I as (A & B & C & D & E). unfold gInv. cbn [w_obj w_view w_pend w_c w_t].
    assert (S : good (mkMO "m" (S (w_uids w)) (w_next w) (w_now w) None fins labels annots pid (mkMS [] (mkOp "" "" 0 "" "") (mkCur "" false 0) ""))).
    { split; [constructor | exact SE]. }
    split; [intros o H; injection H as <-; exact S|]. split; [exact B|]. split; [|auto].
    intros o H. apply in_app_or in H as [H|[H|[]]]; [apply C; exact H | injection H as <-; exact S].
  - destruct (w_obj w) as [o|] eqn:O; [|exact I]. destruct (mo_dt o); [exact I|]. apply g_store; [exact I|]. exact (proj1 I o O).
  - destruct (w_obj w) as [o|] eqn:O; [|exact I]. destruct (String.eqb_spec k "node"); [exact I|]. apply g_store; [exact I|].
    destruct (proj1 I o O) as (G1 & G2). split; [exact G1|]. unfold goodN. rewrite nodeName_put by assumption. exact G2.
  - destruct (w_obj w) as [o|] eqn:O; [|exact I]. apply g_store; [exact I|]. exact (proj1 I o O).
  - destruct (w_obj w) as [o|] eqn:O; [|exact I]. apply g_store; [exact I|]. exact (proj1 I o O).
  - destruct (w_obj w) as [o|] eqn:O; [|exact I]. apply g_store; [exact I|]. exact (proj1 I o O).
  - destruct (w_pend w) as [|v r] eqn:P; [exact I|]. destruct I as (A & B & C & D & E). rewrite P in C. unfold gInv. cbn [w_obj w_view w_pend w_c w_t].
    split; [exact A|]. split; [intros o ->; apply C; left; reflexivity|]. split; [intros o H; apply C; right; exact H|]. auto.
  - destruct (if t then w_t w else w_c w) eqn:Q; [exact I|]. destruct (t && negb (w_tq w))%bool; [exact I|]. unfold start. pose proof I as (A & B & C & D & E). destruct (w_view w) as [m|] eqn:V.
    + destruct (B m eq_refl) as (G1 & G2). destruct t.
      * apply g_slots; [exact I | exact D|]. intros p H. injection H as <-. now apply good_termination.
      * destruct (mo_dt m); [exact I|]. apply g_slots; [exact I | | exact E]. intros p H. injection H as <-. now apply good_reconcile.
    + destruct t; [|exact I]. unfold gInv. cbn [w_obj w_view w_pend w_c w_t]. split; [exact A|]. split; [discriminate|]. auto.
  - destruct (if t then w_t w else w_c w) as [p|] eqn:P; [|exact I]. pose proof I as (_ & _ & _ & D & E).
    assert (OK : okW goodC goodN p) by (destruct t; [exact (E _ P) | exact (D _ P)]). destruct p as [| |c k].
    + destruct t; apply g_slots; try exact I; try discriminate; assumption.
    + unfold crash, gInv. cbn [w_obj w_view w_pend w_c w_t]. destruct I as (A & B & C & _ & _). repeat (split; [assumption|]). split; discriminate.
    + destruct OK as (W1 & W2 & K). destruct (perform w (if t then QT else QC) c r f vms) as [w' r'] eqn:F.
      destruct (g_perform _ _ _ _ _ _ _ _ I W1 W2 F) as (I' & O & L).
      assert (FA : fair c r') by (apply (FL (if t then QT else QC)); destruct t; exact L).
      specialize (K r' FA O). pose proof I' as (_ & _ & _ & D' & E').
      destruct t; apply g_slots; try exact I'; try assumption; intros p H; injection H as <-; exact K.
  - destruct (spared (w_view w) pid); exact I.
  - exact I.
  - exact I.
  - unfold crash, gInv. cbn [w_obj w_view w_pend w_c w_t]. destruct I as (A & B & C & _ & _). repeat (split; [assumption|]). split; discriminate.
Qed.

Lemma log_store w o n : w_log (store w o n) = w_log w.
Proof. unfold store. destruct (MObj_eq_dec o n); reflexivity. Qed.
Lemma log_write w g x f : w_log (fst (apiWrite w g x f)) = w_log w.
Proof. unfold apiWrite. destruct f, (accepted w g x) as [[o n]|]; cbn [fst]; try reflexivity; apply log_store. Qed.
Lemma log_perform w who c r f vms e : In e (w_log w) -> In e (w_log (fst (perform w who c r f vms))).
Proof.
  intros H. unfold perform. destruct c; try (right; exact H).
  - destruct (apiWrite w mergeMeta m f) as [w1 r1] eqn:Q. pose proof (log_write w mergeMeta m f) as L. rewrite Q in L. cbn [fst] in L. right. rewrite L. exact H.
  - destruct (apiWrite w mergeStatus m f) as [w1 r1] eqn:Q. pose proof (log_write w mergeStatus m f) as L. rewrite Q in L. cbn [fst] in L. right. rewrite L. exact H.
Qed.
Lemma log_grows cf w op e : In e (w_log w) -> In e (w_log (step cf w op)).
Proof.
  intros H. destruct op; cbn [step]; try exact H.
  - destruct (w_obj w); exact H.
  - destruct (w_obj w) as [o|]; [|exact H]. destruct (mo_dt o); [exact H|]. rewrite log_store. exact H.
  - destruct (w_obj w) as [o|]; [|exact H]. destruct (String.eqb k "node"); [exact H|]. rewrite log_store. exact H.
  - destruct (w_obj w) as [o|]; [|exact H]. rewrite log_store. exact H.
  - destruct (w_obj w) as [o|]; [|exact H]. rewrite log_store. exact H.
  - destruct (w_obj w) as [o|]; [|exact H]. rewrite log_store. exact H.
  - destruct (w_pend w); exact H.
  - destruct (if t then w_t w else w_c w); [exact H|]. destruct (t && negb (w_tq w))%bool; [exact H|]. unfold start.
    destruct (w_view w) as [m|]; destruct t; try exact H. destruct (mo_dt m); exact H.
  - destruct (if t then w_t w else w_c w) as [[| |c k]|]; try exact H.
    + destruct t; exact H.
    + pose proof (log_perform w (if t then QT else QC) c r f vms e H) as L. destruct (perform w (if t then QT else QC) c r f vms) as [w' r']. destruct t; exact L.
  - destruct (spared (w_view w) pid); [exact H | right; exact H].
Qed.
Lemma log_run cf ops : forall w e, In e (w_log w) -> In e (w_log (run cf w ops)).
Proof. induction ops as [|op ops IH]; intros w e H; [exact H|]. apply IH. now apply log_grows. Qed.

Lemma g_run cf ops : forall w, Forall sensible ops -> fairLog (w_log (run cf w ops)) -> gInv w -> gInv (run cf w ops).
Proof.
  induction ops as [|op ops IH]; intros w SE FL I; [exact I|]. inversion SE as [|? ? S1 S2]; subst. apply IH; [exact S2 | exact FL|].
  apply g_step; [exact S1 | | exact I]. intros who c r H. apply (FL who). exact (log_run cf ops (step cf w op) _ H).
Qed.

Lemma history_good cf now ops m : Forall sensible ops -> fairLog (w_log (run cf (init now) ops)) -> w_obj (run cf (init now) ops) = Some m -> good m.
Proof.
  intros SE FL O. assert (G : gInv (run cf (init now) ops)).
  { apply g_run; [exact SE | exact FL|]. unfold gInv, init. cbn. split; [discriminate|]. split; [discriminate|]. split; [intros x []|]. split; discriminate. }
  exact (proj1 G m O).
Qed.

Lemma good_startable m : good m -> mo_dt m = None -> startable m.
Proof.
  intros (C & N) D. split; [exact D|]. split; [exact C|]. destruct N as [N|N]; [now left|]. destruct (String.eqb_spec (nodeName m) "") as [E|E]; [|now left].
  right. split; [intros (_ & _ & P); contradiction | now left].
Qed.

(** ** Passes in which calls fail *)
Definition sKeep (m x : MObj) : Prop :=
  goodC x /\ (phase m <> "" -> phase x <> "") /\ (phase x = "Running" -> phase m = "Running" \/ (hasFin m = true /\ nodeName m <> "")).
Definition mKeep (m x : MObj) : Prop :=
  goodN x /\ (hasFin m = true -> hasFin x = true) /\ (nodeName m <> "" -> nodeName x <> "") /\ (recorded m -> recorded x) /\
  (nodeName m = "" -> nodeName x <> "" -> recorded x).

Lemma sKeep_ext m a b : mo_status a = mo_status b -> sKeep m a -> sKeep m b.
Proof. unfold sKeep, goodC, phase. now intros ->. Qed.
Lemma mKeep_ext m a b : mo_fins a = mo_fins b -> mo_labels a = mo_labels b -> mo_annots a = mo_annots b -> mo_pid a = mo_pid b -> mKeep m a -> mKeep m b.
Proof. unfold mKeep, goodN, hasFin, nodeName, recorded. now intros -> -> -> ->. Qed.

Lemma health_phase sh cr he bad now a m : phase m <> "" ->
  match reconcileMachineHealth sh cr he bad now a m with HWrite s => cs_phase (ms_cur s) <> "" | _ => True end.
Proof.
  intros P. unfold reconcileMachineHealth. cbv zeta. destruct a as [| |conds b]; [exact Logic.I | |];
  repeat match goal with
  | |- match (match ?x with _ => _ end) with _ => _ end => destruct x eqn:?
  | |- match (if ?x then _ else _) with _ => _ end => destruct x eqn:?
  end; cbn [ms_cur cs_phase]; try exact Logic.I; try discriminate; exact P.
Qed.

Lemma labelled_recorded m n p : p <> "" -> recorded (labelled m n p).
Proof.
  intros P. unfold recorded, labelled. cbn [mo_labels mo_annots mo_pid]. split; [rewrite jn_get_put; discriminate|]. split; [|exact P].
  destruct (String.eqb_spec (getS MachinePriority (mo_annots m)) "") as [E|E]; [rewrite jn_get_put; discriminate|].
  intros G. apply E. unfold getS. now rewrite G.
Qed.

Lemma keep_reconcile cf m : goodC m -> goodN m -> okW (sKeep m) (mKeep m) (reconcileMachine cf m).
Proof.
  intros C N. apply ow_reconcile.
  - intros y s (A & B & D) E I. unfold sKeep, goodC, phase in *. cbn [mo_status withStatus]. rewrite E. split; [exact A|].
    cbn in I. split; intros H; [|exfalso]; intuition congruence.
  - unfold sKeep. auto.
  - split; [exact N|]. split; [reflexivity|]. split; [auto|]. split; [auto|]. intros A B. contradiction.
  - intros n p A B _. split; [left; now rewrite labelled_name|]. split; [auto|]. rewrite labelled_name. split; [auto|]. split; intros; now apply labelled_recorded.
  - intros R. split; [now right|]. split; [auto|]. rewrite labelled_name. split; [auto|]. split; intros; contradiction.
  - intros HF NN PE now a CL. pose proof (health_conds (cf_show cf) (cf_creation cf) (cf_health cf) (cf_bad cf) now a m C CL) as H.
    pose proof (health_phase (cf_show cf) (cf_creation cf) (cf_health cf) (cf_bad cf) now a m PE) as HP.
    destruct (reconcileMachineHealth _ _ _ _ _ _ _); try exact Logic.I; (split; [exact H|]); (split; [intros _|]); unfold phase; cbn; auto; discriminate.
Qed.

Lemma execF_keep m env fate : (forall c, fair c (env c)) -> forall p w o, okW (sKeep m) (mKeep m) p -> w_obj w = Some o -> mo_dt o = None -> sKeep m o -> mKeep m o ->
  exists o', w_obj (execF env fate p w) = Some o' /\ mo_dt o' = None /\ sKeep m o' /\ mKeep m o'.
Proof.
  intros FA p. induction p as [| |c k IH]; intros w o OK E D So Mo; [exists o; auto | exists o; auto |]. cbn [execF].
  destruct OK as (W1 & W2 & K).
  assert (G : forall g x w' r, apiWrite w g x (fate c) = (w', r) -> mo_dt (g o x) = None -> sKeep m (g o x) -> mKeep m (g o x) ->
    (exists o', w_obj w' = Some o' /\ mo_dt o' = None /\ sKeep m o' /\ mKeep m o') /\ (forall y, r = RObj y -> sKeep m y /\ mKeep m y)).
  { intros g x w' r H Dg Sg Mg. unfold apiWrite in H. destruct (accepted w g x) as [[o1 n]|] eqn:A.
    - unfold accepted in A. rewrite E in A. destruct (_ && _)%bool; [|discriminate A]. injection A as <- <-.
      destruct (jn_store w o (g o x) E Dg) as (m' & A1 & A2 & A3 & A4 & A5 & A6 & A7 & A8).
      assert (So' : sKeep m m') by (apply (sKeep_ext m (g o x)); [now symmetry | exact Sg]).
      assert (Mo' : mKeep m m') by (apply (mKeep_ext m (g o x)); try (now symmetry); exact Mg).
      destruct (fate c); injection H as <- <-.
      + split; [exists m'; auto|]. intros y Y. injection Y as <-. rewrite A8. auto.
      + split; [exists o; auto | discriminate].
      + split; [exists m'; auto | discriminate].
    - destruct (fate c); injection H as <- <-; (split; [exists o; auto | discriminate]). }
  destruct (perform w QC c (env c) (fate c) (w_vms w)) as [w' r'] eqn:P. unfold perform in P.
  assert (FC := FA c).
  assert (ST : fair c r' /\ (exists o', w_obj w' = Some o' /\ mo_dt o' = None /\ sKeep m o' /\ mKeep m o') /\ (forall x y, c = WMeta x \/ c = WStatus x -> r' = RObj y -> sKeep m y /\ mKeep m y)).
  { destruct c; try (injection P as <- <-; split; [first [exact FC | exact Logic.I]|]; split; [exists o; auto|]; intros x y [Q|Q]; discriminate Q).
    - destruct (apiWrite w mergeMeta m0 (fate (WMeta m0))) as [w1 r1] eqn:Q. injection P as <- <-. split; [exact Logic.I|].
      destruct (G mergeMeta m0 w1 r1 Q D) as (G1 & G2).
      + exact (sKeep_ext m o (mergeMeta o m0) eq_refl So).
      + exact (mKeep_ext m m0 (mergeMeta o m0) eq_refl eq_refl eq_refl eq_refl (W2 m0 eq_refl)).
      + split; [exact G1 | intros x y _; apply G2].
    - destruct (apiWrite w mergeStatus m0 (fate (WStatus m0))) as [w1 r1] eqn:Q. injection P as <- <-. split; [exact Logic.I|].
      destruct (G mergeStatus m0 w1 r1 Q D) as (G1 & G2).
      + exact (sKeep_ext m m0 (mergeStatus o m0) eq_refl (W1 m0 eq_refl)).
      + exact (mKeep_ext m o (mergeStatus o m0) eq_refl eq_refl eq_refl eq_refl Mo).
      + split; [exact G1 | intros x y _; apply G2]. }
  destruct ST as (F1 & (o' & O1 & O2 & O3 & O4) & R). apply (IH r' w' o'); auto.
Qed.

Lemma keep_pass cf w m r : fairPass r -> w_obj w = Some m -> mo_dt m = None -> good m ->
  exists m', w_obj (passF cf w r) = Some m' /\ mo_dt m' = None /\ sKeep m m' /\ mKeep m m'.
Proof.
  intros F E D (C & N). destruct r as [[t env] fate]. unfold passF. rewrite E, D. apply (execF_keep m env fate F _ _ m).
  - now apply keep_reconcile.
  - exact E.
  - exact D.
  - unfold sKeep. auto.
  - split; [exact N|]. split; [auto|]. split; [auto|]. split; [auto|]. intros A B. contradiction.
Qed.

Lemma execF_applied env fate : (forall c, fate c = Applied) -> forall p w, execF env fate p w = execC env p w.
Proof.
  intros F p. induction p as [| |c k IH]; intros w; [reflexivity | reflexivity |]. cbn [execF execC]. rewrite F.
  destruct (perform w QC c (env c) Applied (w_vms w)) as [w' r']. apply IH.
Qed.
Lemma passF_good cf w t env fate : (forall c, fate c = Applied) -> passF cf w (t, env, fate) = pass cf w (t, env).
Proof. intros F. unfold passF, pass. cbn [fst snd]. destruct (w_obj w) as [m|]; [|reflexivity]. destruct (mo_dt m); [reflexivity|]. now apply execF_applied. Qed.

(** How many passes are still needed until only the health of the node counts, and one. *)
Definition far2 (m : MObj) : nat :=
  ((if hasFin m then 0 else 1) +
   (if String.eqb (nodeName m) "" then (if String.eqb (phase m) "" then 3 else 2)
    else if String.eqb (phase m) "" then (if negb (has "node" (mo_labels m)) || negb (has MachinePriority (mo_annots m)) || String.eqb (mo_pid m) "" then 3 else 2)
    else 1))%nat.
Lemma far2_far m : far2 m = if String.eqb (phase m) "Running" then Datatypes.S (far m) else far m.
Proof.
  unfold far2, far. destruct (String.eqb_spec (phase m) "Running") as [E|E]; [rewrite E; cbn [String.eqb Ascii.eqb Bool.eqb]|];
  destruct (hasFin m), (String.eqb (nodeName m) ""), (String.eqb (phase m) ""); try reflexivity;
  destruct (_ || _)%bool; reflexivity.
Qed.

Lemma keep_far2 m m' : sKeep m m' -> mKeep m m' -> (far2 m' <= far2 m)%nat.
Proof.
  intros (_ & S2 & _) (_ & M2 & M3 & M4 & _). unfold far2.
  assert (R : (negb (has "node" (mo_labels m)) || negb (has MachinePriority (mo_annots m)) || String.eqb (mo_pid m) "")%bool = false ->
              (negb (has "node" (mo_labels m')) || negb (has MachinePriority (mo_annots m')) || String.eqb (mo_pid m') "")%bool = false).
  { intros H. apply jn_rec. apply M4. apply jn_rec. exact H. }
  destruct (_ || String.eqb (mo_pid m') "")%bool; destruct (_ || String.eqb (mo_pid m) "")%bool; try (discriminate (R eq_refl));
  destruct (String.eqb_spec (nodeName m) ""); destruct (String.eqb_spec (nodeName m') ""); try (exfalso; tauto);
  destruct (String.eqb_spec (phase m) ""); destruct (String.eqb_spec (phase m') ""); try (exfalso; tauto);
  destruct (hasFin m); try rewrite (M2 eq_refl); try (destruct (hasFin m')); lia.
Qed.

Lemma good_far2 cf w m r m' : goodPass cf r -> w_obj w = Some m -> startable m -> w_obj (passF cf w r) = Some m' -> sKeep m m' -> mKeep m m' ->
  (far2 m' <= Nat.max 1 (pred (far2 m)))%nat.
Proof.
  destruct r as [[t env] fate]. intros (W & I & F) E ST E' (_ & _ & S3) (_ & M2 & M3 & _). rewrite (passF_good cf w t env fate F) in E'.
  destruct (jn_pass cf (t, env) w m W E ST) as (m1 & A1 & _ & _ & A4 & _). rewrite E' in A1. injection A1 as <-. specialize (A4 I).
  rewrite (far2_far m'). destruct (String.eqb_spec (phase m') "Running") as [PR|PR].
  - destruct (S3 PR) as [Q|(Q1 & Q2)].
    + rewrite (far2_far m), Q. cbn [String.eqb Ascii.eqb Bool.eqb pred]. lia.
    + assert (Z : far m' = 0%nat); [|lia]. unfold far. rewrite (M2 Q1), PR. specialize (M3 Q2). apply String.eqb_neq in M3. rewrite M3. reflexivity.
  - rewrite (far2_far m). destruct (String.eqb (phase m) "Running"); lia.
Qed.

Definition known (m : MObj) : Prop := nodeName m = "" \/ recorded m.
Lemma keep_known m m' : mKeep m m' -> known m -> known m'.
Proof.
  intros (_ & _ & M3 & M4 & M5) [K|K]; [|right; auto]. destruct (String.eqb_spec (nodeName m') "") as [E|E]; [now left | right; auto].
Qed.

(** ** A pass over an outdated object stores nothing *)
Fixpoint rvs (n : nat) (p : prog) : Prop :=
  match p with
  | Do c k => (forall x, c = WStatus x \/ c = WMeta x -> mo_rv x = n) /\
              (forall r, (forall x y, c = WStatus x \/ c = WMeta x -> r <> RObj y) -> rvs n (k r))
  | _ => True
  end.
Lemma rv_c n c k : (forall x, c <> WStatus x) -> (forall x, c <> WMeta x) -> (forall r, rvs n (k r)) -> rvs n (Do c k).
Proof. intros A B H. cbn. split; [intros x [E|E]; [destruct (A x E) | destruct (B x E)]|]. intros r _. apply H. Qed.
Lemma rv_s x k : (forall r, (forall y, r <> RObj y) -> rvs (mo_rv x) (k r)) -> rvs (mo_rv x) (Do (WStatus x) k).
Proof. intros H. cbn. split; [intros y [E|E]; [injection E as <-; reflexivity | discriminate E]|]. intros r R. apply H. intros y. apply (R x y). now left. Qed.
Lemma rv_m x k : (forall r, (forall y, r <> RObj y) -> rvs (mo_rv x) (k r)) -> rvs (mo_rv x) (Do (WMeta x) k).
Proof. intros H. cbn. split; [intros y [E|E]; [discriminate E | injection E as <-; reflexivity]|]. intros r R. apply H. intros y. apply (R x y). now right. Qed.

Ltac rv := repeat match goal with
  | |- rvs _ Done => exact Logic.I
  | |- rvs _ Panic => exact Logic.I
  | |- rvs _ (Do (WStatus ?x) _) => apply (rv_s x); intros ? ?
  | |- rvs _ (Do (WMeta ?x) _) => apply (rv_m x); intros ? ?
  | |- rvs _ (Do _ _) => apply rv_c; [discriminate | discriminate | intros ?]
  | |- rvs _ (match ?x with _ => _ end) => destruct x eqn:?
  | |- rvs _ (if ?x then _ else _) => destruct x eqn:?
  end.
Lemma rv_update v d code st ty cur lks : rvs (mo_rv v) (statusUpdate v d code st ty cur lks).
Proof. unfold statusUpdate, machineStatusUpdate. rv. Qed.
Lemma rv_init cf v : rvs (mo_rv v) (initializeMachine cf v).
Proof. unfold initializeMachine. rv; apply rv_update. Qed.
Lemma rv_pending v : rvs (mo_rv v) (setPending v).
Proof. unfold setPending. rv. Qed.
Lemma rv_finish cf v u n p : rvs (mo_rv v) (finishCreation cf v u n p).
Proof.
  unfold finishCreation. destruct (_ || _)%bool; [|destruct u; [apply rv_init | apply rv_pending]].
  apply (rv_m (labelled v n p)). intros r R. change (mo_rv (labelled v n p)) with (mo_rv v). destruct r; try (destruct u; [apply rv_init | exact Logic.I]). destruct (R m eq_refl).
Qed.
Lemma rv_create cf v : rvs (mo_rv v) (createVM cf v).
Proof. unfold createVM, machineCreateErrorHandler. rv; first [apply rv_update | apply rv_finish]. Qed.
Lemma rv_needed cf v : rvs (mo_rv v) (creationIfNeeded cf v).
Proof. unfold creationIfNeeded, triggerCreationFlow, machineCreateErrorHandler. rv; first [apply rv_update | apply rv_finish | apply rv_create]. Qed.
Lemma rv_reconcile cf v : rvs (mo_rv v) (reconcileMachine cf v).
Proof. unfold reconcileMachine, healthThenCreate. cbv zeta. rv; try (match goal with H : forall y, RObj ?z <> RObj y |- _ => destruct (H z eq_refl) end); apply rv_needed. Qed.

Lemma late_exec n env fate : forall p w o, rvs n p -> w_obj w = Some o -> n <> mo_rv o -> w_obj (execF env fate p w) = Some o.
Proof.
  intros p. induction p as [| |c k IH]; intros w o R E N; [exact E | exact E |]. cbn [execF]. destruct R as (R1 & R2).
  assert (G : forall g x, mo_rv x = n -> exists r, apiWrite w g x (fate c) = (w, r) /\ forall y, r <> RObj y).
  { intros g x X. unfold apiWrite, accepted. rewrite E. destruct (Nat.eqb_spec (mo_rv o) (mo_rv x)); [congruence|]. cbn [andb].
    destruct (fate c); eexists; (split; [reflexivity | discriminate]). }
  unfold perform. destruct c; try (apply IH; [apply R2; intros x y [Q|Q]; discriminate Q | exact E | exact N]).
  - destruct (G mergeMeta m (R1 m (or_intror eq_refl))) as (r & Q1 & Q2). rewrite Q1. apply IH; [apply R2; intros x y _; apply Q2 | exact E | exact N].
  - destruct (G mergeStatus m (R1 m (or_introl eq_refl))) as (r & Q1 & Q2). rewrite Q1. apply IH; [apply R2; intros x y _; apply Q2 | exact E | exact N].
Qed.

(** ** Others *)
Lemma keep_refl m : good m -> sKeep m m /\ mKeep m m.
Proof. intros (C & N). split; [unfold sKeep; auto|]. split; [exact N|]. split; [auto|]. split; [auto|]. split; [auto|]. intros A B. contradiction. Qed.

Lemma keep_store w m n : w_obj w = Some m -> mo_dt n = None -> sKeep m n -> mKeep m n ->
  exists m', w_obj (store w m n) = Some m' /\ mo_dt m' = None /\ sKeep m m' /\ mKeep m m'.
Proof.
  intros E D S M. destruct (jn_store w m n E D) as (m' & A1 & A2 & A3 & A4 & A5 & A6 & A7 & _). exists m'. split; [exact A1|]. split; [exact A2|].
  split; [apply (sKeep_ext m n); [now symmetry | exact S] | apply (mKeep_ext m n); try (now symmetry); exact M].
Qed.

Lemma has_put k v l k' : get k' l <> None -> get k' (put k v l) <> None.
Proof. rewrite get_put. destruct (String.eqb k' k); [discriminate | auto]. Qed.

Lemma keep_other cf w m op : quiet op -> w_obj w = Some m -> mo_dt m = None -> good m ->
  exists m', w_obj (step cf w op) = Some m' /\ mo_dt m' = None /\ sKeep m m' /\ mKeep m m'.
Proof.
  intros Q E D G. pose proof (keep_refl m G) as (S0 & M0).
  assert (SAME : forall w', w_obj w' = w_obj w -> exists m', w_obj w' = Some m' /\ mo_dt m' = None /\ sKeep m m' /\ mKeep m m').
  { intros w' H. exists m. rewrite H. auto. }
  destruct op; cbn [step]; cbn [quiet] in Q; try (destruct Q; fail); try (apply SAME; reflexivity).
  - rewrite E. exists m. auto.
  - rewrite E. destruct (String.eqb_spec k "node") as [K|K]; [exists m; auto|]. apply keep_store; [exact E | exact D | exact (sKeep_ext m m (withLabels (put k v (mo_labels m)) m) eq_refl S0)|].
    destruct M0 as (A1 & A2 & A3 & A4 & A5).
    assert (NN : nodeName (withLabels (put k v (mo_labels m)) m) = nodeName m) by now apply nodeName_put.
    assert (RR : recorded m -> recorded (withLabels (put k v (mo_labels m)) m)).
    { intros (R1 & R2 & R3). split; [|split; [exact R2 | exact R3]]. cbn. now apply has_put. }
    split; [unfold goodN; rewrite NN; exact A1|]. split; [exact A2|]. rewrite NN. split; [exact A3|]. split; [exact RR|]. intros X Y. contradiction.
  - rewrite E. apply keep_store; [exact E | exact D | exact (sKeep_ext m m _ eq_refl S0)|].
    destruct M0 as (A1 & A2 & A3 & A4 & A5). split; [exact A1|]. split; [exact A2|]. split; [exact A3|]. split; [|intros X Y; contradiction].
    intros (R1 & R2 & R3). split; [exact R1|]. split; [|exact R3]. cbn. now apply has_put.
  - rewrite E. apply keep_store; [exact E | exact D | exact (sKeep_ext m m (withFins (f :: mo_fins m) m) eq_refl S0)|].
    destruct M0 as (A1 & A2 & A3 & A4 & A5). split; [exact A1|]. split; [|split; [exact A3|]; split; [exact A4 | exact A5]].
    intros H. unfold hasFin in *. cbn [withFins mo_fins existsb]. rewrite H. apply orb_true_r.
  - rewrite E. apply keep_store; [exact E | exact D | | exact (mKeep_ext m m (setTerminating (w_now w) m) eq_refl eq_refl eq_refl eq_refl M0)].
    split; [exact (proj1 G)|]. split; unfold phase; cbn; discriminate.
  - destruct (w_pend w); apply SAME; reflexivity.
  - destruct (spared (w_view w) pid); apply SAME; reflexivity.
Qed.

Lemma keep_item cf w m i : fairItem i -> w_obj w = Some m -> mo_dt m = None -> good m ->
  exists m', w_obj (item cf w i) = Some m' /\ mo_dt m' = None /\ sKeep m m' /\ mKeep m m'.
Proof.
  intros F E D G. destruct i as [r|k [[t env] fate]|op]; cbn [item] in *; [now apply keep_pass | | now apply keep_other].
  destruct (keep_refl m G) as (S0 & M0). exists m. split; [|auto]. destruct (nth_error (w_vers w) k) as [v|]; [|exact E]. rewrite E.
  destruct (Nat.eqb_spec (mo_rv v) (mo_rv m)) as [Q|Q]; [exact E|]. destruct (mo_dt v); [exact E|].
  apply (late_exec (mo_rv v)); [apply rv_reconcile | exact E | exact Q].
Qed.

Lemma items_keep cf l : forall n w m, w_obj w = Some m -> mo_dt m = None -> good m -> Forall fairItem l -> goodOnes cf l n ->
  exists m', w_obj (items cf w l) = Some m' /\ mo_dt m' = None /\ good m' /\ (far2 m' <= Nat.max 1 (far2 m - n))%nat /\ (known m -> known m').
Proof.
  induction l as [|r l IH]; intros n w m E D G F T.
  - inversion T; subst. exists m. split; [exact E|]. split; [exact D|]. split; [exact G|]. split; [lia | auto].
  - inversion F as [|? ? F1 F2]; subst. destruct (keep_item cf w m r F1 E D G) as (m1 & A1 & A2 & A3 & A4).
    assert (G1 : good m1) by (split; [apply A3 | apply A4]). pose proof (keep_far2 m m1 A3 A4) as L. pose proof (keep_known m m1 A4) as KN.
    inversion T as [|r' ? n' H1 H2|? ? n' H2]; subst.
    + pose proof (good_far2 cf w m r' m1 H1 E (good_startable m G D) A1 A3 A4) as L1.
      destruct (IH n' (item cf w (IPass r')) m1 A1 A2 G1 F2 H2) as (m' & B1 & B2 & B3 & B4 & B5). exists m'. split; [exact B1|]. split; [exact B2|]. split; [exact B3|]. split; [lia | auto].
    + destruct (IH n (item cf w r) m1 A1 A2 G1 F2 H2) as (m' & B1 & B2 & B3 & B4 & B5). exists m'. split; [exact B1|]. split; [exact B2|]. split; [exact B3|]. split; [lia | auto].
Qed.

Lemma comes_up_despite cf now ops m l n r : Forall sensible ops -> fairLog (w_log (run cf (init now) ops)) -> w_obj (run cf (init now) ops) = Some m -> mo_dt m = None ->
  Forall fairItem l -> goodOnes cf l n -> (3 <= n)%nat -> goodPass cf r ->
  exists m', w_obj (items cf (run cf (init now) ops) (l ++ [IPass r])) = Some m' /\ phase m' = "Running" /\ hasFin m' = true /\ nodeName m' <> "" /\
    (nodeName m = "" \/ recorded m -> recorded m').
Proof.
  intros SE FL E D F T L GP. pose proof (history_good cf now ops m SE FL E) as G. set (w := run cf (init now) ops) in *.
  destruct (items_keep cf l n w m E D G F T) as (m1 & A1 & A2 & A3 & A4 & A5). unfold items in *. rewrite fold_left_app. cbn [fold_left item].
  destruct r as [[t env] fate]. destruct GP as (W & I & FT). rewrite (passF_good cf _ t env fate FT).
  destruct (jn_pass cf (t, env) _ m1 W A1 (good_startable m1 A3 A2)) as (m' & B1 & B2 & _ & B4 & B5). exists m'. split; [exact B1|].
  assert (M : (far2 m <= 4)%nat) by (unfold far2; repeat match goal with |- context [if ?b then _ else _] => destruct b end; lia).
  assert (Z : far m' = 0%nat).
  { specialize (B4 I). assert (far m1 <= far2 m1)%nat by (rewrite far2_far; destruct (String.eqb (phase m1) "Running"); lia). lia. }
  unfold far in Z. destruct (hasFin m'); [|discriminate Z]. destruct (String.eqb_spec (nodeName m') "") as [|NN].
  - exfalso. destruct (String.eqb (phase m') ""), (String.eqb (phase m') "Running"); discriminate Z.
  - destruct (String.eqb_spec (phase m') "Running") as [PR|]; [|exfalso; destruct (String.eqb (phase m') ""); [destruct (_ || _)%bool|]; discriminate Z].
    split; [exact PR|]. split; [reflexivity|]. split; [exact NN|]. intros K. destruct (B5 (A5 K)) as (_ & [Q|Q]); [contradiction | exact Q].
Qed.

Lemma never_stuck cf now ops m : Forall sensible ops -> fairLog (w_log (run cf (init now) ops)) -> w_obj (run cf (init now) ops) = Some m -> mo_dt m = None ->
  startable m /\ (nodeName m <> "" \/ mo_pid m = "").
Proof. intros SE FL E D. pose proof (history_good cf now ops m SE FL E) as G. split; [now apply good_startable | apply G]. Qed.
