(** Proofs: what the status of a machine tells about errors. *)
Require Import Coq.ZArith.ZArith Coq.Lists.List Coq.Strings.String Coq.Strings.Ascii Coq.Bool.Bool Coq.Arith.PeanoNat Coq.NArith.NArith Lia.
Require Import Coq.micromega.ZifyBool.
From Verif Require Import CodesModel MachModel LevModel LevSpec LevProofs HealthModel HealthSpec HealthProofs LifeModel LifeSpec LifeProofs TellSpec.
Import ListNotations.
Open Scope string_scope.
Open Scope list_scope.
Open Scope Z_scope.

(** A predicate on all calls of a reconcile. *)
Inductive all (P : Call -> (Reply -> prog) -> Prop) : prog -> Prop :=
| all_done : all P Done
| all_panic : all P Panic
| all_do : forall c k, P c k -> (forall r, all P (k r)) -> all P (Do c k).

Lemma all_after : forall P rs p c k, all P p -> after p rs = Do c k -> P c k.
Proof.
  intros P. induction rs as [|r rs IH]; intros p c k A E.
  - cbn [after] in E. subst p. inversion A; subst; assumption.
  - destruct p as [| |c0 k0]; cbn [after] in E; try discriminate.
    inversion A; subst. eapply IH; [apply (H2 r)|exact E].
Qed.

Lemma app_nil_s : forall s, (s ++ "")%string = s.
Proof. induction s as [|a s IH]; cbn; [reflexivity|now rewrite IH]. Qed.

Lemma app_assoc_s : forall a b c, ((a ++ b) ++ c)%string = (a ++ (b ++ c))%string.
Proof. induction a as [|x a IH]; intros b c; cbn; [reflexivity|now rewrite IH]. Qed.

Lemma mentions_in a e b : mentions e (a ++ e ++ b)%string.
Proof. exists a, b. reflexivity. Qed.
Lemma mentions_end a e : mentions e (a ++ e)%string.
Proof. exists a, "". now rewrite app_nil_s. Qed.
Lemma mentions_more a e s : mentions e s -> mentions e (a ++ s)%string.
Proof. intros [x [y E]]. exists (a ++ x)%string, y. now rewrite E, app_assoc_s. Qed.

Lemma status_reports : forall m d code st ty cur lks (good : Z -> LastOp -> CurSt -> Prop),
  (forall now, good now (mkOp d code now st ty) (cur now)) ->
  reports m good (statusUpdate m d code st ty cur lks).
Proof.
  intros m d code st ty cur lks good G. unfold statusUpdate.
  eexists. split; [reflexivity|]. intros now.
  exists (mkOp d code now st ty), (cur now), lks. split; [apply G|]. split; [reflexivity|].
  destruct (machineStatusUpdate now m (mkOp d code now st ty) (cur now) lks) as [s|] eqn:E.
  - left. unfold machineStatusUpdate in E. destruct (isMachineStatusSimilar _ _ _); [discriminate|]. injection E as <-.
    eexists. split; [reflexivity|]. reflexivity.
  - right. split; [reflexivity|]. apply skipped_iff in E. destruct E as [[T1 T2] [D [C [S [T [P _]]]]]].
    unfold said_already. cbn [lo_code lo_state lo_type lo_desc] in *. repeat split; auto.
Qed.

Lemma all_update : forall (P : Call -> (Reply -> prog) -> Prop) m d code st ty cur lks,
  (forall k, P CNow k) -> (forall m' k, P (WStatus m') k) -> all P (statusUpdate m d code st ty cur lks).
Proof.
  intros P m d code st ty cur lks N W. unfold statusUpdate. constructor; [apply N|].
  intros r. destruct r; try constructor. destruct (machineStatusUpdate _ _ _ _ _); constructor; [apply W|].
  intros r. constructor.
Qed.

Lemma deletion_reports : forall m e d ty lks, mentions e d -> ty = "Delete" ->
  reports m (deletion_failed m e) (deletionUpdate m d "Failed" ty lks).
Proof.
  intros m e d ty lks M T. apply status_reports. intros now. unfold deletion_failed. subst ty. repeat split; auto.
Qed.

Ltac ups := first [apply all_update; intros; exact I | exact (all_done _)].

Lemma deletion_all : forall cf m, all (deletion_tells m) (reconcileTermination cf m).
Proof.
  intros cf m. unfold reconcileTermination. constructor; [exact I|].
  intros r. destruct r; try exact (all_done _). unfold triggerDeletionFlow.
  assert (TS : all (deletion_tells m) (setMachineTerminationStatus m)).
  { unfold setMachineTerminationStatus. constructor; [exact I|]. intros r. destruct r; try exact (all_done _).
    constructor; [exact I|]. intros; constructor. }
  assert (NL : forall node, all (deletion_tells m) (updateMachineNodeLabel m node)).
  { intros node. unfold updateMachineNodeLabel. constructor; [exact I|]. intros r. destruct r; ups. }
  destruct (negb (hasFin m)); [constructor|].
  destruct (negb (String.eqb (phase m) "Terminating")); [exact TS|].
  destruct (contains GetVMStatus (desc m)).
  { unfold updateMachineStatusAndNodeLabel. destruct (negb _); [ups|]. constructor; [exact I|].
    assert (G : all (deletion_tells m) (Do (CGetStatus m) (fun r => match r with
        | POk node _ _ => updateMachineNodeLabel m node
        | PFail text _ =>
            let '(d, s) := statusFailure text in
            deletionUpdate m d s "Delete" (ms_lks (mo_status m))
        | _ => Done
        end))).
    { constructor.
      - split; [reflexivity|]. intros e resp G P. unfold statusFailure.
        destruct (FromError e) as [st ok] eqn:F. cbv zeta.
        unfold goes_on, passing, code_is in *. rewrite F in *. cbn [fst snd] in *.
        destruct ok; cbn [negb].
        + destruct (N.eqb_spec (s_code st) cUnimplemented) as [X|_]; [exfalso; apply G; tauto|].
          destruct (N.eqb_spec (s_code st) cNotFound) as [X|_]; [exfalso; apply G; tauto|].
          destruct (N.eqb_spec (s_code st) cUnknown) as [X|_]; [exfalso; apply P; tauto|].
          destruct (N.eqb_spec (s_code st) cDeadlineExceeded) as [X|_]; [exfalso; apply P; tauto|].
          destruct (N.eqb_spec (s_code st) cAborted) as [X|_]; [exfalso; apply P; tauto|].
          destruct (N.eqb_spec (s_code st) cUnavailable) as [X|_]; [exfalso; apply P; tauto|].
          cbn [orb].
          destruct (N.eqb_spec (s_code st) cUninitialized) as [X|_]; [exfalso; apply G; tauto|].
          apply deletion_reports; [apply mentions_in|reflexivity].
        + apply deletion_reports; [apply mentions_in|reflexivity].
      - intros r. destruct r; try exact (all_done _); [apply NL|].
        destruct (statusFailure text) as [d s]. ups. }
    intros r. destruct r; try exact G. apply NL. }
  destruct (contains InitiateDrain (desc m)).
  { assert (RD : forall f, all (deletion_tells m) (runDrain m f)).
    { intros f. unfold runDrain. constructor.
      - destruct f; (split; [reflexivity|]; intros e).
        + apply status_reports. intros now. unfold drain_failed_going_on. repeat split; auto. apply mentions_in.
        + apply deletion_reports; [apply mentions_in|reflexivity].
      - intros r. destruct r; try exact (all_done _); destruct f; ups. }
    unfold drainNode. destruct (String.eqb (nodeName m) ""); [ups|]. constructor; [exact I|].
    intros r. destruct r; try exact (all_done _). destruct (mo_dt m); [|constructor].
    match goal with |- context [if ?f then runDrain _ _ else _] => set (force := f) end. cbv zeta. constructor.
    - split; [reflexivity|]. intros e. fold force. destruct force.
      + right. unfold runDrain. eexists. reflexivity.
      + left. apply deletion_reports; [apply mentions_in|reflexivity].
    - intros r. destruct r; try exact (all_done _); [apply RD|]. destruct force; [apply RD|ups]. }
  destruct (contains DelVolumesAttachments (desc m)).
  { unfold deleteNodeVolAttachments. cbv zeta. constructor; [exact I|]. intros r.
    destruct r; try exact (all_done _); [ups|]. destruct b; [|ups]. constructor; [exact I|].
    intros r. destruct r; try exact (all_done _). destruct b; [|ups]. constructor; [exact I|]. intros; constructor. }
  destruct (contains InitiateVMDeletion (desc m)).
  { unfold deleteVM. constructor.
    - split; [reflexivity|]. intros e resp G. unfold deleteFailure.
      destruct (FromError e) as [st ok] eqn:F. unfold code_is in G. rewrite F in G. cbn [fst snd] in G.
      destruct ok.
      + destruct (_ || _)%bool; [apply deletion_reports; [apply mentions_in|reflexivity]|].
        destruct (N.eqb_spec (s_code st) cNotFound) as [X|_]; [exfalso; apply G; tauto|].
        apply deletion_reports; [apply mentions_in|reflexivity].
      + apply deletion_reports; [apply mentions_in|reflexivity].
    - intros r. destruct r; try exact (all_done _); [ups|]. destruct (deleteFailure text) as [d s]. ups. }
  destruct (contains InitiateNodeDeletion (desc m)).
  { unfold deleteNodeObject. cbv zeta. destruct (negb _); [|ups]. constructor.
    - split; [reflexivity|]. intros e. apply deletion_reports; [|reflexivity].
      do 2 apply mentions_more. apply mentions_in.
    - intros r. destruct r; ups. }
  destruct (contains InitiateFinalizerRemoval (desc m)).
  { unfold deleteMachineFinalizers. destruct (hasFin m); constructor; [exact I|]. intros; constructor. }
  exact TS.
Qed.

Lemma phase_reports : forall cf m e d lks, mentions e d ->
  reports m (creation_failed cf m e)
    (statusUpdate m d (codeString (s_code (fst (FromError e)))) "Failed" "Create"
       (fun now => mkCur (createFailurePhase cf m now) false now) lks).
Proof.
  intros cf m e d lks M. apply status_reports. intros now. unfold creation_failed, createFailurePhase.
  cbn [lo_desc lo_state lo_type lo_code cs_phase cs_timeoutActive cs_time].
  repeat split; auto; intros T; destruct (Z.ltb_spec 0 (now - cf_creation cf - mo_created m)); reflexivity || lia.
Qed.

Lemma creation_all : forall cf m, all (creation_tells cf m) (reconcileMachine cf m).
Proof.
  intros cf m.
  assert (IN : forall m', all (creation_tells cf m) (initializeMachine cf m')).
  { intros m'. unfold initializeMachine. constructor.
    - intros e resp OK U. destruct (FromError e) as [st ok] eqn:F. cbn [snd] in OK. subst ok. cbn [negb].
      unfold code_is in U. rewrite F in U. cbn [fst snd] in U.
      destruct (N.eqb_spec (s_code st) cUnimplemented) as [X|_]; [exfalso; apply U; tauto|].
      replace (s_code st) with (s_code (fst (FromError e))) by (rewrite F; reflexivity).
      apply phase_reports, mentions_in.
    - intros r. destruct r; try exact (all_done _). destruct (FromError text) as [st ok].
      destruct (negb ok); [constructor|]. destruct (N.eqb _ _); ups. }
  assert (FC : forall u node pid, all (creation_tells cf m) (finishCreation cf m u node pid)).
  { intros u node pid. unfold finishCreation. destruct (_ || _)%bool.
    - constructor; [exact I|]. intros r. destruct r; destruct u; apply IN || constructor.
    - destruct u; [apply IN|]. unfold setPending. destruct (_ || _)%bool; [|constructor].
      constructor; [exact I|]. intros r. destruct r; try exact (all_done _). constructor; [exact I|]. intros; constructor. }
  assert (EH : forall e lks, reports m (creation_failed cf m e) (machineCreateErrorHandler cf m lks e)).
  { intros e lks. unfold machineCreateErrorHandler. apply phase_reports, mentions_end. }
  assert (TC : all (creation_tells cf m) (triggerCreationFlow cf m)).
  { unfold triggerCreationFlow. constructor; [exact I|]. intros r. destruct r; try exact (all_done _).
    constructor.
    - split; [reflexivity|]. intros e resp OK G. destruct (FromError e) as [st ok] eqn:F. cbn [snd] in OK. subst ok. cbn [negb].
      unfold goes_on, code_is in G. rewrite F in G. cbn [fst snd] in G.
      destruct (N.eqb_spec (s_code st) cNotFound) as [X|_]; [exfalso; apply G; tauto|].
      destruct (N.eqb_spec (s_code st) cUnimplemented) as [X|_]; [exfalso; apply G; tauto|]. cbn [orb].
      destruct (N.eqb_spec (s_code st) cUninitialized) as [X|_]; [exfalso; apply G; tauto|]. apply EH.
    - intros r. destruct r; try exact (all_done _); [apply FC|].
      destruct (FromError text) as [st ok]. destruct (negb ok); [constructor|].
      destruct (_ || _)%bool.
      + destruct (has _ _); [apply FC|]. unfold createVM. constructor.
        * split; [reflexivity|]. intros e resp'. apply EH.
        * intros r. destruct r; try exact (all_done _).
          -- constructor; [exact I|]. intros r. destruct r; try exact (all_done _).
             destruct (_ && _)%bool; [|apply FC]. constructor; [exact I|]. intros; ups.
          -- unfold machineCreateErrorHandler. ups.
      + destruct (N.eqb _ _).
        * destruct resp as [[[node pid] l]|]; [apply FC|constructor].
        * unfold machineCreateErrorHandler. ups. }
  assert (CN : all (creation_tells cf m) (creationIfNeeded cf m)).
  { unfold creationIfNeeded. destruct (_ || _)%bool; [exact TC|constructor]. }
  unfold reconcileMachine. constructor; [exact I|]. intros r. destruct r; try exact (all_done _). destruct b; [constructor|].
  constructor; [exact I|]. intros r. destruct r; try exact (all_done _).
  destruct (negb _); [constructor; [exact I|]; intros; constructor|].
  destruct (_ && _)%bool; [|exact CN].
  unfold healthThenCreate. cbv zeta.
  assert (GO : all (creation_tells cf m) (Do (CSync m) (fun r => match r with RUnit => creationIfNeeded cf m | _ => Done end))).
  { constructor; [exact I|]. intros r. destruct r; try exact (all_done _). exact CN. }
  constructor; [exact I|]. intros r. destruct r; try exact (all_done _).
  constructor; [exact I|]. intros r. destruct r; try exact (all_done _).
  destruct (reconcileMachineHealth _ _ _ _ _ _ _); try exact GO; try exact (all_done _).
  - constructor; [exact I|]. intros; constructor.
  - constructor; [exact I|]. intros r. destruct r; try exact (all_done _). destruct b; [|constructor].
    constructor; [exact I|]. intros r. destruct r; try exact (all_done _). exact GO.
Qed.

(** ** Nothing is called failed without a reason *)

(** A predicate on all calls of a reconcile and those made before. *)
Inductive allh (P : list (Call * Reply) -> Call -> Prop) : list (Call * Reply) -> prog -> Prop :=
| allh_done : forall h, allh P h Done
| allh_panic : forall h, allh P h Panic
| allh_do : forall h c k, P h c -> (forall r, allh P ((c, r) :: h) (k r)) -> allh P h (Do c k).

Lemma allh_after : forall P rs p h c k, allh P h p -> after p rs = Do c k -> P (calls p rs h) c.
Proof.
  intros P. induction rs as [|r rs IH]; intros p h c k A E.
  - cbn [after calls] in *. subst p. inversion A; subst; assumption.
  - destruct p as [| |c0 k0]; cbn [after calls] in *; try discriminate.
    inversion A; subst. eapply IH; [|exact E]. match goal with H : forall r, allh _ _ _ |- _ => apply (H r) end.
Qed.

(** What is written as failed in the deletion. *)
Definition blamedT (h : list (Call * Reply)) (c : Call) : Prop :=
  match c with
  | WStatus m' => lo_state (ms_op (mo_status m')) = "Failed" ->
      because_of_error h (lo_desc (ms_op (mo_status m'))) \/ because_unreachable h
  | _ => True
  end.

(** What is written as failed in the creation. *)
Definition blamedC (cf : Cfg) (m : MObj) (h : list (Call * Reply)) (c : Call) : Prop :=
  match c with
  | WStatus m' => lo_state (ms_op (mo_status m')) = "Failed" ->
      ms_op (mo_status m') = ms_op (mo_status m) \/
      because_of_error h (lo_desc (ms_op (mo_status m'))) \/ because_of_old_node h m \/ because_of_health cf h m
  | _ => True
  end.

Lemma allh_update : forall (P : list (Call * Reply) -> Call -> Prop) h m d code st ty cur lks,
  P h CNow ->
  (forall now m', mo_status m' = mkMS (ms_conds (mo_status m)) (mkOp d code now st ty) (cur now) lks ->
     P ((CNow, RTime now) :: h) (WStatus m')) ->
  allh P h (statusUpdate m d code st ty cur lks).
Proof.
  intros P h m d code st ty cur lks N W. unfold statusUpdate. constructor; [exact N|].
  intros r. destruct r; try exact (allh_done _ _). unfold machineStatusUpdate.
  destruct (isMachineStatusSimilar _ _ _); constructor; [apply W; reflexivity|].
  intros r. constructor.
Qed.

Lemma allh_processing : forall h m d ty lks, allh blamedT h (deletionUpdate m d "Processing" ty lks).
Proof.
  intros h m d ty lks. apply allh_update; [exact I|]. intros now m' E. unfold blamedT. rewrite E.
  cbn [ms_op lo_state]. discriminate.
Qed.

Lemma allh_failed : forall h c r m d ty lks e, error_text r = Some e -> mentions e d ->
  allh blamedT ((c, r) :: h) (deletionUpdate m d "Failed" ty lks).
Proof.
  intros h c r m d ty lks e R M. apply allh_update; [exact I|]. intros now m' E. unfold blamedT. rewrite E.
  cbn [ms_op lo_state lo_desc]. intros _. left. exists now, c, r, e, h. auto.
Qed.

Ltac dn := try exact (allh_done _ _).
Ltac pr := first [apply allh_processing | exact (allh_done _ _)].

Lemma blamed_deletion : forall cf m, allh blamedT [] (reconcileTermination cf m).
Proof.
  intros cf m. unfold reconcileTermination. constructor; [exact I|].
  intros r. destruct r; dn. unfold triggerDeletionFlow.
  assert (TS : forall h, allh blamedT h (setMachineTerminationStatus m)).
  { intros h. unfold setMachineTerminationStatus. constructor; [exact I|]. intros r. destruct r; dn.
    constructor; [|intros; constructor]. cbn. discriminate. }
  assert (NL : forall h node, allh blamedT h (updateMachineNodeLabel m node)).
  { intros h node. unfold updateMachineNodeLabel. constructor; [exact I|]. intros r. destruct r; pr. }
  destruct (negb (hasFin m)); [constructor|].
  destruct (negb (String.eqb (phase m) "Terminating")); [apply TS|].
  destruct (contains GetVMStatus (desc m)).
  { unfold updateMachineStatusAndNodeLabel. destruct (negb _); [pr|]. constructor; [exact I|].
    assert (G : forall h, allh blamedT h (Do (CGetStatus m) (fun r => match r with
        | POk node _ _ => updateMachineNodeLabel m node
        | PFail text _ =>
            let '(d, s) := statusFailure text in
            deletionUpdate m d s "Delete" (ms_lks (mo_status m))
        | _ => Done
        end))).
    { intros h. constructor; [exact I|]. intros r. destruct r; dn; [apply NL|].
      unfold statusFailure. destruct (FromError text) as [st ok] eqn:F.
      destruct ok; cbn [negb].
      - destruct (N.eqb _ cUnimplemented); [pr|].
        destruct (N.eqb _ cNotFound); [pr|].
        destruct (_ || _)%bool eqn:B.
        + apply allh_update; [exact I|]. intros now m' E. unfold blamedT. intros _. right.
          exists now, m, text, resp, h. split; [reflexivity|]. unfold passing, code_is. rewrite F. cbn [fst snd].
          rewrite !orb_true_iff, !N.eqb_eq in B. tauto.
        + destruct (N.eqb _ cUninitialized); [pr|].
          eapply allh_failed; [reflexivity|apply mentions_in].
      - eapply allh_failed; [reflexivity|apply mentions_in]. }
    intros r. destruct r; try apply G. apply NL. }
  destruct (contains InitiateDrain (desc m)).
  { assert (RD : forall h f, allh blamedT h (runDrain m f)).
    { intros h f. unfold runDrain. constructor; [exact I|].
      intros r. destruct r; dn; destruct f; try pr.
      eapply allh_failed; [reflexivity|apply mentions_in]. }
    unfold drainNode. destruct (String.eqb (nodeName m) ""); [pr|]. constructor; [exact I|].
    intros r. destruct r; dn. destruct (mo_dt m); [|constructor].
    match goal with |- context [if ?f then runDrain _ _ else _] => set (force := f) end. cbv zeta. constructor; [exact I|].
    intros r. destruct r; dn; [apply RD|]. fold force. destruct force; [apply RD|].
    eapply allh_failed; [reflexivity|apply mentions_in]. }
  destruct (contains DelVolumesAttachments (desc m)).
  { unfold deleteNodeVolAttachments. cbv zeta. constructor; [exact I|]. intros r.
    destruct r; dn; [pr|]. destruct b; [|pr]. constructor; [exact I|].
    intros r. destruct r; dn. destruct b; [|pr]. constructor; [exact I|]. intros; constructor. }
  destruct (contains InitiateVMDeletion (desc m)).
  { unfold deleteVM. constructor; [exact I|].
    intros r. destruct r; dn; [pr|]. unfold deleteFailure. destruct (FromError text) as [st ok].
    destruct ok; [|eapply allh_failed; [reflexivity|apply mentions_in]].
    destruct (_ || _)%bool; [eapply allh_failed; [reflexivity|apply mentions_in]|].
    destruct (N.eqb _ _); [pr|]. eapply allh_failed; [reflexivity|apply mentions_in]. }
  destruct (contains InitiateNodeDeletion (desc m)).
  { unfold deleteNodeObject. cbv zeta. destruct (negb _); [|pr]. constructor; [exact I|].
    intros r. destruct r; try pr. eapply allh_failed; [reflexivity|]. do 2 apply mentions_more. apply mentions_in. }
  destruct (contains InitiateFinalizerRemoval (desc m)).
  { unfold deleteMachineFinalizers. destruct (hasFin m); constructor; [exact I|]. intros; constructor. }
  apply TS.
Qed.

Lemma allh_creation : forall cf m0 h c r m d code ty cur lks e, error_text r = Some e -> mentions e d ->
  allh (blamedC cf m0) ((c, r) :: h) (statusUpdate m d code "Failed" ty cur lks).
Proof.
  intros cf m0 h c r m d code ty cur lks e R M. apply allh_update; [exact I|]. intros now m' E. unfold blamedC. rewrite E.
  cbn [ms_op lo_state lo_desc]. intros _. right. left. exists now, c, r, e, h. auto.
Qed.

Lemma blamed_creation : forall cf m, allh (blamedC cf m) [] (reconcileMachine cf m).
Proof.
  intros cf m.
  assert (IN : forall h m', allh (blamedC cf m) h (initializeMachine cf m')).
  { intros h m'. unfold initializeMachine. constructor; [exact I|].
    intros r. destruct r; dn. destruct (FromError text) as [st ok].
    destruct (negb ok); [constructor|]. destruct (N.eqb _ _); [constructor|].
    eapply allh_creation; [reflexivity|apply mentions_in]. }
  assert (FC : forall h u node pid, allh (blamedC cf m) h (finishCreation cf m u node pid)).
  { intros h u node pid. unfold finishCreation. destruct (_ || _)%bool.
    - constructor; [exact I|]. intros r. destruct r; destruct u; first [apply IN | constructor].
    - destruct u; [apply IN|]. unfold setPending. destruct (_ || _)%bool; [|constructor].
      constructor; [exact I|]. intros r. destruct r; dn. constructor; [|intros; constructor]. cbn. discriminate. }
  assert (EH : forall h c e resp lks, allh (blamedC cf m) ((c, PFail e resp) :: h) (machineCreateErrorHandler cf m lks e)).
  { intros h c e resp lks. unfold machineCreateErrorHandler. eapply allh_creation; [reflexivity|apply mentions_end]. }
  assert (TC : forall h, allh (blamedC cf m) h (triggerCreationFlow cf m)).
  { intros h. unfold triggerCreationFlow. constructor; [exact I|]. intros r. destruct r; dn.
    constructor; [exact I|]. intros r. destruct r; dn; [apply FC|].
    destruct (FromError text) as [st ok]. destruct (negb ok); [constructor|].
    destruct (_ || _)%bool.
    - destruct (has _ _); [apply FC|]. unfold createVM. constructor; [exact I|].
      intros r. destruct r; dn; [|apply EH].
      constructor; [exact I|]. intros r. destruct r; dn.
      destruct b; cbn [andb]; [|apply FC].
      destruct (String.eqb_spec node (mo_name m)) as [X|X]; cbn [negb]; [apply FC|].
      constructor; [exact I|]. intros r. apply allh_update; [exact I|]. intros now m' E. unfold blamedC. intros _.
      right. right. left. unfold because_of_old_node. do 8 eexists. split; [reflexivity|exact X].
    - destruct (N.eqb _ _); [|apply EH].
      destruct resp as [[[node pid] l]|]; [apply FC|constructor]. }
  assert (CN : forall h, allh (blamedC cf m) h (creationIfNeeded cf m)).
  { intros h. unfold creationIfNeeded. destruct (_ || _)%bool; [apply TC|constructor]. }
  unfold reconcileMachine. constructor; [exact I|]. intros r. destruct r; dn. destruct b; [constructor|].
  constructor; [exact I|]. intros r. destruct r; dn.
  destruct (negb _); [constructor; [exact I|]; intros; constructor|].
  destruct (_ && _)%bool; [|apply CN].
  unfold healthThenCreate. cbv zeta.
  assert (GO : forall h, allh (blamedC cf m) h (Do (CSync m) (fun r => match r with RUnit => creationIfNeeded cf m | _ => Done end))).
  { intros h. constructor; [exact I|]. intros r. destruct r; dn. apply CN. }
  constructor; [exact I|]. intros r. destruct r; dn.
  constructor; [exact I|]. intros r. destruct r; dn.
  destruct (reconcileMachineHealth (cf_show cf) (cf_creation cf) (cf_health cf) (cf_bad cf) t a m) eqn:RH; try apply GO; dn.
  - constructor; [|intros; constructor]. unfold blamedC. cbn [withStatus mo_status]. intros S.
    pose proof (said _ _ _ _ _ _ _ _ RH) as SA. cbv zeta in SA. destruct SA as [_ [S1 [_ [S2 [S3 _]]]]].
    destruct (phases _ _ _ _ _ _ _ _ RH) as [P | [[P [Q _]] | [[P [Q _]] | [P [Q R]]]]].
    + left. apply S1, P.
    + exfalso. destruct (S2 ltac:(congruence) P) as [X _]. congruence.
    + exfalso. destruct (S3 ltac:(congruence) P) as [X _]. congruence.
    + right. right. right. exists t, a. eexists. left. split; [reflexivity|]. split; assumption.
  - constructor; [exact I|]. intros r. destruct r; dn. destruct b; [|constructor].
    constructor.
    + unfold blamedC. intros _. right. right. right. destruct (try_fail _ _ _ _ _ _ _ _ _ RH) as [P [Q _]].
      exists t, a. eexists. right. split; [reflexivity|]. split; assumption.
    + intros r. destruct r; dn. apply GO.
Qed.

(** ** Errors that end a reconcile without a word *)

Lemma mute_update : forall m d code st ty cur lks, all mute (statusUpdate m d code st ty cur lks).
Proof.
  intros m d code st ty cur lks. unfold statusUpdate. constructor; [exact I|]. intros r. destruct r; try exact (all_done _).
  destruct (machineStatusUpdate _ _ _ _ _); constructor; [intros e; reflexivity|]. intros; constructor.
Qed.

Ltac mu := first [apply mute_update | exact (all_done _)].
Ltac md := try exact (all_done _).

Lemma mute_deletion : forall cf m, all mute (reconcileTermination cf m).
Proof.
  intros cf m. unfold reconcileTermination. constructor; [intros e; reflexivity|].
  intros r. destruct r; md. unfold triggerDeletionFlow.
  assert (TS : all mute (setMachineTerminationStatus m)).
  { unfold setMachineTerminationStatus. constructor; [exact I|]. intros r. destruct r; md.
    constructor; [intros e; reflexivity|]. intros; constructor. }
  assert (NL : forall node, all mute (updateMachineNodeLabel m node)).
  { intros node. unfold updateMachineNodeLabel. constructor; [exact I|]. intros r. destruct r; mu. }
  destruct (negb (hasFin m)); [constructor|].
  destruct (negb (String.eqb (phase m) "Terminating")); [exact TS|].
  destruct (contains GetVMStatus (desc m)).
  { unfold updateMachineStatusAndNodeLabel. destruct (negb _); [mu|]. constructor; [exact I|].
    intros r. destruct r; try apply NL; constructor; try exact I; intros r'; destruct r'; md; try apply NL;
      destruct (statusFailure _) as [d s]; mu. }
  destruct (contains InitiateDrain (desc m)).
  { assert (RD : forall f, all mute (runDrain m f)).
    { intros f. unfold runDrain. constructor; [exact I|]. intros r. destruct r; md; destruct f; mu. }
    unfold drainNode. destruct (String.eqb (nodeName m) ""); [mu|]. constructor; [exact I|].
    intros r. destruct r; md. destruct (mo_dt m); [|constructor].
    match goal with |- context [if ?f then runDrain _ _ else _] => set (force := f) end. cbv zeta. constructor; [exact I|].
    intros r. destruct r; md; [apply RD|]. fold force. destruct force; [apply RD|mu]. }
  destruct (contains DelVolumesAttachments (desc m)).
  { unfold deleteNodeVolAttachments. cbv zeta. constructor; [intros e; reflexivity|]. intros r.
    destruct r; md; [mu|]. destruct b; [|mu]. constructor; [intros e; reflexivity|].
    intros r. destruct r; md. destruct b; [|mu]. constructor; [intros e; reflexivity|]. intros; constructor. }
  destruct (contains InitiateVMDeletion (desc m)).
  { unfold deleteVM. constructor; [exact I|]. intros r. destruct r; md; [mu|]. destruct (deleteFailure text) as [d s]. mu. }
  destruct (contains InitiateNodeDeletion (desc m)).
  { unfold deleteNodeObject. cbv zeta. destruct (negb _); [|mu]. constructor; [exact I|]. intros r. destruct r; mu. }
  destruct (contains InitiateFinalizerRemoval (desc m)).
  { unfold deleteMachineFinalizers. destruct (hasFin m); constructor; [exact I|]. intros; constructor. }
  exact TS.
Qed.

Lemma mute_creation : forall cf m, all mute (reconcileMachine cf m).
Proof.
  intros cf m.
  assert (IN : forall m', all mute (initializeMachine cf m')).
  { intros m'. unfold initializeMachine. constructor; [exact I|]. intros r. destruct r; md. destruct (FromError text) as [st ok].
    destruct (negb ok); [constructor|]. destruct (N.eqb _ _); mu. }
  assert (FC : forall u node pid, all mute (finishCreation cf m u node pid)).
  { intros u node pid. unfold finishCreation. destruct (_ || _)%bool.
    - constructor; [exact I|]. intros r. destruct r; destruct u; apply IN || constructor.
    - destruct u; [apply IN|]. unfold setPending. destruct (_ || _)%bool; [|constructor].
      constructor; [exact I|]. intros r. destruct r; md. constructor; [intros e; reflexivity|]. intros; constructor. }
  assert (TC : all mute (triggerCreationFlow cf m)).
  { unfold triggerCreationFlow. constructor; [intros e; reflexivity|]. intros r. destruct r; md.
    constructor; [exact I|]. intros r. destruct r; md; [apply FC|].
    destruct (FromError text) as [st ok]. destruct (negb ok); [constructor|].
    destruct (_ || _)%bool.
    - destruct (has _ _); [apply FC|]. unfold createVM. constructor; [exact I|]. intros r. destruct r; md.
      + constructor; [exact I|]. intros r. destruct r; md.
        destruct (_ && _)%bool; [|apply FC]. constructor; [exact I|]. intros; mu.
      + unfold machineCreateErrorHandler. mu.
    - destruct (N.eqb _ _); [|unfold machineCreateErrorHandler; mu].
      destruct resp as [[[node pid] l]|]; [apply FC|constructor]. }
  assert (CN : all mute (creationIfNeeded cf m)).
  { unfold creationIfNeeded. destruct (_ || _)%bool; [exact TC|constructor]. }
  unfold reconcileMachine. constructor; [exact I|]. intros r. destruct r; md. destruct b; [constructor|].
  constructor; [intros e; reflexivity|]. intros r. destruct r; md.
  destruct (negb _); [constructor; [exact I|]; intros; constructor|].
  destruct (_ && _)%bool; [|exact CN].
  unfold healthThenCreate. cbv zeta.
  assert (GO : all mute (Do (CSync m) (fun r => match r with RUnit => creationIfNeeded cf m | _ => Done end))).
  { constructor; [intros e; reflexivity|]. intros r. destruct r; md. exact CN. }
  constructor; [exact I|]. intros r. destruct r; md.
  constructor; [exact I|]. intros r. destruct r; md.
  destruct (reconcileMachineHealth _ _ _ _ _ _ _); try exact GO; md.
  - constructor; [intros e; reflexivity|]. intros; constructor.
  - constructor; [exact I|]. intros r. destruct r; md. destruct b; [|constructor].
    constructor; [intros e; reflexivity|]. intros r. destruct r; md. exact GO.
Qed.

(** ** Every execution *)

Lemma after_snoc : forall rs p c k r, after p rs = Do c k -> after p (rs ++ [r]) = k r.
Proof.
  induction rs as [|x rs IH]; intros p c k r E; cbn [after app] in *.
  - subst p. reflexivity.
  - destruct p as [| |c0 k0]; try discriminate. apply (IH _ _ _ _ E).
Qed.

(** What runs is what is left of a reconcile. *)
Definition running (cf : Cfg) (w : World) : Prop :=
  (forall p, w_t w = Some p -> exists m rs, p = after (reconcileTermination cf m) rs) /\
  (forall p, w_c w = Some p -> exists m rs, p = after (reconcileMachine cf m) rs).

Lemma running_same : forall cf w w', w_c w' = w_c w -> w_t w' = w_t w -> running cf w -> running cf w'.
Proof. intros cf w w' C T [A B]. split; [rewrite T|rewrite C]; assumption. Qed.

Lemma store_slots : forall w o n, w_c (store w o n) = w_c w /\ w_t (store w o n) = w_t w.
Proof. intros w o n. unfold store. destruct (MObj_eq_dec o n); split; reflexivity. Qed.

Lemma perform_slots : forall w who c r f vms, w_c (fst (perform w who c r f vms)) = w_c w /\ w_t (fst (perform w who c r f vms)) = w_t w.
Proof.
  intros w who c r f vms. unfold perform.
  assert (AW : forall mg m, w_c (fst (apiWrite w mg m f)) = w_c w /\ w_t (fst (apiWrite w mg m f)) = w_t w).
  { intros mg m. unfold apiWrite. destruct f, (accepted w mg m) as [[o n]|]; cbn [fst]; try (split; reflexivity); apply store_slots. }
  destruct c; try (split; reflexivity).
  - specialize (AW mergeMeta m). destruct (apiWrite _ _ _ _). exact AW.
  - specialize (AW mergeStatus m). destruct (apiWrite _ _ _ _). exact AW.
Qed.

Lemma running_step : forall cf w op, running cf w -> running cf (step cf w op).
Proof.
  intros cf w op R.
  assert (SL : forall o n, running cf (store w o n)).
  { intros o n. destruct (store_slots w o n) as [C T]. exact (running_same _ _ _ C T R). }
  assert (CR : running cf (crash w)) by (split; discriminate).
  destruct op; cbn [step]; try exact CR; try exact R; try (apply running_same with (w := w); [reflexivity|reflexivity|exact R]).
  - destruct (w_obj w); [exact R|]. apply running_same with (w := w); [reflexivity|reflexivity|exact R].
  - destruct (w_obj w) as [o|]; [|exact R]. destruct (mo_dt o); [exact R|apply SL].
  - destruct (w_obj w) as [o|]; [|exact R]. destruct (String.eqb _ _); [exact R|apply SL].
  - destruct (w_obj w) as [o|]; [|exact R]. apply SL.
  - destruct (w_obj w) as [o|]; [|exact R]. apply SL.
  - destruct (w_obj w) as [o|]; [|exact R]. apply SL.
  - destruct (w_pend w); [exact R|]. apply running_same with (w := w); [reflexivity|reflexivity|exact R].
  - destruct (if t then w_t w else w_c w) eqn:E; [exact R|]. destruct (t && negb (w_tq w))%bool; [exact R|].
    unfold start. destruct (w_view w) as [m|].
    + destruct t.
      * split; cbn; [|apply (proj2 R)]. intros p H. injection H as <-. exists m, []. reflexivity.
      * destruct (mo_dt m); [exact R|]. split; cbn; [apply (proj1 R)|]. intros p H. injection H as <-. exists m, []. reflexivity.
    + destruct t; [|exact R]. apply running_same with (w := w); [reflexivity|reflexivity|exact R].
  - destruct (if t then w_t w else w_c w) as [[| |c k]|] eqn:E; try exact R; try exact CR.
    + destruct t; split; cbn; try discriminate; [apply (proj2 R)|apply (proj1 R)].
    + destruct (perform_slots w (if t then QT else QC) c r f vms) as [C T].
      destruct (perform w (if t then QT else QC) c r f vms) as [w' r']. cbn [fst] in C, T.
      destruct R as [RT RC]. destruct t; split; cbn.
      * intros p H. injection H as <-. destruct (RT _ E) as [m [rs P]]. exists m, (rs ++ [r']). symmetry in P |- *. apply (after_snoc _ _ _ _ _ P).
      * rewrite C. exact RC.
      * rewrite T. exact RT.
      * intros p H. injection H as <-. destruct (RC _ E) as [m [rs P]]. exists m, (rs ++ [r']). symmetry in P |- *. apply (after_snoc _ _ _ _ _ P).
  - destruct (spared _ _); [exact R|]. apply running_same with (w := w); [reflexivity|reflexivity|exact R].
Qed.

Lemma running_run : forall cf ops w, running cf w -> running cf (run cf w ops).
Proof. intros cf. induction ops as [|op ops IH]; intros w R; [exact R|]. apply IH, running_step, R. Qed.

Lemma running_init : forall cf now, running cf (init now).
Proof. split; discriminate. Qed.

Lemma mentions_contains : forall e s, mentions e s -> contains e s = true.
Proof.
  intros e s [a [b E]]. subst s. apply contains_app.
  assert (P : String.prefix e (e ++ b) = true).
  { induction e as [|c e IH]; [destruct b; reflexivity|]. cbn. destruct (ascii_dec c c); [exact IH|congruence]. }
  destruct (e ++ b)%string; cbn [contains]; rewrite P; reflexivity.
Qed.

Lemma after_cons_app : forall rs p r rest, after p (rs ++ r :: rest) = after (after p (rs ++ [r])) rest.
Proof.
  induction rs as [|x rs IH]; intros p r rest; cbn [after app].
  - destruct p; cbn [after]; try (destruct rest; reflexivity).
  - destruct p; try (destruct rest; reflexivity). apply IH.
Qed.
