(** Proofs about the time a deletion takes. *)
Require Import Coq.ZArith.ZArith Coq.Lists.List Coq.Strings.String Coq.Bool.Bool Coq.NArith.NArith Coq.Arith.PeanoNat Coq.micromega.Lia Coq.micromega.ZifyBool.
From Verif Require Import CodesModel MachModel LevModel HealthModel LifeModel LifeSpec LifeProofs LiveSpec LiveProofs SoonModel SoonSpec SoonProofs GoneModel GoneSpec.
Import ListNotations.
Open Scope string_scope.
Open Scope list_scope.
Open Scope Z_scope.

(** ** What the rest of a reconcile does *)

Definition isWrite (c : Call) : option MObj := match c with WMeta x | WStatus x => Some x | _ => None end.
Definition mergeOf (c : Call) : MObj -> MObj -> MObj := match c with WMeta _ => mergeMeta | _ => mergeStatus end.

(** All writes, whatever the answers, carry resource version [n]. *)
Fixpoint lame (n : nat) (p : rprog) : Prop :=
  match p with
  | RDone _ _ | RPanic => True
  | RLater _ p => lame n p
  | RDo c k => match isWrite c with Some x => mo_rv x = n | None => True end /\ forall r, lame n (k r)
  end.

Definition okay (vm : bool) (c : Call) (r : Reply) : Prop :=
  success c r /\ match c with CDelete _ => vm = true -> exists n p l, r = POk n p l | _ => True end.

(** If all writes are rejected, the period is at most five seconds. *)
Fixpoint brief (vm : bool) (p : rprog) : Prop :=
  match p with
  | RDone d _ => d <= 5000
  | RPanic => False
  | RLater _ _ => False
  | RDo c k =>
      match isWrite c with
      | Some x => forall e, brief vm (k (RErr e))
      | None => match c with
                | CNow => forall t, brief vm (k (RTime t))
                | _ => forall r, okay vm c r -> brief vm (k r)
                end
      end
  end.

(** The object is on its way, at time [tm] (in seconds). *)
Definition fit (vm : bool) (tm : Z) (m : MObj) : Prop :=
  deletable m /\ hasFin m = true /\ (if vm then clean m else opTime m <= tm).

(** After a write that changed [v] to [y]. *)
Definition after (vm : bool) (tm : Z) (v y : MObj) (p : rprog) : Prop :=
  lame (mo_rv v) p /\ (hasFin y = false \/ fit vm tm y /\ (rank y < rank v)%nat /\ brief vm p).

(** What a reconcile does whose writes are based on [v]. *)
Fixpoint safe (vm : bool) (v : MObj) (p : rprog) (tm : Z) : Prop :=
  match p with
  | RDone d _ => d <= 5000
  | RPanic => False
  | RLater _ _ => False
  | RDo c k =>
      match isWrite c with
      | Some x => mo_rv x = mo_rv v /\ mo_uid x = mo_uid v /\
          let y := mergeOf c v x in
          if MObj_eq_dec v y then safe vm v (k (RObj v)) tm
          else forall n, after vm tm v (withRv n y) (k (RObj (withRv n y)))
      | None => match c with
                | CNow => forall t, tm <= t -> safe vm v (k (RTime t)) t
                | _ => forall r, okay vm c r -> safe vm v (k r) tm
                end
      end
  end.

(** It changes the stored object, unless volumes are attached. *)
Fixpoint must (vm : bool) (v : MObj) (p : rprog) (tm : Z) : Prop :=
  match p with
  | RDone _ _ | RPanic | RLater _ _ => False
  | RDo c k =>
      match isWrite c with
      | Some x => if MObj_eq_dec v (mergeOf c v x) then must vm v (k (RObj v)) tm else True
      | None => match c with
                | CNow => forall t, tm <= t -> must vm v (k (RTime t)) t
                | CLiveVA _ => must vm v (k (RBool false)) tm
                | _ => forall r, okay vm c r -> must vm v (k r) tm
                end
      end
  end.

(** ** Writes carry the version that was read *)
Ltac lm := cbn [lame isWrite]; repeat split; auto.

Lemma lame_written n r p : lame n p -> lame n (written r p).
Proof. intros L. destruct r; cbn [written]; auto. exact Logic.I. Qed.
Lemma lame_status m d c s t cur lks x f : lame (mo_rv m) (rStatusUpdate m d c s t cur lks x f).
Proof.
  unfold rStatusUpdate. lm. intros r. destruct r; try exact Logic.I. destruct (machineStatusUpdate _ _ _ _ _); [|exact Logic.I].
  lm. intros r. apply lame_written. exact Logic.I.
Qed.
Lemma lame_del m d s t lks x f : lame (mo_rv m) (rDeletionUpdate m d s t lks x f).
Proof. apply lame_status. Qed.
Lemma lame_term m : lame (mo_rv m) (rSetMachineTerminationStatus m).
Proof. unfold rSetMachineTerminationStatus. lm. intros r. destruct r; try exact Logic.I. lm. intros r. apply lame_written. exact Logic.I. Qed.
Lemma lame_label m n : lame (mo_rv m) (rUpdateMachineNodeLabel m n).
Proof. unfold rUpdateMachineNodeLabel. lm. intros r. destruct r; try exact Logic.I; apply lame_del. Qed.

Lemma lame_termination cf m : lame (mo_rv m) (rReconcileTermination cf m).
Proof.
  unfold rReconcileTermination. lm. intros r. destruct r; try exact Logic.I.
  unfold rTriggerDeletionFlow. destruct (hasFin m) eqn:HF; cbn [negb]; [|exact Logic.I].
  destruct (negb _); [apply lame_term|].
  destruct (contains GetVMStatus _).
  { unfold rUpdateMachineStatusAndNodeLabel. destruct (negb _); [apply lame_del|]. lm. intros r.
    destruct r; try apply lame_label; lm; intros r; (destruct r; try exact Logic.I; [apply lame_label|]);
      destruct (statusFailure _); apply lame_del. }
  destruct (contains InitiateDrain _).
  { unfold rDrainNode. destruct (String.eqb _ _); [apply lame_del|]. lm. intros r. destruct r; try exact Logic.I.
    destruct (mo_dt m); [|exact Logic.I]. cbv zeta.
    assert (R : forall f, lame (mo_rv m) (rRunDrain m f)).
    { intros f. unfold rRunDrain. lm. intros r. destruct r; try exact Logic.I; destruct f; apply lame_del. }
    lm. intros r. destruct r; try exact Logic.I; [apply R|]. destruct (_ || _); [apply R|apply lame_del]. }
  destruct (contains DelVolumesAttachments _).
  { unfold rDeleteNodeVolAttachments. cbv zeta. lm. intros r. destruct r as [| | |[]| | | | | |]; try exact Logic.I; try apply lame_del.
    lm. intros r. destruct r as [| | |[]| | | | | |]; try exact Logic.I; try apply lame_del. lm. }
  destruct (contains InitiateVMDeletion _).
  { unfold rDeleteVM. lm. intros r. destruct r; try exact Logic.I; [apply lame_del|]. destruct (deleteFailure _). apply lame_del. }
  destruct (contains InitiateNodeDeletion _).
  { unfold rDeleteNodeObject. cbv zeta. destruct (negb _); [|apply lame_del]. lm. intros r. destruct r; try exact Logic.I; apply lame_del. }
  destruct (contains InitiateFinalizerRemoval _); [|apply lame_term].
  unfold rDeleteMachineFinalizers. rewrite HF. lm. intros r. destruct r; exact Logic.I.
Qed.

Lemma lame_free cf m n : hasFin m = false -> lame n (rReconcileTermination cf m).
Proof.
  intros H. unfold rReconcileTermination. lm. intros r. destruct r; try exact Logic.I.
  unfold rTriggerDeletionFlow. rewrite H. exact Logic.I.
Qed.

(** ** Periods *)
Lemma brief_written vm r p : brief vm p -> brief vm (written r p).
Proof. intros B. destruct r; cbn [written]; auto. cbn. destruct (isConflict _); unfold ConflictRetry, ShortRetry; lia. Qed.
Lemma brief_status vm m d c s t cur lks x f : x <= 5000 -> brief vm (rStatusUpdate m d c s t cur lks x f).
Proof.
  intros X. unfold rStatusUpdate. cbn [brief isWrite]. intros now. destruct (machineStatusUpdate _ _ _ _ _); [|exact X].
  cbn [brief isWrite]. intros e. apply brief_written. exact X.
Qed.
Lemma brief_del vm m d s t lks x f : x <= 5000 -> brief vm (rDeletionUpdate m d s t lks x f).
Proof. apply brief_status. Qed.

Lemma status_short text : In (s_code (fst (FromError text))) [cNotFound; cUnimplemented; cUninitialized] -> statusRetry text = 5000.
Proof.
  intros G. pose proof (not_found_ok text G) as O. unfold statusRetry. destruct (FromError text) as (s & ok). cbn [fst snd] in *. subst ok.
  destruct G as [G | [G | [G | []]]]; rewrite <- G; reflexivity.
Qed.
Lemma delete_short text : s_code (fst (FromError text)) = cNotFound -> deleteRetry text = 5000.
Proof.
  intros G. assert (O : snd (FromError text) = true) by (apply not_found_ok; left; symmetry; exact G).
  unfold deleteRetry. destruct (FromError text) as (s & ok). cbn [fst snd] in *. subst ok. rewrite G. reflexivity.
Qed.

Ltac br := first [apply brief_del; unfold ShortRetry; lia | cbn; unfold ShortRetry; lia].

Lemma brief_term vm m : brief vm (rSetMachineTerminationStatus m).
Proof. unfold rSetMachineTerminationStatus. cbn [brief isWrite]. intros t e. apply brief_written. br. Qed.

Lemma brief_termination vm cf m : hasFin m = true -> mo_dt m <> None -> brief vm (rReconcileTermination cf m).
Proof.
  intros HF DT. unfold rReconcileTermination. cbn [brief isWrite]. intros r [S _]. cbn in S. subst r.
  unfold rTriggerDeletionFlow. rewrite HF. cbn [negb].
  destruct (negb _); [apply brief_term|].
  destruct (contains GetVMStatus _).
  { unfold rUpdateMachineStatusAndNodeLabel. destruct (negb _); [br|].
    assert (L : forall n, brief vm (rUpdateMachineNodeLabel m n)). { intros n. unfold rUpdateMachineNodeLabel. cbn [brief isWrite]. intros e. br. }
    cbn [brief isWrite]. intros r [S _]. destruct S as [(n & -> & _) | (e & ->)]; [apply L|].
    cbn [brief isWrite]. intros r [S _]. cbn in S. destruct r; try contradiction; [apply L|].
    rewrite (status_short _ S). destruct (statusFailure _). apply brief_del. lia. }
  destruct (contains InitiateDrain _).
  { unfold rDrainNode. destruct (String.eqb _ _); [br|]. cbn [brief isWrite]. intros t.
    destruct (mo_dt m); [|contradiction]. cbv zeta. cbn [brief isWrite]. intros r [S _]. cbn in S. subst r.
    unfold rRunDrain. cbn [brief isWrite]. intros r [S _]. cbn in S. subst r. destruct (_ || _); br. }
  destruct (contains DelVolumesAttachments _).
  { unfold rDeleteNodeVolAttachments. cbv zeta. cbn [brief isWrite]. intros r [S _].
    destruct S as [([] & ->) | (e & -> & _)]; try br.
    cbn [brief isWrite]. intros r [S _]. destruct S as ([] & ->); br. }
  destruct (contains InitiateVMDeletion _).
  { unfold rDeleteVM. cbn [brief isWrite]. intros r [S _]. cbn in S. destruct r; try contradiction; [br|].
    cbn in S. rewrite (delete_short _ S). destruct (deleteFailure _). apply brief_del. lia. }
  destruct (contains InitiateNodeDeletion _).
  { unfold rDeleteNodeObject. cbv zeta. destruct (negb _); [|br]. cbn [brief isWrite]. intros r [S _].
    destruct S as [-> | (e & ->)]; br. }
  destruct (contains InitiateFinalizerRemoval _); [|apply brief_term].
  unfold rDeleteMachineFinalizers. rewrite HF. cbn [brief isWrite]. intros e. br.
Qed.

(** ** Each change is a step forward *)
Lemma rank_moved env v y d : hasFin v = true -> mo_fins y = mo_fins v -> phase y = "Terminating" -> desc y = d -> trans env v d -> (rank y < rank v)%nat.
Proof.
  intros H FI PH E T. pose proof (trans_up _ _ _ T) as U.
  assert (SM : stage (mo_status y) = st d). { rewrite stage_st by exact PH. unfold desc in E. rewrite E. reflexivity. }
  unfold rank. rewrite (hasFin_like _ _ FI), H, SM.
  assert (S0 : stage (mo_status v) <> 0%nat). { intros Q. unfold trans in T. rewrite Q in T. exact T. }
  destruct (stage (mo_status v)) as [|[|a]]; [contradiction | |]; (destruct (st d) as [|[|b]]; try lia); try (destruct (String.eqb (nodeName v) ""); lia).
Qed.

Lemma trans_phase env v d : trans env v d -> phase v = "Terminating".
Proof. unfold trans. destruct (stage (mo_status v)) eqn:E; [intros []|]. intros _. eapply stage_terminating; exact E. Qed.

Lemma fit_later vm a b m : a <= b -> fit vm a m -> fit vm b m.
Proof. intros L (D & H & C). split; [exact D|]. split; [exact H|]. destruct vm; [exact C | lia]. Qed.

Lemma update_some now m d state type lks s :
  machineStatusUpdate now m (mkOp d "" now state type) (ms_cur (mo_status m)) lks = Some s ->
  s = mkMS (ms_conds (mo_status m)) (mkOp d "" now state type) (ms_cur (mo_status m)) lks.
Proof. unfold machineStatusUpdate. destruct (isMachineStatusSimilar _ _ _); [discriminate|]. intros E. injection E as <-. reflexivity. Qed.

Section Reconcile.
Variables (vm : bool) (cf : Cfg) (v : MObj) (tm0 : Z).
Hypothesis FIT : fit vm tm0 v.

(** The object that a status update makes. *)
Lemma fit_moved env d t ty lks n : trans env v d -> (vm = true -> d <> textNoVm) ->
  let y := withRv n (mergeStatus v (withStatus (mkMS (ms_conds (mo_status v)) (mkOp d "" t "Processing" ty) (ms_cur (mo_status v)) lks) v)) in
  fit vm t y /\ (rank y < rank v)%nat.
Proof.
  intros T N. cbv zeta. destruct FIT as (D & H & C). split.
  - split; [exact D|]. split; [exact H|]. destruct vm; [|cbn; lia].
    right. split; [exact (trans_phase _ _ _ T)|]. exact (trans_tidy _ _ _ T (N eq_refl)).
  - eapply rank_moved; [exact H|reflexivity|exact (trans_phase _ _ _ T)|reflexivity|exact T].
Qed.

Lemma safe_written d f tm : d <= 5000 -> forall r, safe vm v (written r (RDone d f)) tm.
Proof. intros L r. destruct r; cbn [written]; try exact L. cbn. destruct (isConflict _); unfold ConflictRetry, ShortRetry; lia. Qed.

Lemma safe_update env d ty lks x f tm : trans env v d -> (vm = true -> d <> textNoVm) -> x <= 5000 ->
  safe vm v (rDeletionUpdate v d "Processing" ty lks x f) tm.
Proof.
  intros T N X. unfold rDeletionUpdate, rStatusUpdate. cbn [safe isWrite]. intros t LT.
  destruct (machineStatusUpdate _ _ _ _ _) as [s|] eqn:U; [|exact X]. apply update_some in U. subst s.
  cbn [safe isWrite mergeOf]. split; [reflexivity|]. split; [reflexivity|]. cbv zeta.
  destruct (MObj_eq_dec _ _); [exact X|]. intros n0. destruct (fit_moved env d t ty lks n0 T N) as [F R].
  split; [exact Logic.I|]. right. split; [exact F|]. split; [exact R|exact X].
Qed.

(** Whether a description is new, or it is late enough. *)
Lemma moved_on env d ty t : trans env v d -> (vm = true -> d <> textNoVm) -> (vm = false -> opTime v + 1800 < t) ->
  moves t v d "Processing" ty.
Proof.
  intros T N L. destruct FIT as (D & H & C). destruct vm.
  - right. left. destruct C as [C | (C1 & C2)]; [unfold trans in T; rewrite C in T; contradiction|].
    destruct (tidy_far _ _ _ C1 C2 T (N eq_refl)) as (F1 & F2). unfold desc in *. intros [X | X]; congruence.
  - left. specialize (L eq_refl). unfold opTime in L. lia.
Qed.

Lemma must_update env d ty lks x f tm : trans env v d -> (vm = true -> d <> textNoVm) -> (vm = false -> opTime v + 1800 < tm) ->
  must vm v (rDeletionUpdate v d "Processing" ty lks x f) tm.
Proof.
  intros T N L. unfold rDeletionUpdate, rStatusUpdate. cbn [must isWrite]. intros t LT.
  rewrite update_moves by (apply (moved_on env); auto; intros Q; specialize (L Q); lia).
  cbn [must isWrite mergeOf]. destruct (MObj_eq_dec _ _) as [E|]; [|exact Logic.I].
  destruct (fit_moved env d t ty lks (mo_rv v) T N) as [_ R].
  rewrite <- E in R. replace (withRv (mo_rv v) v) with v in R by (destruct v; reflexivity). lia.
Qed.

Lemma start_moved t n : stage (mo_status v) = 0%nat ->
  let y := withRv n (mergeStatus v (withStatus (mkMS (ms_conds (mo_status v)) (mkOp GetVMStatus "" t "Processing" "Delete") (mkCur "Terminating" false t) (ms_lks (mo_status v))) v)) in
  fit vm t y /\ (rank y < rank v)%nat.
Proof.
  intros S0. cbv zeta. destruct FIT as (D & H & C). set (y := withRv _ _). split.
  - split; [exact D|]. split; [exact H|]. destruct vm; [|unfold y; cbn; lia]. right. split; [reflexivity|]. left. reflexivity.
  - assert (S1 : stage (mo_status y) = 1%nat) by (vm_compute; reflexivity).
    unfold rank. change (hasFin y) with (hasFin v). rewrite H, S0, S1. destruct (String.eqb _ _); lia.
Qed.

Lemma safe_start tm : stage (mo_status v) = 0%nat -> safe vm v (rSetMachineTerminationStatus v) tm.
Proof.
  intros S0. unfold rSetMachineTerminationStatus. cbn [safe isWrite]. intros t LT. cbn [safe isWrite mergeOf].
  split; [reflexivity|]. split; [reflexivity|]. cbv zeta.
  destruct (MObj_eq_dec _ _); [cbn; unfold ShortRetry; lia|]. intros n0. destruct (start_moved t n0 S0) as [F R].
  split; [exact Logic.I|]. right. split; [exact F|]. split; [exact R|]. cbn. unfold ShortRetry. lia.
Qed.
Lemma must_start tm : stage (mo_status v) = 0%nat -> must vm v (rSetMachineTerminationStatus v) tm.
Proof.
  intros S0. unfold rSetMachineTerminationStatus. cbn [must isWrite]. intros t LT. cbn [must isWrite mergeOf].
  destruct (MObj_eq_dec _ _) as [E|]; [|exact Logic.I].
  destruct (start_moved t (mo_rv v) S0) as [_ R]. rewrite <- E in R. replace (withRv (mo_rv v) v) with v in R by (destruct v; reflexivity). lia.
Qed.

Lemma label_moved n0 n tm : tm0 <= tm -> stage (mo_status v) = 1%nat -> nodeName v = "" -> plain n -> n <> "" ->
  let y := withRv n0 (mergeMeta v (withLabels (put "node" n (mo_labels v)) v)) in
  fit vm tm y /\ (rank y < rank v)%nat.
Proof.
  intros LT S N P NZ. cbv zeta. set (y := withRv _ _). pose proof (fit_later _ _ _ _ LT FIT) as (D & H & C).
  assert (NN : nodeName y = n). { unfold nodeName, getS, y. cbn. rewrite get_put. reflexivity. }
  split.
  - split; [|split; [exact H|]].
    + destruct D as (D1 & D2 & D3). split; [exact D1|]. split; [exact D2|]. rewrite NN. exact P.
    + destruct vm; exact C.
  - unfold rank. change (hasFin y) with (hasFin v). change (mo_status y) with (mo_status v). rewrite H, S, N, NN.
    cbn. destruct (String.eqb_spec n ""); [contradiction|lia].
Qed.

Lemma safe_label n tm : tm0 <= tm -> stage (mo_status v) = 1%nat -> nodeName v = "" -> plain n -> n <> "" ->
  safe vm v (rUpdateMachineNodeLabel v n) tm.
Proof.
  intros LT S N P NZ. unfold rUpdateMachineNodeLabel. cbn [safe isWrite mergeOf]. split; [reflexivity|]. split; [reflexivity|]. cbv zeta.
  destruct (MObj_eq_dec _ _).
  - apply (safe_update (fun _ => RUnit)); [unfold trans; rewrite S; auto | intros _; discriminate | unfold ShortRetry; lia].
  - intros n1. destruct (label_moved n1 n tm LT S N P NZ) as [F R]. split; [apply lame_del|]. right. split; [exact F|]. split; [exact R|]. br.
Qed.
Lemma must_label n tm : tm0 <= tm -> stage (mo_status v) = 1%nat -> nodeName v = "" -> plain n -> n <> "" ->
  must vm v (rUpdateMachineNodeLabel v n) tm.
Proof.
  intros LT S N P NZ. unfold rUpdateMachineNodeLabel. cbn [must isWrite mergeOf]. destruct (MObj_eq_dec _ _) as [E|]; [|exact Logic.I].
  destruct (label_moved (mo_rv v) n tm LT S N P NZ) as [_ R]. rewrite <- E in R. replace (withRv (mo_rv v) v) with v in R by (destruct v; reflexivity). lia.
Qed.

Lemma fin_gone n : hasFin (withRv n (mergeMeta v (withFins (filter (fun f => negb (String.eqb MCM f)) (mo_fins v)) v))) = false.
Proof.
  unfold hasFin. cbn [mergeMeta mo_fins withFins withRv]. induction (mo_fins v) as [| f l IH]; [reflexivity|].
  cbn [filter]. destruct (String.eqb MCM f) eqn:EF; cbn [negb existsb]; [exact IH | rewrite EF; exact IH].
Qed.

Let env0 : Call -> Reply := fun _ => RUnit.

Lemma both_termination tm : tm0 <= tm ->
  safe vm v (rReconcileTermination cf v) tm /\
  ((vm = false -> opTime v + 1800 < tm) -> must vm v (rReconcileTermination cf v) tm).
Proof.
  intros LT. destruct FIT as (D & HF & C). destruct D as (D1 & D2 & D3).
  assert (UPD : forall env d ty lks x f t, tm <= t -> trans env v d -> (vm = true -> d <> textNoVm) -> x <= 5000 ->
    safe vm v (rDeletionUpdate v d "Processing" ty lks x f) t /\
    ((vm = false -> opTime v + 1800 < tm) -> must vm v (rDeletionUpdate v d "Processing" ty lks x f) t)).
  { intros env d ty lks x f t LT' T N X. split; [apply (safe_update env); auto|]. intros L. apply (must_update env); auto. intros Q. specialize (L Q). lia. }
  assert (SD : stage (mo_status v) = if negb (String.eqb (phase v) "Terminating") then 0%nat
    else if contains GetVMStatus (desc v) then 1%nat else if contains InitiateDrain (desc v) then 2%nat
    else if contains DelVolumesAttachments (desc v) then 3%nat else if contains InitiateVMDeletion (desc v) then 4%nat
    else if contains InitiateNodeDeletion (desc v) then 5%nat else if contains InitiateFinalizerRemoval (desc v) then 6%nat else 0%nat) by reflexivity.
  assert (START : stage (mo_status v) = 0%nat -> safe vm v (rSetMachineTerminationStatus v) tm /\
    ((vm = false -> opTime v + 1800 < tm) -> must vm v (rSetMachineTerminationStatus v) tm)).
  { intros S0. split; [apply safe_start, S0|]. intros _. apply must_start, S0. }
  assert (FLOW : safe vm v (rTriggerDeletionFlow cf v) tm /\ ((vm = false -> opTime v + 1800 < tm) -> must vm v (rTriggerDeletionFlow cf v) tm)).
  2:{ unfold rReconcileTermination. cbn [safe must isWrite]. split.
      - intros r [S _]. cbn in S. subst r. apply FLOW.
      - intros L r [S _]. cbn in S. subst r. apply FLOW, L. }
  unfold rTriggerDeletionFlow. rewrite HF. cbn [negb].
  destruct (negb (String.eqb (phase v) "Terminating")); [apply START, SD|].
  destruct (contains GetVMStatus (desc v)).
  { unfold rUpdateMachineStatusAndNodeLabel. destruct (String.eqb_spec (nodeName v) "") as [N | N]; cbn [negb].
    - assert (G : forall text, In (s_code (fst (FromError text))) [cNotFound; cUnimplemented; cUninitialized] ->
        exists d, statusFailure text = (d, "Processing") /\ trans env0 v d /\ d <> textNoVm).
      { intros text G. pose proof (not_found_ok text G) as O. unfold statusFailure. destruct (FromError text) as (s & ok). cbn [fst snd] in *. subst ok.
        unfold trans. rewrite SD. destruct G as [G | [G | [G | []]]]; rewrite <- G; cbn [negb N.eqb Pos.eqb orb]; eexists; (split; [reflexivity|]); (split; [auto|]); discriminate. }
      split; [|intros L].
      + cbn [safe isWrite]. intros r [S _]. destruct S as [(n & -> & P & NZ) | (e & ->)]; [apply safe_label; auto|].
        cbn [safe isWrite]. intros r [S _]. cbn in S. destruct r; try contradiction; [apply safe_label; tauto|].
        destruct (G _ S) as (d & -> & T & NV). rewrite (status_short _ S). apply (UPD env0); auto; lia.
      + cbn [must isWrite]. intros r [S _]. destruct S as [(n & -> & P & NZ) | (e & ->)]; [apply must_label; auto|].
        cbn [must isWrite]. intros r [S _]. cbn in S. destruct r; try contradiction; [apply must_label; tauto|].
        destruct (G _ S) as (d & -> & T & NV). rewrite (status_short _ S). apply (UPD env0); auto; lia.
    - apply (UPD env0); [lia|unfold trans; rewrite SD; auto|intros _; discriminate|unfold ShortRetry; lia]. }
  destruct (contains InitiateDrain (desc v)).
  { unfold rDrainNode. destruct (String.eqb_spec (nodeName v) "") as [N | N].
    - apply (UPD env0); [lia|unfold trans; rewrite SD; left; reflexivity|intros _; discriminate|unfold ShortRetry; lia].
    - assert (T1 : trans env0 v textDrained) by (unfold trans; rewrite SD; auto).
      assert (T2 : trans env0 v textForced) by (unfold trans; rewrite SD; auto).
      split; [|intros L].
      + cbn [safe isWrite]. intros t L'. destruct (mo_dt v); [|contradiction]. cbv zeta. cbn [safe isWrite]. intros r [S _]. cbn in S. subst r.
        unfold rRunDrain. cbn [safe isWrite]. intros r [S _]. cbn in S. subst r.
        destruct (_ || _); (apply (UPD env0); [lia|assumption|intros _; discriminate|unfold ShortRetry; lia]).
      + cbn [must isWrite]. intros t L'. destruct (mo_dt v); [|contradiction]. cbv zeta. cbn [must isWrite]. intros r [S _]. cbn in S. subst r.
        unfold rRunDrain. cbn [must isWrite]. intros r [S _]. cbn in S. subst r.
        destruct (_ || _); (apply (UPD env0); [lia|assumption|intros _; discriminate|unfold ShortRetry; lia|exact L]). }
  destruct (contains DelVolumesAttachments (desc v)).
  { assert (T : forall d, textsVolumes d -> trans env0 v d /\ d <> textNoVm).
    { intros d Q. split; [unfold trans; rewrite SD; exact Q|]. intros ->. pose proof (stage_volumes _ Q) as X. vm_compute in X. discriminate X. }
    unfold rDeleteNodeVolAttachments. cbv zeta. split; [|intros L].
    - cbn [safe isWrite]. intros r [S _]. destruct S as [([] & ->) | (e & -> & P)].
      + cbn [safe isWrite]. intros r [S _]. destruct S as ([] & ->).
        * cbn [safe isWrite]. intros r _. cbn. unfold ShortRetry. lia.
        * match goal with |- safe _ _ (rDeletionUpdate v ?d _ _ _ _ _) _ => destruct (T d) as [T1 T2]; [exists (nodeName v); auto|] end.
          apply (UPD env0); auto; unfold ShortRetry; lia.
      + match goal with |- safe _ _ (rDeletionUpdate v ?d _ _ _ _ _) _ => destruct (T d) as [T1 T2]; [exists (nodeName v); auto|] end.
        apply (UPD env0); auto; lia.
      + match goal with |- safe _ _ (rDeletionUpdate v ?d _ _ _ _ _) _ => destruct (T d) as [T1 T2]; [exists e; auto|] end.
        apply (UPD env0); auto; lia.
    - cbn [must isWrite]. intros r [S _]. destruct S as [([] & ->) | (e & -> & P)].
      + cbn [must isWrite].
        match goal with |- must _ _ (rDeletionUpdate v ?d _ _ _ _ _) _ => destruct (T d) as [T1 T2]; [exists (nodeName v); auto|] end.
        apply (UPD env0); auto; unfold ShortRetry; lia.
      + match goal with |- must _ _ (rDeletionUpdate v ?d _ _ _ _ _) _ => destruct (T d) as [T1 T2]; [exists (nodeName v); auto|] end.
        apply (UPD env0); auto; lia.
      + match goal with |- must _ _ (rDeletionUpdate v ?d _ _ _ _ _) _ => destruct (T d) as [T1 T2]; [exists e; auto|] end.
        apply (UPD env0); auto; lia. }
  destruct (contains InitiateVMDeletion (desc v)).
  { assert (T1 : trans env0 v textDeleted) by (unfold trans; rewrite SD; left; reflexivity).
    assert (G : forall text resp, s_code (fst (FromError text)) = cNotFound ->
      deleteFailure text = (textNoVm, "Processing") /\ trans (fun _ => PFail text resp) v textNoVm).
    { intros text resp G. assert (O : snd (FromError text) = true) by (apply not_found_ok; left; symmetry; exact G).
      split.
      - unfold deleteFailure. destruct (FromError text) as (s & ok). cbn [fst snd] in *. subst ok. rewrite G. reflexivity.
      - unfold trans. rewrite SD. right. split; [reflexivity|]. eauto. }
    unfold rDeleteVM. split; [|intros L].
    - cbn [safe isWrite]. intros r [S K]. cbn in S. destruct r as [| | | | | | | | a b c|text resp]; try contradiction.
      + apply (UPD env0); auto; [lia|intros _; discriminate|unfold ShortRetry; lia].
      + cbn in S. destruct (G text resp S) as [-> T]. rewrite (delete_short _ S). apply (UPD (fun _ => PFail text resp)); auto; [lia| |lia].
        intros Q. destruct (K Q) as (x & y & z & X). discriminate X.
    - cbn [must isWrite]. intros r [S K]. cbn in S. destruct r as [| | | | | | | | a b c|text resp]; try contradiction.
      + apply (UPD env0); auto; [lia|intros _; discriminate|unfold ShortRetry; lia].
      + cbn in S. destruct (G text resp S) as [-> T]. rewrite (delete_short _ S). apply (UPD (fun _ => PFail text resp)); auto; [lia| |lia].
        intros Q. destruct (K Q) as (x & y & z & X). discriminate X. }
  destruct (contains InitiateNodeDeletion (desc v)).
  { assert (T : forall d, textsFinal d -> trans env0 v d /\ d <> textNoVm).
    { intros d Q. split; [unfold trans; rewrite SD; exact Q|]. intros ->. pose proof (stage_final _ Q) as X. vm_compute in X. discriminate X. }
    unfold rDeleteNodeObject. cbv zeta. destruct (String.eqb_spec (nodeName v) "") as [N | N]; cbn [negb].
    - match goal with |- context [rDeletionUpdate v ?d _ _ _ _ _] => destruct (T d) as [T1 T2]; [exists (mo_name v); auto|] end.
      apply (UPD env0); auto; unfold ShortRetry; lia.
    - split; [|intros L].
      + cbn [safe isWrite]. intros r [S _]. destruct S as [-> | (e & ->)];
        (match goal with |- context [rDeletionUpdate v ?d _ _ _ _ _] => destruct (T d) as [T1 T2]; [exists (nodeName v); auto|] end;
         apply (UPD env0); auto; unfold ShortRetry; lia).
      + cbn [must isWrite]. intros r [S _]. destruct S as [-> | (e & ->)];
        (match goal with |- context [rDeletionUpdate v ?d _ _ _ _ _] => destruct (T d) as [T1 T2]; [exists (nodeName v); auto|] end;
         apply (UPD env0); auto; unfold ShortRetry; lia). }
  destruct (contains InitiateFinalizerRemoval (desc v)); [|apply START, SD].
  unfold rDeleteMachineFinalizers. rewrite HF.
  pose proof (fin_gone (mo_rv v)) as FG. split; [|intros _]; cbn [safe must isWrite mergeOf].
  - split; [reflexivity|]. split; [reflexivity|]. cbv zeta. destruct (MObj_eq_dec _ _) as [E|].
    + rewrite <- E in FG. change (hasFin (withRv (mo_rv v) v)) with (hasFin v) in FG. congruence.
    + intros n0. split; [exact Logic.I|]. left. apply fin_gone.
  - destruct (MObj_eq_dec _ _) as [E|]; [|exact Logic.I].
    rewrite <- E in FG. change (hasFin (withRv (mo_rv v) v)) with (hasFin v) in FG. congruence.
Qed.

End Reconcile.

(** ** Versions *)
Record Hist (w : GW) : Prop := mkHist {
  h_vers : forall v, In (Some v) (g_hist w) -> (mo_rv v < g_next w)%nat /\ forall o, g_obj w = Some o -> mo_rv v = mo_rv o -> v = o;
  h_view : In (z_view (g_z w)) (g_hist w);
  h_obj : In (g_obj w) (g_hist w) }.

Lemma hist_init now m : Hist (ginit now m).
Proof.
  split; cbn; try (left; reflexivity). intros v [E|[]]. injection E as <-. split; [lia|]. intros o E. injection E as <-. auto.
Qed.

Lemma step_view cf z op : (forall v, op <> ZSee v) -> z_view (zstep cf true z op) = z_view z.
Proof.
  intros N. unfold zstep. destruct (z_dead z); [reflexivity|]. destruct op as [d|v| | |r lim]; try reflexivity.
  - exfalso. exact (N v eq_refl).
  - unfold zAdd. destruct (z_queued z); reflexivity.
  - unfold zStart. destruct (z_run z); [reflexivity|]. destruct (z_queued z); [|reflexivity]. destruct (z_view z) eqn:E; cbn; auto.
  - unfold zStep. destruct (z_run z) as [[x f| |x p|c k]|]; try reflexivity.
    + unfold zFinish. cbn. destruct (worker_keeps (true && f) lim (zAfter x z)) as [_ [W _]]. cbn in W. rewrite W. apply after_keeps.
    + cbn. apply after_keeps.
Qed.

Lemma write_hist merge x w : Hist w -> (forall o, mo_rv (merge o x) = mo_rv o) -> Hist (fst (gWrite merge x w)) /\ z_view (g_z (fst (gWrite merge x w))) = z_view (g_z w).
Proof.
  intros H M. unfold gWrite. destruct (g_obj w) as [o|] eqn:O; [|split; [exact H|reflexivity]].
  destruct (_ && _); [|split; [exact H|reflexivity]]. cbv zeta.
  destruct (MObj_eq_dec _ _); [split; [exact H|reflexivity]|]. destruct H as [A B C].
  split; [|reflexivity]. cbn [fst]. set (y := withRv _ _). set (st := match mo_dt y with Some _ => _ | None => _ end).
  assert (ST : st = None \/ st = Some y). { unfold st. destruct (mo_dt y); [destruct (mo_fins y)|]; auto. }
  split; cbn [g_hist g_obj g_next g_z].
  - intros v [E|I].
    + destruct ST as [ST|ST]; rewrite ST in *; [discriminate|]. injection E as <-. split; [cbn; lia|]. intros o' E. injection E as <-. auto.
    + destruct (A v I) as [L _]. split; [lia|]. intros o' E R. destruct ST as [ST|ST]; rewrite ST in E; [discriminate|]. injection E as <-.
      cbn in R. lia.
  - right. exact B.
  - left. reflexivity.
Qed.

Lemma hist_step cf w op : Hist w -> Hist (gstep cf w op).
Proof.
  intros H. destruct op as [d|n| | |r lim]; unfold gstep.
  - destruct H as [A B C]. split; cbn [onZ g_z g_hist g_obj g_next]; auto. rewrite step_view by discriminate. exact B.
  - destruct (nth_error (g_hist w) n) eqn:E; [|exact H]. destruct H as [A B C]. split; cbn [onZ g_z g_hist g_obj g_next]; auto.
    unfold zstep. destruct (z_dead (g_z w)); [exact B|]. cbn. exact (nth_error_In _ _ E).
  - destruct H as [A B C]. split; cbn [onZ g_z g_hist g_obj g_next]; auto. rewrite step_view by discriminate. exact B.
  - destruct H as [A B C]. split; cbn [onZ g_z g_hist g_obj g_next]; auto. rewrite step_view by discriminate. exact B.
  - assert (K : forall w' r', Hist w' -> z_view (g_z w') = z_view (g_z w) -> Hist (onZ (zstep cf true (g_z w) (ZStep r' lim)) w')).
    { intros w' r' [A B C] V. split; cbn [onZ g_z g_hist g_obj g_next]; auto. rewrite step_view by discriminate. rewrite <- V. exact B. }
    destruct (z_run (g_z w)) as [[x f| |x p|c k]|]; try (apply K; [exact H|reflexivity]).
    destruct c; try (apply K; [exact H|reflexivity]).
    + destruct (write_hist mergeMeta m w H (fun _ => eq_refl)) as [H1 H2]. destruct (gWrite mergeMeta m w) as [w' r']. apply K; assumption.
    + destruct (write_hist mergeStatus m w H (fun _ => eq_refl)) as [H1 H2]. destruct (gWrite mergeStatus m w) as [w' r']. apply K; assumption.
Qed.

(** ** The end *)
Record Final (w : GW) : Prop := mkFinal {
  f_gone : forall o, g_obj w = Some o -> hasFin o = false;
  f_run : forall p, z_run (g_z w) = Some p -> exists n, lame n p /\ forall o, g_obj w = Some o -> mo_rv o <> n }.

Lemma write_rejected merge x w : (forall o, g_obj w = Some o -> mo_rv o <> mo_rv x) -> exists e, gWrite merge x w = (w, RErr e).
Proof.
  intros N. unfold gWrite. destruct (g_obj w) as [o|]; [|eauto]. specialize (N o eq_refl).
  destruct (Nat.eqb_spec (mo_rv o) (mo_rv x)); [contradiction|]. cbn. eauto.
Qed.

Lemma run_keep cf z op : (forall r lim, op <> ZStep r lim) -> op <> ZStart -> z_run (zstep cf true z op) = z_run z.
Proof.
  intros N M. unfold zstep. destruct (z_dead z); [reflexivity|]. destruct op as [d|v| | |r lim]; try reflexivity; try contradiction.
  - unfold zAdd. destruct (z_queued z); reflexivity.
  - exfalso. exact (N r lim eq_refl).
Qed.

Lemma final_step cf w op : Hist w -> Final w -> Final (gstep cf w op).
Proof.
  intros HI [A B]. destruct op as [d|n| | |r lim]; unfold gstep.
  - split; cbn [onZ g_z g_obj]; [exact A|]. rewrite run_keep by discriminate. exact B.
  - destruct (nth_error _ _); [|split; assumption]. split; cbn [onZ g_z g_obj]; [exact A|]. rewrite run_keep by discriminate. exact B.
  - split; cbn [onZ g_z g_obj]; [exact A|]. rewrite run_keep by discriminate. exact B.
  - split; cbn [onZ g_z g_obj]; [exact A|]. unfold zstep. destruct (z_dead (g_z w)); [exact B|].
    unfold zStart. destruct (z_run (g_z w)) eqn:R; [rewrite R; exact B|]. destruct (z_queued (g_z w)); [|rewrite R; exact B].
    destruct (z_view (g_z w)) as [v|] eqn:V; cbn; [|discriminate]. intros p E. injection E as <-.
    destruct (h_vers w HI v) as [_ U]. { rewrite <- V. exact (h_view w HI). }
    destruct (g_obj w) as [o|] eqn:O.
    + destruct (Nat.eq_dec (mo_rv v) (mo_rv o)) as [Q|Q].
      * rewrite (U o eq_refl Q). exists (S (mo_rv o)). split; [apply lame_free, A; reflexivity|]. intros o' E. injection E as <-. lia.
      * exists (mo_rv v). split; [apply lame_termination|]. intros o' E. injection E as <-. lia.
    + exists (mo_rv v). split; [apply lame_termination|]. discriminate.
  - assert (K : forall r', Final (onZ (zstep cf true (g_z w) (ZStep r' lim)) w)).
    { intros r'. split; cbn [onZ g_z g_obj]; [exact A|]. unfold zstep. destruct (z_dead (g_z w)); [exact B|].
      unfold zStep. destruct (z_run (g_z w)) as [[x f| |x p|c k]|] eqn:R.
      - cbn. discriminate.
      - cbn. discriminate.
      - cbn. intros q E. injection E as <-. destruct (B _ eq_refl) as (n & L & N). exists n. split; [exact L|exact N].
      - cbn. intros q E. injection E as <-. destruct (B _ eq_refl) as (n & (_ & L) & N). exists n. split; [apply L|exact N].
      - rewrite R. discriminate. }
    destruct (z_run (g_z w)) as [[x f| |x p|c k]|]; try apply K.
    destruct (B _ eq_refl) as (n & L & N). destruct c; try apply K.
    + destruct L as [L _]. cbn in L. destruct (write_rejected mergeMeta m w) as [e E]; [rewrite L; exact N|]. rewrite E. apply K.
    + destruct L as [L _]. cbn in L. destruct (write_rejected mergeStatus m w) as [e E]; [rewrite L; exact N|]. rewrite E. apply K.
Qed.

Lemma rank_1 m : hasFin m = true -> (1 <= rank m)%nat.
Proof.
  intros H. unfold rank. rewrite H. assert (stage (mo_status m) <= 6)%nat.
  { unfold stage. repeat match goal with |- context [if ?b then _ else _] => destruct b end; lia. }
  destruct (stage (mo_status m)) as [|[|n]]; try lia. destruct (String.eqb _ _); lia.
Qed.

(** ** In time *)
Section Time.
Variables (vm : bool) (cf : Cfg) (lam delta eps since t0 : Z).
Hypothesis LAM : 0 <= lam.
Hypothesis DEL : 0 <= delta.
Hypothesis EPS : 0 <= eps.

Definition gap : Z := if vm then lam else lam + 1801000.
Definition stp : Z := gap + delta + 2 * eps + 5000.
Definition T0 : Z := Z.max t0 since.

Lemma gap_lam : lam <= gap. Proof. unfold gap. destruct vm; lia. Qed.

(** The reconcile at work. *)
Inductive work (w : GW) (o : MObj) (C : Z) (p : rprog) : Prop :=
| WFresh : forall tm, safe vm o p tm -> tm * 1000 <= z_now (g_z w) -> (C + gap < z_began (g_z w) -> must vm o p tm) -> work w o C p
| WStale : forall n, n <> mo_rv o -> lame n p -> brief vm p -> z_began (g_z w) <= C + gap -> work w o C p.

Record Going (w : GW) (k : nat) (C : Z) (o : MObj) : Prop := mkGoing {
  o_obj : g_obj w = Some o;
  o_fit : fit vm (z_now (g_z w) / 1000) o;
  o_rank : (rank o <= k <= 8)%nat;
  o_chg : g_chg w <= C;
  o_T0 : T0 <= C;
  o_C : C <= T0 + (8 - Z.of_nat k) * stp;
  o_op : vm = false -> opTime o * 1000 <= C;
  o_all : forall x, In x (g_hist w) -> exists v, x = Some v /\ hasFin v = true /\ mo_dt v <> None;
  o_dead : z_dead (g_z w) = false;
  o_began : z_began (g_z w) <= z_now (g_z w);
  o_ahead : ahead (g_z w);
  o_idle : z_run (g_z w) = None -> soon (C + gap + eps + 5000) (g_z w) /\ (z_queued (g_z w) = true -> z_ready (g_z w) <= C + gap + eps + 5000);
  o_work : forall p, z_run (g_z w) = Some p -> z_began (g_z w) <= C + gap + eps + 5000 + delta /\ work w o C p }.

Lemma going_time w k C o : timely lam delta eps w -> Going w k C o -> z_now (g_z w) <= C + stp.
Proof.
  intros [[P1 P2] _] G. pose proof gap_lam. unfold stp. destruct (z_run (g_z w)) as [p|] eqn:R.
  - destruct (o_work _ _ _ _ G p R) as [B _]. assert (z_now (g_z w) <= z_began (g_z w) + eps) by (apply P2; discriminate). lia.
  - destruct (o_idle _ _ _ _ G R) as [[Q|(u & U & L)] RD].
    + specialize (RD Q). assert (z_now (g_z w) <= z_ready (g_z w) + delta) by (apply P1; auto). lia.
    + pose proof (o_ahead _ _ _ _ G u U). lia.
Qed.

Definition Ok (w : GW) : Prop := Hist w /\ (Final w \/ exists k C o, Going w k C o).

Lemma work_ext w w' o C p : work w o C p -> z_now (g_z w) <= z_now (g_z w') -> z_began (g_z w') = z_began (g_z w) -> work w' o C p.
Proof.
  intros [tm S T M|n N L B X] A E.
  - apply (WFresh _ _ _ _ tm); [exact S|lia|rewrite E; exact M].
  - apply (WStale _ _ _ _ n); auto. rewrite E. exact X.
Qed.

Lemma fit_clock a b m : a <= b -> fit vm (a / 1000) m -> fit vm (b / 1000) m.
Proof. intros L. apply fit_later. apply Z.div_le_mono; lia. Qed.

Lemma div_floor a : a / 1000 * 1000 <= a.
Proof. pose proof (Z.mul_div_le a 1000). lia. Qed.

Lemma going_step w op k C o : Hist w -> timely lam delta eps w -> smooth vm since w op -> Going w k C o ->
  Final (gstep cf w op) \/ exists k' C' o', Going (gstep cf w op) k' C' o'.
Proof.
  intros HI TI SM G. pose proof (going_time _ _ _ _ TI G) as NOW. pose proof gap_lam as GL.
  assert (SAME : onZ (g_z w) w = w) by (destruct w; reflexivity). pose proof G as G0.
  destruct TI as [[P1 P2] FR]. destruct G as [OB FIT RK CH CT CC OP AL DE BE AH ID WO].
  destruct op as [d|n| | |r lim]; unfold gstep.
  - (* time *)
    right. exists k, C, o. unfold zstep. rewrite DE. split; cbn [onZ g_z g_obj g_chg g_hist]; auto.
    + eapply fit_clock; [|exact FIT]. cbn. lia.
    + cbn. lia.
    + apply ahead_tick, AH.
    + intros R. destruct (ID R) as [S RD]. split; [apply soon_tick, S|].
      unfold zTick. cbv zeta. cbn. destruct (z_due (g_z w)) as [u|] eqn:U; cbn [andb].
      * destruct (u <=? _) eqn:L; cbn [andb]; [|rewrite orb_false_r; exact RD].
        destruct (z_queued (g_z w)) eqn:Q; cbn [negb]; [intros _; apply RD; reflexivity|].
        intros _. destruct S as [S|(u' & U' & L')]; [congruence|]. rewrite U in U'. injection U' as <-. pose proof (AH u U). lia.
      * rewrite orb_false_r. exact RD.
    + intros p R. destruct (WO p R) as [X W]. split; [exact X|]. eapply work_ext; [exact W|cbn; lia|reflexivity].
  - (* the cache *)
    right. exists k, C, o. destruct (nth_error _ _) as [v|]; [|exact G0].
    unfold zstep. rewrite DE. split; cbn [onZ g_z g_obj g_chg g_hist]; auto.
    intros p R. destruct (WO p R) as [X W]. split; [exact X|]. eapply work_ext; [exact W|cbn; lia|reflexivity].
  - (* a handler *)
    right. exists k, C, o. unfold zstep. rewrite DE. unfold zAdd. destruct (z_queued (g_z w)) eqn:Q; [rewrite SAME; exact G0|].
    split; cbn [onZ g_z g_obj g_chg g_hist]; auto.
    + intros R. destruct (ID R) as [S _]. split; [left; reflexivity|]. intros _. cbn.
      destruct S as [S|(u & U & L)]; [congruence|]. pose proof (AH u U). lia.
    + intros p R. destruct (WO p R) as [X W]. split; [exact X|]. eapply work_ext; [exact W|cbn; lia|reflexivity].
  - (* a worker *)
    right. exists k, C, o. unfold zstep. rewrite DE. unfold zStart. destruct (z_run (g_z w)) as [p0|] eqn:R.
    { rewrite SAME. exact G0. }
    destruct (z_queued (g_z w)) eqn:Q.
    2:{ rewrite SAME. exact G0. }
    destruct (AL _ (h_view _ HI)) as (v & V & HF & DT). rewrite V.
    split; cbn [onZ g_z g_obj g_chg g_hist zRun z_now z_began z_run z_dead z_due z_queued z_ready]; auto; try lia; try discriminate.
    intros p E. injection E as <-. destruct (ID eq_refl) as [_ RD]. specialize (RD eq_refl). specialize (P1 eq_refl eq_refl). split; [lia|].
    destruct (Nat.eq_dec (mo_rv v) (mo_rv o)) as [E|E].
    + assert (v = o). { destruct (h_vers _ HI v) as [_ U]; [rewrite <- V; apply (h_view _ HI)|]. exact (U o OB E). }
      subst v. destruct (both_termination vm cf o (z_now (g_z w) / 1000) FIT (z_now (g_z w) / 1000) (Z.le_refl _)) as [S M].
      apply (WFresh _ _ _ _ (z_now (g_z w) / 1000)); [exact S|cbn; apply div_floor|]. cbn. intros L. apply M. intros F. specialize (OP F).
      unfold gap in L. rewrite F in L. assert (opTime o + 1801 <= z_now (g_z w) / 1000); [|lia].
      apply Z.div_le_lower_bound; lia.
    + apply (WStale _ _ _ _ (mo_rv v)); [exact E|apply lame_termination|apply brief_termination; assumption|]. cbn.
      destruct (Z_le_gt_dec (z_now (g_z w)) (C + gap)) as [L|L]; [exact L|]. exfalso. rewrite FR in V by lia. rewrite OB in V. injection V as <-. apply E. reflexivity.
  - (* a step *)
    destruct (z_run (g_z w)) as [p|] eqn:R.
    2:{ right. exists k, C, o. unfold zstep. rewrite DE. unfold zStep. rewrite R, SAME. exact G0. }
    destruct (WO p eq_refl) as [BX W]. specialize (P2 ltac:(discriminate)).
    cbn [smooth] in SM. rewrite R in SM.
    destruct p as [x f| |x p|c kk].
    + (* the end *)
      right. exists k, C, o. unfold zstep. rewrite DE. unfold zStep. rewrite R.
      assert (X5 : x <= 5000 /\ z_began (g_z w) <= C + gap).
      { destruct W as [tm S T M|n N L B X].
        - split; [exact S|]. destruct (Z_le_gt_dec (z_began (g_z w)) (C + gap)) as [L|L]; [exact L|]. exfalso. apply M. lia.
        - split; [exact B|exact X]. }
      destruct X5 as [X5 BG]. unfold zFinish.
      destruct (worker_keeps (true && f) lim (zAfter x (g_z w))) as [W1 [_ [_ [W4 [W5 _]]]]].
      destruct (after_keeps x (g_z w)) as [F1 [_ [_ [F4 [F5 _]]]]]. cbn [andb] in *.
      split; cbn [onZ g_z g_obj g_chg g_hist zClose z_now z_began z_run z_dead z_due z_queued z_ready]; auto.
      * rewrite W1, F1. exact FIT.
      * rewrite W4, F4. exact DE.
      * rewrite W5, F5, W1, F1. exact BE.
      * intros u U. cbn in U |- *. exact (ahead_worker _ _ _ (ahead_after _ _ AH) u U).
      * intros _. split; [|intros _; rewrite W1, F1; lia].
        assert (S : soon (C + gap + eps + 5000) (zWorker f lim (zAfter x (g_z w)))) by (apply soon_worker, soon_new; lia). exact S.
      * discriminate.
    + exfalso. destruct W as [tm S T M|n N L B X]; contradiction.
    + exfalso. destruct W as [tm S T M|n N L B X]; contradiction.
    + (* a call *)
      assert (KEEP : forall r', work (onZ (zstep cf true (g_z w) (ZStep r' lim)) w) o C (kk (match c with CNow => RTime (z_now (g_z w) / 1000) | _ => r' end)) ->
        Going (onZ (zstep cf true (g_z w) (ZStep r' lim)) w) k C o).
      { intros r'. unfold zstep. rewrite DE. unfold zStep. rewrite R. intros W'. split; cbn [onZ g_z g_obj g_chg g_hist z_now z_began z_run z_dead z_due z_queued z_ready]; auto; try discriminate.
        intros p E. injection E as <-. split; [exact BX|exact W']. }
      assert (NB : forall r', z_now (g_z (onZ (zstep cf true (g_z w) (ZStep r' lim)) w)) = z_now (g_z w) /\ z_began (g_z (onZ (zstep cf true (g_z w) (ZStep r' lim)) w)) = z_began (g_z w)).
      { intros r'. unfold zstep. rewrite DE. unfold zStep. rewrite R. split; reflexivity. }
      destruct (isWrite c) as [x|] eqn:IW.
      * (* a write *)
        assert (WR : match c with WMeta x => gWrite mergeMeta x w | WStatus x => gWrite mergeStatus x w | _ => (w, r) end = gWrite (mergeOf c) x w).
        { destruct c; try discriminate IW; injection IW as <-; reflexivity. }
        assert (NN : forall r', match c with CNow => RTime (z_now (g_z w) / 1000) | _ => r' end = r') by (intros r'; destruct c; try discriminate IW; reflexivity).
        rewrite WR.
        destruct W as [tm S T M|n N L B X].
        -- cbn [safe must] in S, M. rewrite IW in S, M. destruct S as (S1 & S2 & S3). cbv zeta in S3.
           unfold gWrite. rewrite OB, S1, S2, !Nat.eqb_refl. cbn [andb]. cbv zeta.
           destruct (MObj_eq_dec o (mergeOf c o x)) as [E|E].
           ++ right. exists k, C, o. apply KEEP. rewrite NN. apply (WFresh _ _ _ _ tm); [exact S3|rewrite (proj1 (NB _)); exact T|rewrite (proj2 (NB _)); exact M].
           ++ specialize (S3 (g_next w)). set (y := withRv (g_next w) (mergeOf c o x)) in *. destruct S3 as [LA S3].
              assert (RV : (mo_rv o < g_next w)%nat). { apply (h_vers _ HI). rewrite <- OB. apply (h_obj _ HI). }
              destruct S3 as [F|(F & RL & BR)].
              ** left. unfold zstep. rewrite DE. unfold zStep. rewrite R, NN. split; cbn [onZ g_z g_obj z_run].
                 --- intros o' Eo. assert (o' = y). { destruct (mo_dt y); [destruct (mo_fins y)|]; congruence. } subst o'. exact F.
                 --- intros p Ep. injection Ep as <-. exists (mo_rv o). split; [exact LA|].
                     intros o' Eo. assert (o' = y). { destruct (mo_dt y); [destruct (mo_fins y)|]; congruence. } subst o'. cbn. lia.
              ** right. destruct F as (F1 & F2 & F3). destruct (fins_cons y F2) as (f1 & l1 & EF).
                 assert (ST : match mo_dt y with Some _ => match mo_fins y with [] => None | _ => Some y end | None => Some y end = Some y) by (rewrite EF; destruct (mo_dt y); reflexivity).
                 rewrite ST. pose proof (rank_1 y F2) as R1.
                 exists (Nat.pred k), (C + stp), y. unfold zstep. rewrite DE. unfold zStep. rewrite R, NN.
                 assert (SP : 0 <= stp) by (unfold stp; lia).
                 split; cbn [onZ g_z g_obj g_chg g_hist z_now z_began z_run z_dead z_due z_queued z_ready]; auto; try lia; try discriminate.
                 --- apply (fit_later vm tm); [|split; [exact F1|split; [exact F2|exact F3]]]. apply Z.div_le_lower_bound; lia.
                 --- intros x' [I|I]; [|exact (AL x' I)]. exists y. split; [symmetry; exact I|]. split; [exact F2|]. apply F1.
                 --- intros p Ep. injection Ep as <-. split; [lia|].
                     apply (WStale _ _ _ _ (mo_rv o)); [cbn; lia|exact LA|exact BR|]. cbn. lia.
        -- destruct L as [L1 L2]. rewrite IW in L1. destruct (write_rejected (mergeOf c) x w) as [e E].
           { intros o' Eo. rewrite OB in Eo. injection Eo as <-. rewrite L1. auto. }
           rewrite E. right. exists k, C, o. apply KEEP. rewrite NN. cbn [brief] in B. rewrite IW in B.
           apply (WStale _ _ _ _ n); [exact N|apply L2|apply B|]. rewrite (proj2 (NB _)). exact X.
      * (* any other call *)
        assert (WR : (match c with WMeta x => gWrite mergeMeta x w | WStatus x => gWrite mergeStatus x w | _ => (w, r) end) = (w, r)).
        { destruct c; try discriminate IW; reflexivity. }
        rewrite WR. right. exists k, C, o. apply KEEP. destruct SM as [SU SP].
        assert (OK : okay vm c r). { split; [exact SU|]. destruct c; try exact Logic.I. exact SP. }
        destruct W as [tm S T M|n N L B X].
        -- cbn [safe must] in S, M. rewrite IW in S, M.
           destruct (match c with CNow => true | _ => false end) eqn:CN.
           ++ destruct c; try discriminate CN. assert (LT : tm <= z_now (g_z w) / 1000) by (apply Z.div_le_lower_bound; lia).
              apply (WFresh _ _ _ _ (z_now (g_z w) / 1000)); [apply S, LT|rewrite (proj1 (NB _)); apply div_floor|].
              rewrite (proj2 (NB _)). intros Q. apply (M Q), LT.
           ++ apply (WFresh _ _ _ _ tm); [|rewrite (proj1 (NB _)); exact T|rewrite (proj2 (NB _)); intros Q; specialize (M Q)].
              ** destruct c; try discriminate CN; apply S, OK.
              ** destruct c; try discriminate CN; try (apply M, OK). rewrite SP; [exact M|]. unfold T0 in CT. lia.
        -- destruct L as [L1 L2]. cbn [brief] in B. rewrite IW in B.
           apply (WStale _ _ _ _ n); [exact N|apply L2| |rewrite (proj2 (NB _)); exact X].
           destruct c; try discriminate IW; try (apply B, OK). apply B.
Qed.

Lemma ok_run : forall ops w, Ok w -> Forall (timely lam delta eps) (gstates cf w ops) -> smoothly vm since cf w ops -> Ok (grun cf w ops).
Proof.
  induction ops as [|op ops IH]; intros w O T S; [exact O|].
  cbn [gstates] in T. inversion T as [|? ? T1 T2]; subst. destruct S as [S1 S2]. apply (IH (gstep cf w op)); auto.
  destruct O as [HI O]. split; [apply hist_step, HI|]. destruct O as [F|(k & C & o & G)].
  - left. apply final_step; assumption.
  - eapply going_step; eassumption.
Qed.

Lemma ok_last : forall ops w, Forall (timely lam delta eps) (gstates cf w ops) -> timely lam delta eps (grun cf w ops).
Proof.
  induction ops as [|op ops IH]; intros w T; cbn [gstates] in T; inversion T as [|? ? T1 T2]; subst; [exact T1|].
  exact (IH _ T2).
Qed.

Lemma ok_init m : deletable m -> In MCM (mo_fins m) -> (if vm then phase m <> "Terminating" else lo_time (ms_op (mo_status m)) * 1000 <= t0) -> Ok (ginit t0 m).
Proof.
  intros D F P. split; [apply hist_init|]. right. exists 8%nat, T0, m. pose proof gap_lam.
  assert (HF : hasFin m = true) by (apply has_fin, F).
  split; cbn [ginit g_z g_obj g_chg g_hist zinit z_now z_began z_run z_dead z_due z_queued z_ready]; auto; try discriminate; try (unfold T0; lia).
  - split; [exact D|]. split; [exact HF|]. destruct vm; [left; apply stage_phase, P|]. unfold opTime. apply Z.div_le_lower_bound; lia.
  - pose proof (rank_max m). lia.
  - intros Q. rewrite Q in P. unfold opTime, T0. lia.
  - intros x [<-|[]]. exists m. split; [reflexivity|]. split; [exact HF|]. apply D.
  - intros _. split; [left; reflexivity|]. intros _. unfold T0. lia.
Qed.

Lemma held_until m ops : deletable m -> In MCM (mo_fins m) -> (if vm then phase m <> "Terminating" else lo_time (ms_op (mo_status m)) * 1000 <= t0) ->
  Forall (timely lam delta eps) (gstates cf (ginit t0 m) ops) -> smoothly vm since cf (ginit t0 m) ops ->
  held (grun cf (ginit t0 m) ops) -> z_now (g_z (grun cf (ginit t0 m) ops)) <= T0 + 8 * stp.
Proof.
  intros D F P T S (o & O & I). destruct (ok_run ops _ (ok_init m D F P) T S) as [_ [FI|(k & C & o' & G)]].
  - pose proof (f_gone _ FI o O) as Q. rewrite (has_fin _ I) in Q. discriminate Q.
  - pose proof (going_time _ _ _ _ (ok_last _ _ T) G) as N. pose proof (o_C _ _ _ _ G) as CC. pose proof (o_rank _ _ _ _ G) as RK.
    rewrite (o_obj _ _ _ _ G) in O. injection O as ->. pose proof (rank_1 o (has_fin _ I)) as R1.
    assert (0 <= stp) by (unfold stp, gap; destruct vm; lia).
    assert ((8 - Z.of_nat k) * stp <= 7 * stp) by (apply Z.mul_le_mono_nonneg_r; lia). lia.
Qed.
End Time.

(** ** The label and the status *)
Lemma label_first cf w o n r1 r2 r3 l1 l2 l3 : z_dead (g_z w) = false -> g_obj w = Some o -> (mo_rv o < g_next w)%nat -> mo_fins o <> [] ->
  nodeName o <> n -> z_run (g_z w) = Some (rUpdateMachineNodeLabel o n) ->
  let w' := grun cf w [GStep r1 l1; GStep r2 l2; GStep r3 l3] in
  exists m', g_obj w' = Some m' /\ nodeName m' = n /\ mo_status m' = mo_status o.
Proof.
  intros D O RV F N R. cbv zeta. unfold grun. cbn [fold_left].
  assert (NE : forall k, nodeName (withRv k (mergeMeta o (withLabels (put "node" n (mo_labels o)) o))) = n).
  { intros k. unfold nodeName, getS. cbn. rewrite get_put. reflexivity. }
  set (y := withRv (g_next w) (mergeMeta o (withLabels (put "node" n (mo_labels o)) o))).
  set (w1 := gstep cf w (GStep r1 l1)).
  assert (W1 : g_obj w1 = Some y /\ z_dead (g_z w1) = false /\ z_run (g_z w1) = Some (rDeletionUpdate o InitiateDrain "Processing" "Delete" (ms_lks (mo_status o)) ShortRetry true)).
  { unfold w1, gstep. rewrite R. unfold rUpdateMachineNodeLabel. unfold gWrite. rewrite O. cbn [withLabels mo_rv mo_uid]. rewrite !Nat.eqb_refl. cbn [andb].
    destruct (MObj_eq_dec _ _) as [E|E].
    { exfalso. apply N. specialize (NE (mo_rv o)). rewrite <- E in NE. exact NE. }
    unfold zstep. rewrite D. unfold zStep. rewrite R. unfold rUpdateMachineNodeLabel. cbn [onZ g_obj g_z z_dead z_run].
    split; [|split; [exact D|reflexivity]]. unfold y. cbn [withRv mergeMeta withLabels mo_dt mo_fins].
    destruct (mo_dt o); [|reflexivity]. destruct (mo_fins o); [contradiction|reflexivity]. }
  destruct W1 as (O1 & D1 & R1). clearbody w1.
  assert (K : forall w2 r l, g_obj w2 = Some y -> (forall p, z_run (g_z w2) = Some p -> lame (mo_rv o) p) ->
    g_obj (gstep cf w2 (GStep r l)) = Some y /\ (forall p, z_run (g_z (gstep cf w2 (GStep r l))) = Some p -> lame (mo_rv o) p)).
  { intros w2 r l O2 L. unfold gstep.
    assert (Z : forall r', forall p, z_run (zstep cf true (g_z w2) (ZStep r' l)) = Some p -> lame (mo_rv o) p).
    { intros r' p. unfold zstep. destruct (z_dead (g_z w2)); [apply L|]. unfold zStep.
      destruct (z_run (g_z w2)) as [[x f| |x q|c k]|] eqn:E; cbn; try discriminate.
      - intros X. injection X as <-. specialize (L _ eq_refl). exact L.
      - intros X. injection X as <-. apply (L _ eq_refl).
      - rewrite E. discriminate. }
    destruct (z_run (g_z w2)) as [[x f| |x q|c k]|] eqn:E; try (split; [exact O2|apply Z]).
    assert (RJ : forall merge x, mo_rv x = mo_rv o -> exists e, gWrite merge x w2 = (w2, RErr e)).
    { intros merge x X. apply write_rejected. intros o' Eo. rewrite O2 in Eo. injection Eo as <-. unfold y. cbn. lia. }
    destruct c; try (split; [exact O2|apply Z]); (destruct (L _ eq_refl) as [LW _]; cbn in LW).
    - destruct (RJ mergeMeta m LW) as [e X]. rewrite X. split; [exact O2|apply Z].
    - destruct (RJ mergeStatus m LW) as [e X]. rewrite X. split; [exact O2|apply Z]. }
  destruct (K w1 r2 l2 O1) as [O2 L2]. { intros p E. rewrite R1 in E. injection E as <-. apply lame_del. }
  destruct (K _ r3 l3 O2 L2) as [O3 _]. exists y. split; [exact O3|]. split; [apply NE|reflexivity].
Qed.
