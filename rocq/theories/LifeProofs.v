(** Proofs for the life of one machine: the invariant of all histories. *)
Require Import Coq.ZArith.ZArith Coq.Lists.List Coq.Strings.String Coq.Strings.Ascii Coq.Bool.Bool Coq.Arith.PeanoNat Coq.NArith.NArith Lia.
Require Import Coq.micromega.ZifyBool.
From Verif Require Import CodesModel MachModel LevModel HealthModel LifeModel LifeSpec.
Import ListNotations.
Open Scope string_scope.
Open Scope list_scope.
Open Scope Z_scope.

Lemma prefix_refl : forall k, String.prefix k k = true.
Proof. induction k; cbn; [reflexivity|]. destruct (ascii_dec a a); [assumption|congruence]. Qed.

Lemma contains_refl : forall k, contains k k = true.
Proof. intros k; destruct k; cbn [contains]; rewrite prefix_refl; reflexivity. Qed.

Lemma contains_app : forall k a s, contains k s = true -> contains k (a ++ s)%string = true.
Proof.
  intros k a s H. induction a as [|c a IH]; [exact H|].
  change (String c a ++ s)%string with (String c (a ++ s)%string). cbn [contains]. rewrite IH. apply orb_true_r.
Qed.

(** The stage that the deletion flow reads from a status. *)
Definition stage (s : MStatus) : nat :=
  if negb (String.eqb (cs_phase (ms_cur s)) "Terminating") then 0
  else if contains GetVMStatus (lo_desc (ms_op s)) then 1
  else if contains InitiateDrain (lo_desc (ms_op s)) then 2
  else if contains DelVolumesAttachments (lo_desc (ms_op s)) then 3
  else if contains InitiateVMDeletion (lo_desc (ms_op s)) then 4
  else if contains InitiateNodeDeletion (lo_desc (ms_op s)) then 5
  else if contains InitiateFinalizerRemoval (lo_desc (ms_op s)) then 6
  else 0.

Ltac stg H := unfold stage; rewrite ?H;
  repeat match goal with |- context [if ?b then _ else _] => destruct b end; lia.

Lemma stage_1 s : contains GetVMStatus (lo_desc (ms_op s)) = true -> (stage s <= 1)%nat.
Proof. intros H; stg H. Qed.
Lemma stage_2 s : contains InitiateDrain (lo_desc (ms_op s)) = true -> (stage s <= 2)%nat.
Proof. intros H; stg H. Qed.
Lemma stage_3 s : contains DelVolumesAttachments (lo_desc (ms_op s)) = true -> (stage s <= 3)%nat.
Proof. intros H; stg H. Qed.
Lemma stage_4 s : contains InitiateVMDeletion (lo_desc (ms_op s)) = true -> (stage s <= 4)%nat.
Proof. intros H; stg H. Qed.
Lemma stage_5 s : contains InitiateNodeDeletion (lo_desc (ms_op s)) = true -> (stage s <= 5)%nat.
Proof. intros H; stg H. Qed.
Lemma stage_max s : (stage s <= 6)%nat.
Proof. unfold stage. repeat match goal with |- context [if ?b then _ else _] => destruct b end; lia. Qed.
Lemma stage_phase s : cs_phase (ms_cur s) <> "Terminating" -> stage s = 0%nat.
Proof. intros H. unfold stage. destruct (String.eqb_spec (cs_phase (ms_cur s)) "Terminating"); [contradiction|reflexivity]. Qed.

(** A forced drain was made. *)
Definition forced (log : list Event) (m : MObj) : Prop :=
  exists m' r, In (QT, CDrain m' true, r) log /\ same_machine m' m /\ mo_dt m' <> None.

(** What the log has to contain for a status to be at its stage. *)
Definition facts (log : list Event) (m : MObj) (n : nat) : Prop :=
  ((3 <= n)%nat -> ready_to_delete log m \/ forced log m) /\
  ((4 <= n)%nat -> ready_to_delete log m) /\
  ((5 <= n)%nat -> vm_deleted log m) /\
  ((6 <= n)%nat -> node_deleted log m).

Lemma same_refl m : same_machine m m.
Proof. repeat split. Qed.
Lemma same_trans a b c : same_machine a b -> same_machine b c -> same_machine a c.
Proof. unfold same_machine. intuition congruence. Qed.

Lemma handled_same e a b : volumes_handled e a -> same_machine a b -> volumes_handled e b.
Proof.
  destruct e as [[w c] r]. intros H S. unfold volumes_handled in *.
  destruct w; try contradiction; destruct c; try contradiction; destruct r; try contradiction;
  try destruct b0; try contradiction; eapply same_trans; eassumption.
Qed.

(** A log with further entries in between. *)
Inductive sub : list Event -> list Event -> Prop :=
| sub_nil : sub [] []
| sub_skip e l l' : sub l l' -> sub l (e :: l')
| sub_cons e l l' : sub l l' -> sub (e :: l) (e :: l').

Lemma sub_refl l : sub l l.
Proof. induction l; constructor; assumption. Qed.
Lemma sub_one e l : sub l (e :: l).
Proof. constructor. apply sub_refl. Qed.
Lemma sub_in l l' : sub l l' -> forall e, In e l -> In e l'.
Proof. induction 1; intros x I; cbn in *; intuition. Qed.
Lemma sub_split l l' : sub l l' -> forall nw e od, l = nw ++ e :: od ->
  exists nw' od', l' = nw' ++ e :: od' /\ sub od od'.
Proof.
  induction 1 as [|x l l' S IH|x l l' S IH]; intros nw e od E.
  - destruct nw; discriminate.
  - destruct (IH _ _ _ E) as (nw' & od' & E' & S'). exists (x :: nw'), od'. split; [rewrite E'; reflexivity | exact S'].
  - destruct nw as [|y nw]; cbn in E; injection E as E1 E2.
    + subst. exists [], l'. split; [reflexivity | exact S].
    + destruct (IH _ _ _ E2) as (nw' & od' & E' & S'). exists (x :: nw'), od'. split; [rewrite E'; reflexivity | exact S'].
Qed.

Lemma ready_ext log log' a b : sub log log' -> same_machine a b -> ready_to_delete log a -> ready_to_delete log' b.
Proof.
  intros U S [H | [H | H]].
  - left. destruct S as (_ & E & _). congruence.
  - right; left. destruct H as (m' & I & S' & D). exists m'. split; [eapply sub_in; eassumption|].
    split; [eapply same_trans; eassumption | exact D].
  - right; right. destruct H as (nw & e & od & m' & r & E & V & I & S' & D).
    destruct (sub_split _ _ U _ _ _ E) as (nw' & od' & E' & U').
    exists nw', e, od', m', r. split; [exact E'|].
    split; [eapply handled_same; eassumption|]. split; [eapply sub_in; eassumption|].
    split; [eapply same_trans; eassumption | exact D].
Qed.

Lemma forced_ext log log' a b : sub log log' -> same_machine a b -> forced log a -> forced log' b.
Proof.
  intros U S (m' & r & I & S' & D). exists m', r. split; [eapply sub_in; eassumption|].
  split; [eapply same_trans; eassumption | exact D].
Qed.

Lemma vm_deleted_ext log log' a b : sub log log' -> same_machine a b -> vm_deleted log a -> vm_deleted log' b.
Proof.
  intros U S (m' & r & I & S' & D). exists m', r. split; [eapply sub_in; eassumption|].
  split; [eapply same_trans; eassumption | exact D].
Qed.

Lemma node_deleted_ext log log' a b : sub log log' -> same_machine a b -> node_deleted log a -> node_deleted log' b.
Proof.
  intros U S [H | (m' & r & I & S' & D)].
  - left. destruct S as (_ & E & _). congruence.
  - right. exists m', r. split; [eapply sub_in; eassumption|]. split; [eapply same_trans; eassumption | exact D].
Qed.

Lemma facts_ext log log' a b n n' : sub log log' -> same_machine a b -> (n' <= n)%nat -> facts log a n -> facts log' b n'.
Proof.
  intros U S L (A & B & C & D). split; [|split; [|split]]; intros H.
  - destruct (A ltac:(lia)); [left; eapply ready_ext | right; eapply forced_ext]; eassumption.
  - eapply ready_ext; [eassumption|eassumption|]. apply B; lia.
  - eapply vm_deleted_ext; [eassumption|eassumption|]. apply C; lia.
  - eapply node_deleted_ext; [eassumption|eassumption|]. apply D; lia.
Qed.

Lemma facts_low log m n : (n <= 2)%nat -> facts log m n.
Proof. intros H. split; [|split; [|split]]; intros; lia. Qed.

(** What a termination reconcile may do, given the log, when it works on version [b]. *)
Definition callT (log : list Event) (b : MObj) (c : Call) : Prop :=
  match c with
  | WStatus x => exists s, x = withStatus s b /\ facts log b (stage s)
  | WMeta x =>
      (exists n, x = withLabels (put "node" n (mo_labels b)) b /\ stage (mo_status b) = 1%nat) \/
      (x = withFins (filter (fun f => negb (String.eqb MCM f)) (mo_fins b)) b /\ stage (mo_status b) = 6%nat)
  | CDelete x => x = b /\ ready_to_delete log b
  | CDrain x _ | CNodeCond x | CVolumes x | CLiveVA x | CDelVA x => x = b
  | CDeleteNode x => x = b /\ vm_deleted log b
  | CCreate _ => False
  | _ => True
  end.

Fixpoint okT (log : list Event) (b : MObj) (p : prog) : Prop :=
  match p with
  | Done => True
  | Panic => False
  | Do c k => callT log b c /\ forall r, okT ((QT, c, r) :: log) b (k r)
  end.

Lemma callT_ext log log' b c : sub log log' -> callT log b c -> callT log' b c.
Proof.
  intros U. destruct c; cbn; auto.
  - intros (E & H). split; [exact E|]. eapply ready_ext; [exact U | apply same_refl | exact H].
  - intros (E & H). split; [exact E|]. eapply vm_deleted_ext; [exact U | apply same_refl | exact H].
  - intros (s & E & F). exists s. split; [exact E|]. eapply facts_ext; [exact U | apply same_refl | | exact F]. lia.
Qed.

Lemma okT_ext : forall p log log' b, sub log log' -> okT log b p -> okT log' b p.
Proof.
  induction p as [| |c k IH]; cbn; intros log log' b U H; [exact I | exact H |].
  destruct H as (A & B). split; [eapply callT_ext; eassumption|].
  intros r. eapply IH; [|apply B]. apply sub_cons. exact U.
Qed.

(** ** The termination reconcile *)

Lemma okT_update log b d code st ty cur lks n :
  (forall o c l, lo_desc o = d -> (stage (mkMS c o (ms_cur (mo_status b)) l) <= n)%nat) ->
  facts log b n ->
  cur = (fun _ => ms_cur (mo_status b)) ->
  okT log b (statusUpdate b d code st ty cur lks).
Proof.
  intros L F ->. cbn [statusUpdate okT]. split; [exact I|]. intros r. destruct r; cbn [okT]; auto.
  unfold machineStatusUpdate. destruct (isMachineStatusSimilar _ _ _); cbn [okT]; auto.
  split; [|intros; exact I]. cbn [callT].
  exists (mkMS (ms_conds (mo_status b)) (mkOp d code t st ty) (ms_cur (mo_status b)) lks).
  split; [reflexivity|]. eapply facts_ext; [apply sub_one | apply same_refl | | exact F].
  apply L. reflexivity.
Qed.

Ltac upd N := unfold deletionUpdate; apply okT_update with (n := N); [|try (apply facts_low; lia)|reflexivity].
Ltac has1 := intros o c l Hd; match goal with
   | |- (_ <= 1)%nat => apply stage_1 | |- (_ <= 2)%nat => apply stage_2 | |- (_ <= 3)%nat => apply stage_3
   | |- (_ <= 4)%nat => apply stage_4 | |- (_ <= 5)%nat => apply stage_5 | |- (_ <= 6)%nat => apply stage_max end;
   cbn [ms_op]; rewrite Hd; repeat first [apply contains_refl | apply contains_app].

Lemma okT_setTermination log b : okT log b (setMachineTerminationStatus b).
Proof.
  cbn [setMachineTerminationStatus okT]. split; [exact I|]. intros r. destruct r; cbn [okT]; auto.
  split; [|intros; exact I]. cbn [callT]. eexists. split; [reflexivity|]. apply facts_low.
  etransitivity; [apply stage_1; apply contains_refl | lia].
Qed.

Lemma okT_label log b n : stage (mo_status b) = 1%nat -> okT log b (updateMachineNodeLabel b n).
Proof.
  intros S. cbn [updateMachineNodeLabel okT]. split.
  - cbn [callT]. left. exists n. split; [reflexivity | exact S].
  - intros r. destruct r; cbn [okT]; auto. upd 2%nat. has1.
Qed.

Lemma okT_statusFailure log b text :
  okT log b (let '(d, s) := statusFailure text in deletionUpdate b d s "Delete" (ms_lks (mo_status b))).
Proof.
  unfold statusFailure. destruct (FromError text) as [st ok].
  repeat match goal with |- context [if ?x then _ else _] => destruct x end;
  upd 2%nat; intros o c l Hd;
  first [ apply stage_2; cbn [ms_op]; rewrite Hd; repeat first [apply contains_refl | apply contains_app]; fail
        | etransitivity; [apply stage_1; cbn [ms_op]; rewrite Hd; repeat first [apply contains_refl | apply contains_app] | lia] ].
Qed.

Lemma okT_getvm log b : stage (mo_status b) = 1%nat -> okT log b (updateMachineStatusAndNodeLabel b).
Proof.
  intros S. unfold updateMachineStatusAndNodeLabel. destruct (negb _).
  - upd 2%nat. has1.
  - cbn [okT]. split; [exact I|]. intros r.
    assert (G : okT ((QT, CFindNode b, r) :: log) b
      (Do (CGetStatus b) (fun r0 => match r0 with
        | POk node _ _ => updateMachineNodeLabel b node
        | PFail text _ => let '(d, s) := statusFailure text in deletionUpdate b d s "Delete" (ms_lks (mo_status b))
        | _ => Done end))).
    { cbn [okT]. split; [exact I|]. intros r0. destruct r0; cbn [okT]; auto.
      - apply okT_label; exact S.
      - apply okT_statusFailure. }
    destruct r; try exact G. apply okT_label; exact S.
Qed.

Lemma okT_drain log b (force : bool) : mo_dt b <> None -> okT log b (runDrain b force).
Proof.
  intros D. unfold runDrain. cbn [okT]. split; [reflexivity|]. intros r. destruct r; cbn [okT]; auto.
  - destruct force.
    + upd 3%nat; [has1|]. split; [|split; [|split]]; try (intros; lia). intros _. right.
      exists b, RUnit. split; [left; reflexivity|]. split; [apply same_refl | exact D].
    + upd 4%nat; [has1|].
      assert (R : ready_to_delete ((QT, CDrain b false, RUnit) :: log) b).
      { right; left. exists b. split; [left; reflexivity|]. split; [apply same_refl | exact D]. }
      split; [|split; [|split]]; try (intros; lia); intros _; [left; exact R | exact R].
  - destruct force.
    + upd 3%nat; [has1|]. split; [|split; [|split]]; try (intros; lia). intros _. right.
      exists b, (RErr text). split; [left; reflexivity|]. split; [apply same_refl | exact D].
    + upd 2%nat. has1.
Qed.

Lemma okT_drainNode cf log b : mo_dt b <> None -> okT log b (drainNode cf b).
Proof.
  intros D. unfold drainNode. destruct (String.eqb_spec (nodeName b) "") as [E|E].
  - upd 4%nat; [has1|].
    assert (R : ready_to_delete log b) by (left; exact E).
    split; [|split; [|split]]; try (intros; lia); intros _; [left; exact R | exact R].
  - cbn [okT]. split; [exact I|]. intros r. destruct r; cbn [okT]; auto.
    destruct (mo_dt b) as [dt|] eqn:Edt; [|congruence]. cbn [okT]. split; [reflexivity|].
    intros r. destruct r; cbn [okT]; auto.
    + apply okT_drain. congruence.
    + match goal with |- context [if ?x then _ else _] => destruct x end.
      * apply okT_drain. congruence.
      * upd 2%nat. has1.
Qed.

Lemma okT_volumes log b : facts log b 3 -> okT log b (deleteNodeVolAttachments b).
Proof.
  intros (F & _).
  assert (G : forall log' e, sub log log' -> volumes_handled e b -> facts (e :: log') b 4).
  { intros log' e U V. destruct (F ltac:(lia)) as [R | (m' & r & I' & S & D)].
    - assert (R' : ready_to_delete (e :: log') b).
      { eapply ready_ext; [apply sub_skip; exact U | apply same_refl | exact R]. }
      split; [|split; [|split]]; try (intros; lia); intros _; [left; exact R' | exact R'].
    - assert (R' : ready_to_delete (e :: log') b).
      { right; right. exists [], e, log', m', r. split; [reflexivity|]. split; [exact V|].
        split; [eapply sub_in; eassumption|]. split; [exact S | exact D]. }
      split; [|split; [|split]]; try (intros; lia); intros _; [left; exact R' | exact R']. }
  unfold deleteNodeVolAttachments. cbn [okT]. split; [reflexivity|]. intros r. destruct r; cbn [okT]; auto.
  - upd 4%nat; [has1|]. apply G; [apply sub_refl | apply same_refl].
  - destruct b0; cbn [okT].
    + split; [reflexivity|]. intros r. destruct r; cbn [okT]; auto. destruct b0; cbn [okT].
      * split; [reflexivity|]. intros; exact I.
      * upd 4%nat; [has1|]. apply G; [apply sub_one | apply same_refl].
    + upd 4%nat; [has1|]. apply G; [apply sub_refl | apply same_refl].
Qed.

Lemma okT_deleteVM log b : mo_dt b <> None -> facts log b 4 -> okT log b (deleteVM b).
Proof.
  intros D F. unfold deleteVM. cbn [okT]. split.
  - cbn [callT]. split; [reflexivity|]. apply F. lia.
  - assert (G : forall r, vm_gone r -> facts ((QT, CDelete b, r) :: log) b 5).
    { intros r V. destruct F as (F3 & F4 & _).
      assert (R' : ready_to_delete ((QT, CDelete b, r) :: log) b).
      { eapply ready_ext; [apply sub_one | apply same_refl | apply F4; lia]. }
      split; [|split; [|split]]; try (intros; lia); intros _; [left; exact R' | exact R' |].
      exists b, r. split; [left; reflexivity|]. split; [apply same_refl|]. split; [exact D | exact V]. }
    assert (F' : forall r, facts ((QT, CDelete b, r) :: log) b 4).
    { intros r. eapply facts_ext; [apply sub_one | apply same_refl | | exact F]. lia. }
    intros r. destruct r; cbn [okT]; auto.
    + upd 5%nat; [has1|]. apply G. exact I.
    + unfold deleteFailure.
      pose proof (G (PFail text resp)) as G'. cbn [vm_gone] in G'.
      destruct (FromError text) as [st ok]. cbn [fst] in G'.
      destruct ok.
      * destruct (N.eqb (s_code st) cUnknown || N.eqb (s_code st) cDeadlineExceeded || N.eqb (s_code st) cAborted || N.eqb (s_code st) cUnavailable).
        -- upd 4%nat; [has1 | apply F'].
        -- destruct (N.eqb_spec (s_code st) cNotFound).
           ++ upd 5%nat; [has1 | apply G'; assumption].
           ++ upd 4%nat; [has1 | apply F'].
      * upd 4%nat; [has1 | apply F'].
Qed.

Lemma okT_deleteNode log b : mo_dt b <> None -> facts log b 5 -> okT log b (deleteNodeObject b).
Proof.
  intros D F. unfold deleteNodeObject. destruct (String.eqb_spec (nodeName b) "") as [E|E]; cbn [negb].
  - upd 6%nat; [has1|]. destruct F as (F3 & F4 & F5 & _).
    split; [|split; [|split]]; intros _; [apply F3; lia | apply F4; lia | apply F5; lia | left; exact E].
  - cbn [okT]. split; [cbn [callT]; split; [reflexivity | apply F; lia]|].
    assert (G : forall r, node_gone r -> facts ((QT, CDeleteNode b, r) :: log) b 6).
    { intros r V. assert (F' : facts ((QT, CDeleteNode b, r) :: log) b 5).
      { eapply facts_ext; [apply sub_one | apply same_refl | | exact F]. lia. }
      destruct F' as (F3 & F4 & F5 & _).
      split; [|split; [|split]]; intros _; [apply F3; lia | apply F4; lia | apply F5; lia |].
      right. exists b, r. split; [left; reflexivity|]. split; [apply same_refl|]. split; [exact D | exact V]. }
    intros r. destruct r; cbn [okT]; auto.
    + upd 6%nat; [has1|]. apply G. exact I.
    + upd 5%nat; [has1|]. eapply facts_ext; [apply sub_one | apply same_refl | | exact F]. lia.
    + upd 6%nat; [has1|]. apply G. exact I.
Qed.

Lemma okT_termination cf log b : mo_dt b <> None -> facts log b (stage (mo_status b)) ->
  okT log b (reconcileTermination cf b).
Proof.
  intros D F. unfold reconcileTermination. cbn [okT]. split; [exact I|]. intros r.
  destruct r; cbn [okT]; auto.
  assert (F' : facts ((QT, CClass, RUnit) :: log) b (stage (mo_status b))).
  { eapply facts_ext; [apply sub_one | apply same_refl | | exact F]. lia. }
  clear F. unfold triggerDeletionFlow. destruct (hasFin b) eqn:HF; cbn [negb okT]; auto.
  pose proof (eq_refl (stage (mo_status b))) as ES. unfold stage in ES at 2.
  fold (phase b) in ES. fold (desc b) in ES.
  destruct (String.eqb (phase b) "Terminating"); cbn [negb] in *; [|apply okT_setTermination].
  destruct (contains GetVMStatus (desc b)); [apply okT_getvm; exact ES|].
  destruct (contains InitiateDrain (desc b)); [apply okT_drainNode; exact D|].
  destruct (contains DelVolumesAttachments (desc b)); [apply okT_volumes; rewrite ES in F'; exact F'|].
  destruct (contains InitiateVMDeletion (desc b)); [apply okT_deleteVM; [exact D | rewrite ES in F'; exact F']|].
  destruct (contains InitiateNodeDeletion (desc b)); [apply okT_deleteNode; [exact D | rewrite ES in F'; exact F']|].
  destruct (contains InitiateFinalizerRemoval (desc b)); [|apply okT_setTermination].
  unfold deleteMachineFinalizers. rewrite HF. cbn [okT]. split; [|intros; exact I].
  cbn [callT]. right. split; [reflexivity | exact ES].
Qed.

(** ** The reconcile of machines that are not being deleted *)

(** What it may do when it has seen the versions [bs]. *)
Definition callC (log : list Event) (bs : list MObj) (c : Call) : Prop :=
  match c with
  | WStatus x => exists b s, In b bs /\ x = withStatus s b /\
      (cs_phase (ms_cur s) <> "Terminating" \/ (ms_op s = ms_op (mo_status b) /\ ms_cur s = ms_cur (mo_status b)))
  | WMeta x => exists b, In b bs /\ mo_uid x = mo_uid b /\ mo_rv x = mo_rv b /\
      (In MCM (mo_fins b) -> In MCM (mo_fins x))
  | CDelete x => exists m node pid lks, In (QC, CCreate m, POk node pid lks) log /\ x = withPid pid m
  | CDrain _ _ | CDeleteNode _ | CDelVA _ => False
  | _ => True
  end.

Fixpoint okC (log : list Event) (bs : list MObj) (p : prog) : Prop :=
  match p with
  | Done | Panic => True
  | Do c k => callC log bs c /\
      forall r, okC ((QC, c, r) :: log) (match c, r with WMeta _, RObj m => m :: bs | _, _ => bs end) (k r)
  end.

Lemma callC_ext log log' bs c : sub log log' -> callC log bs c -> callC log' bs c.
Proof.
  intros U. destruct c; cbn; auto.
  intros (m0 & node & pid & lks & I & E). exists m0, node, pid, lks. split; [eapply sub_in; eassumption | exact E].
Qed.

Lemma okC_ext : forall p log log' bs, sub log log' -> okC log bs p -> okC log' bs p.
Proof.
  induction p as [| |c k IH]; cbn; intros log log' bs U H; [exact I | exact I |].
  destruct H as (A & B). split; [eapply callC_ext; eassumption|].
  intros r. eapply IH; [|apply B]. apply sub_cons. exact U.
Qed.

Lemma okC_update log bs b d code st ty cur lks :
  In b bs -> (forall now, cs_phase (cur now) <> "Terminating") ->
  okC log bs (statusUpdate b d code st ty cur lks).
Proof.
  intros B N. cbn [statusUpdate okC]. split; [exact I|]. intros r. destruct r; cbn [okC]; auto.
  unfold machineStatusUpdate. destruct (isMachineStatusSimilar _ _ _); cbn [okC]; auto.
  split; [|intros; exact I]. cbn [callC]. eexists b, _. split; [exact B|]. split; [reflexivity|].
  left. cbn [ms_cur]. apply N.
Qed.

Lemma createFailurePhase_not cf b now : createFailurePhase cf b now <> "Terminating".
Proof. unfold createFailurePhase. destruct (_ <? _); discriminate. Qed.

Lemma okC_errorHandler cf log bs b lks text : In b bs -> okC log bs (machineCreateErrorHandler cf b lks text).
Proof. intros B. apply okC_update; [exact B|]. intros now. cbn. apply createFailurePhase_not. Qed.

Lemma okC_init cf log bs b : In b bs -> okC log bs (initializeMachine cf b).
Proof.
  intros B. unfold initializeMachine. cbn [okC]. split; [exact I|]. intros r. destruct r; cbn [okC]; auto.
  destruct (FromError text) as [st ok]. destruct (negb ok); cbn [okC]; auto.
  destruct (N.eqb _ _); cbn [okC]; auto. apply okC_update; [exact B|]. intros now. cbn. apply createFailurePhase_not.
Qed.

Lemma okC_pending log bs b : In b bs -> okC log bs (setPending b).
Proof.
  intros B. unfold setPending. destruct (_ || _); cbn [okC]; auto. split; [exact I|].
  intros r. destruct r; cbn [okC]; auto. split; [|intros; exact I]. cbn [callC].
  eexists b, _. split; [exact B|]. split; [reflexivity|]. left. discriminate.
Qed.

Lemma okC_finish cf log bs b uninit node pid : In b bs -> okC log bs (finishCreation cf b uninit node pid).
Proof.
  intros B. unfold finishCreation. destruct (_ || _).
  - cbn [okC]. split.
    + cbn [callC]. exists b. split; [exact B|]. split; [reflexivity|]. split; [reflexivity|]. cbn. auto.
    + intros r. destruct r; destruct uninit; cbn [okC]; auto; try (apply okC_init; exact B).
      apply okC_init. left; reflexivity.
  - destruct uninit; [apply okC_init | apply okC_pending]; exact B.
Qed.

Lemma okC_create cf log bs b : In b bs -> okC log bs (createVM cf b).
Proof.
  intros B. unfold createVM. cbn [okC]. split; [exact I|]. intros r. destruct r; cbn [okC]; auto.
  - split; [exact I|]. intros r. destruct r; cbn [okC]; auto. destruct (_ && _); cbn [okC].
    + split.
      * cbn [callC]. exists b, node, pid, lks. split; [right; left; reflexivity | reflexivity].
      * intros r. apply okC_update; [exact B|]. intros; discriminate.
    + apply okC_finish. exact B.
  - apply okC_errorHandler. exact B.
Qed.

Lemma okC_creation cf log bs b : In b bs -> okC log bs (creationIfNeeded cf b).
Proof.
  intros B. unfold creationIfNeeded. destruct (_ || _); cbn [okC]; auto.
  unfold triggerCreationFlow. cbn [okC]. split; [exact I|]. intros r. destruct r; cbn [okC]; auto.
  split; [exact I|]. intros r. destruct r; cbn [okC]; auto.
  - apply okC_finish. exact B.
  - destruct (FromError text) as [st ok]. destruct (negb ok); cbn [okC]; auto.
    destruct (_ || _).
    + destruct (has _ _); [apply okC_finish | apply okC_create]; exact B.
    + destruct (N.eqb _ _).
      * destruct resp as [[[? ?] ?]|]; cbn [okC]; auto. apply okC_finish. exact B.
      * apply okC_errorHandler. exact B.
Qed.

Lemma health_phase sh cr he bad now a m s :
  reconcileMachineHealth sh cr he bad now a m = HWrite s ->
  cs_phase (ms_cur s) <> "Terminating" \/ (ms_op s = ms_op (mo_status m) /\ ms_cur s = ms_cur (mo_status m)).
Proof.
  unfold reconcileMachineHealth. intros H.
  repeat match type of H with
  | context [match ?x with NodeErr => _ | _ => _ end] => destruct x
  | context [if ?x then _ else _] => destruct x eqn:?
  end; try discriminate; injection H as <-; cbn; auto; left; discriminate.
Qed.

Lemma okC_health cf log bs b : In b bs -> okC log bs (healthThenCreate cf b).
Proof.
  intros B. unfold healthThenCreate.
  assert (G : forall log', okC log' bs (Do (CSync b) (fun r => match r with RUnit => creationIfNeeded cf b | _ => Done end))).
  { intros log'. cbn [okC]. split; [exact I|]. intros r. destruct r; cbn [okC]; auto. apply okC_creation; exact B. }
  cbn [okC]. split; [exact I|]. intros r. destruct r; cbn [okC]; auto.
  split; [exact I|]. intros r. destruct r; cbn [okC]; auto.
  destruct (reconcileMachineHealth _ _ _ _ _ _ _) as [|s|d s| |] eqn:EH; auto; try exact I; try apply G.
  - cbn [okC]. split; [|intros; exact I]. cbn [callC]. exists b, s. split; [exact B|]. split; [reflexivity|].
    eapply health_phase; exact EH.
  - cbn [okC]. split; [exact I|]. intros r. destruct r; cbn [okC]; auto. destruct b0; cbn [okC]; auto.
    split.
    + cbn [callC]. eexists b, _. split; [exact B|]. split; [reflexivity|]. left. discriminate.
    + intros r. destruct r; first [exact I | apply G].
Qed.

Lemma okC_reconcile cf log b : okC log [b] (reconcileMachine cf b).
Proof.
  assert (B : In b [b]) by (left; reflexivity).
  unfold reconcileMachine. cbn [okC]. split; [exact I|]. intros r. destruct r; cbn [okC]; auto.
  destruct b0; cbn [okC]; auto. split; [exact I|]. intros r. destruct r; cbn [okC]; auto.
  destruct (negb (hasFin b)).
  - cbn [okC]. split; [|intros; exact I]. cbn [callC]. exists b. split; [exact B|].
    split; [reflexivity|]. split; [reflexivity|]. intros. left. reflexivity.
  - destruct (_ && _); [apply okC_health | apply okC_creation]; exact B.
Qed.

(** ** The invariant of all histories without a second creation *)

(** Seen as being deleted or gone. *)
Definition fine (v : option MObj) : Prop := match v with Some m => mo_dt m <> None | None => True end.

(** What is true of every entry of the log, given the older ones. *)
Fixpoint logOk (l : list Event) : Prop :=
  match l with
  | [] => True
  | e :: r =>
      match e with
      | (QT, CDelete m, _) => mo_dt m <> None /\ ready_to_delete r m
      | (QT, CDeleteNode m, _) => mo_dt m <> None /\ vm_deleted r m
      | (QT, CDrain m _, _) | (QT, CNodeCond m, _) | (QT, CDelVA m, _) => mo_dt m <> None
      | (QC, CDelete x, _) => exists m node pid lks, In (QC, CCreate m, POk node pid lks) r /\ x = withPid pid m
      | (QC, CDrain _ _, _) | (QC, CDeleteNode _, _) | (QT, CCreate _, _) => False
      | _ => True
      end /\ logOk r
  end.

Record Inv (w : World) : Prop := {
  i_nodup : NoDup (map mo_rv (w_vers w));
  i_rv : forall v, In v (w_vers w) -> (mo_rv v < w_next w)%nat;
  i_obj : forall o, w_obj w = Some o -> In o (w_vers w);
  i_hist : forall v, In (Some v) (w_view w :: w_pend w) -> In v (w_vers w);
  i_last : last (w_pend w) (w_view w) = w_obj w;
  i_mono : forall l1 m l2, w_view w :: w_pend w = l1 ++ Some m :: l2 -> mo_dt m <> None -> Forall fine l2;
  i_none : forall l1 l2, w_pend w = l1 ++ None :: l2 -> l2 = [];
  i_tq : w_tq w = true -> Forall fine (w_view w :: w_pend w);
  i_facts : forall v, In v (w_vers w) -> facts (w_log w) v (stage (mo_status v));
  i_dt : forall v, In v (w_vers w) -> (1 <= stage (mo_status v))%nat -> mo_dt v <> None;
  i_t : forall p, w_t w = Some p -> exists b, In b (w_vers w) /\ mo_dt b <> None /\ okT (w_log w) b p;
  i_c : forall p, w_c w = Some p -> exists bs, (forall b, In b bs -> In b (w_vers w) /\ mo_dt b = None) /\ okC (w_log w) bs p;
  i_log : logOk (w_log w) }.

Lemma last_app1 {A} (l : list A) x d : last (l ++ [x]) d = x.
Proof. induction l as [|a l IH]; [reflexivity|]. cbn. destruct (l ++ [x]) eqn:E; [destruct l; discriminate|]. exact IH. Qed.

Lemma last_in {A} (l : list A) d : In (last l d) (d :: l).
Proof.
  revert d; induction l as [|a l IH]; intros d; [left; reflexivity|].
  change (last (a :: l) d) with (match l with [] => a | _ => last l d end).
  destruct l as [|b l]; [right; left; reflexivity|].
  specialize (IH d). cbn [In] in *. tauto.
Qed.

Lemma last_def {A} (l : list A) a d d' : last (a :: l) d = last (a :: l) d'.
Proof. revert a; induction l as [|b l IH]; intros a; [reflexivity|]. exact (IH b). Qed.

Lemma last_hist {A} (l : list A) v l1 x l2 : v :: l = l1 ++ x :: l2 -> last l v = last l2 x.
Proof.
  revert v l1. induction l as [|a l IH]; intros v l1 E.
  - destruct l1 as [|y l1]; cbn in E; injection E as E1 E2; [subst; reflexivity|]. destruct l1; discriminate.
  - destruct l1 as [|y l1]; cbn in E; injection E as E1 E2.
    + subst. reflexivity.
    + rewrite <- (IH a l1 E2). destruct l as [|b l]; [reflexivity|]. exact (last_def l b v a).
Qed.

Lemma snoc_split {A} (l : list A) x l1 y l2 : l ++ [x] = l1 ++ y :: l2 ->
  (l2 = [] /\ x = y /\ l1 = l) \/ exists l2', l2 = l2' ++ [x] /\ l = l1 ++ y :: l2'.
Proof.
  intros E. destruct l2 as [|z l2] using rev_ind.
  - left. apply app_inj_tail in E. intuition congruence.
  - right. exists l2. rewrite app_comm_cons, app_assoc in E. apply app_inj_tail in E. destruct E as (E1 & E2). subst. auto.
Qed.

Lemma obj_fine w o : Inv w -> w_obj w = Some o -> Forall fine (w_view w :: w_pend w) -> mo_dt o <> None.
Proof.
  intros V E F. pose proof (last_in (w_pend w) (w_view w)) as L. rewrite (i_last w V), E in L.
  rewrite Forall_forall in F. exact (F _ L).
Qed.

Lemma inv_store w o n :
  Inv w -> w_obj w = Some o -> (mo_dt o <> None -> mo_dt n <> None) ->
  facts (w_log w) n (stage (mo_status n)) -> ((1 <= stage (mo_status n))%nat -> mo_dt n <> None) ->
  Inv (store w o n).
Proof.
  intros V EO D F S. unfold store. destruct (MObj_eq_dec o n); [exact V|].
  remember (withRv (w_next w) n) as n'.
  remember (match mo_dt n', mo_fins n' with Some _, [] => None | _, _ => Some n' end) as st.
  assert (Dn : mo_dt n' = mo_dt n) by (subst; reflexivity).
  assert (ST : st = None /\ mo_dt n' <> None \/ st = Some n').
  { subst st. destruct (mo_dt n'); auto. destruct (mo_fins n'); [left; split; [reflexivity|discriminate] | auto]. }
  assert (FN : mo_dt o <> None -> fine st).
  { intros X. destruct ST as [(-> & _) | ->]; cbn; auto. rewrite Dn. auto. }
  assert (SN : forall v, In v (w_vers w) -> In v (n' :: w_vers w)) by (intros; right; assumption).
  constructor; cbn [w_obj w_view w_pend w_next w_uids w_now w_tq w_c w_t w_vms w_vers w_log].
  - cbn [map]. constructor; [|apply (i_nodup w V)]. intros I0. apply in_map_iff in I0. destruct I0 as (v & E1 & I1).
    apply (i_rv w V) in I1. subst n'. cbn in E1. lia.
  - intros v [<- | I0]; [subst n'; cbn; lia|]. apply (i_rv w V) in I0. lia.
  - intros x E. destruct ST as [(-> & _) | ->]; [discriminate|]. injection E as <-. left; reflexivity.
  - intros v I0. rewrite app_comm_cons in I0. apply in_app_or in I0. destruct I0 as [I0 | [I0 | []]].
    + apply SN. apply (i_hist w V). exact I0.
    + destruct ST as [(-> & _) | ->]; [discriminate|]. injection I0 as <-. left; reflexivity.
  - apply last_app1.
  - intros l1 m l2 E X. rewrite app_comm_cons in E. apply snoc_split in E. destruct E as [(-> & _) | (l2' & -> & E)]; [constructor|].
    pose proof (i_mono w V _ _ _ E X) as FF. apply Forall_app. split; [exact FF|]. constructor; [|constructor].
    apply FN. pose proof (last_hist _ _ _ _ _ E) as LL. rewrite (i_last w V), EO in LL.
    pose proof (last_in l2' (Some m)) as LI. rewrite <- LL in LI. destruct LI as [LI | LI].
    + injection LI as ->. exact X.
    + rewrite Forall_forall in FF. exact (FF _ LI).
  - intros l1 l2 E. apply snoc_split in E. destruct E as [(-> & _) | (l2' & -> & E)]; [reflexivity|].
    pose proof (i_none w V _ _ E) as ->. exfalso. pose proof (i_last w V) as LL. rewrite E, last_app1, EO in LL. discriminate.
  - intros T. pose proof (i_tq w V T) as FF. rewrite app_comm_cons. apply Forall_app. split; [exact FF|].
    constructor; [|constructor]. apply FN. eapply obj_fine; eassumption.
  - intros v [<- | I0]; [|apply (i_facts w V); exact I0]. subst n'. exact F.
  - intros v [<- | I0]; [|apply (i_dt w V); exact I0]. rewrite Dn. subst n'. exact S.
  - intros p E. destruct (i_t w V p E) as (b & B1 & B2 & B3). exists b. auto.
  - intros p E. destruct (i_c w V p E) as (bs & B1 & B2). exists bs. split; [|exact B2].
    intros b I0. destruct (B1 b I0). auto.
  - apply (i_log w V).
Qed.

Lemma inv_log w e vms : Inv w -> logOk (e :: w_log w) -> Inv (setLog w (e :: w_log w) vms).
Proof.
  intros V L. destruct V as [A1 A2 A3 A4 A5 A6 A7 A8 A9 A10 A11 A12 A13].
  unfold setLog. constructor; cbn [w_obj w_view w_pend w_next w_uids w_now w_tq w_c w_t w_vms w_vers w_log]; auto.
  - intros v I0. eapply facts_ext; [apply sub_one | apply same_refl | | apply A9; exact I0]. lia.
  - intros p E. destruct (A11 p E) as (b & B1 & B2 & B3). exists b. split; [exact B1|]. split; [exact B2|].
    eapply okT_ext; [apply sub_one | exact B3].
  - intros p E. destruct (A12 p E) as (bs & B1 & B2). exists bs. split; [exact B1|].
    eapply okC_ext; [apply sub_one | exact B2].
Qed.

Lemma inv_slots w c t :
  Inv w ->
  (forall p, t = Some p -> exists b, In b (w_vers w) /\ mo_dt b <> None /\ okT (w_log w) b p) ->
  (forall p, c = Some p -> exists bs, (forall b, In b bs -> In b (w_vers w) /\ mo_dt b = None) /\ okC (w_log w) bs p) ->
  Inv (setSlots w c t).
Proof.
  intros V T C. destruct V as [A1 A2 A3 A4 A5 A6 A7 A8 A9 A10 A11 A12 A13].
  unfold setSlots. constructor; cbn [w_obj w_view w_pend w_next w_uids w_now w_tq w_c w_t w_vms w_vers w_log]; auto.
Qed.

Lemma inv_crash w : Inv w -> Inv (crash w).
Proof.
  intros V. pose proof V as V'. destruct V as [A1 A2 A3 A4 A5 A6 A7 A8 A9 A10 A11 A12 A13].
  unfold crash. constructor; cbn [w_obj w_view w_pend w_next w_uids w_now w_tq w_c w_t w_vms w_vers w_log]; auto; try discriminate.
  intros E. destruct (w_view w) as [m|] eqn:EV; [|discriminate]. destruct (mo_dt m) eqn:ED; [|discriminate].
  constructor; [cbn; congruence|]. eapply (A6 [] m (w_pend w)); [reflexivity | congruence].
Qed.

(** Versions are determined by their resource version. *)
Lemma rv_inj w a b : Inv w -> In a (w_vers w) -> In b (w_vers w) -> mo_rv a = mo_rv b -> a = b.
Proof.
  intros V. pose proof (i_nodup w V) as N. revert N. generalize (w_vers w) as l. induction l as [|x l IH]; cbn; [tauto|].
  intros N IA IB E. inversion N as [|? ? N1 N2]; subst.
  destruct IA as [<- | IA], IB as [<- | IB]; auto.
  - exfalso. apply N1. rewrite E. apply in_map. exact IB.
  - exfalso. apply N1. rewrite <- E. apply in_map. exact IA.
Qed.

Lemma accepted_base w merge x b o n :
  Inv w -> accepted w merge x = Some (o, n) -> In b (w_vers w) -> mo_rv x = mo_rv b ->
  o = b /\ w_obj w = Some b /\ n = merge b x.
Proof.
  intros V A B E. unfold accepted in A. destruct (w_obj w) as [o'|] eqn:EO; [|discriminate].
  destruct (_ && _) eqn:EE; [|discriminate]. injection A as -> <-.
  apply andb_true_iff in EE. destruct EE as (E1 & _). apply Nat.eqb_eq in E1.
  assert (o = b). { eapply rv_inj; [exact V | apply (i_obj w V); exact EO | exact B | congruence]. }
  subst. auto.
Qed.

Lemma inv_write w merge x b f w' r :
  Inv w -> In b (w_vers w) -> mo_rv x = mo_rv b ->
  (w_obj w = Some b -> Inv (store w b (merge b x))) ->
  apiWrite w merge x f = (w', r) -> Inv w' /\ w_log w' = w_log w /\ w_t w' = w_t w /\ w_c w' = w_c w /\
    (forall v, In v (w_vers w) -> In v (w_vers w')) /\
    (forall m, r = RObj m -> In m (w_vers w') /\ mo_dt m = mo_dt (merge b x) \/ m = b).
Proof.
  intros V B E S H. unfold apiWrite in H.
  destruct (accepted w merge x) as [[o n]|] eqn:EA.
  - destruct (accepted_base _ _ _ _ _ _ V EA B E) as (-> & EO & ->). specialize (S EO).
    assert (P : forall y, w_log (store w b y) = w_log w /\ w_t (store w b y) = w_t w /\ w_c (store w b y) = w_c w /\
                (forall v, In v (w_vers w) -> In v (w_vers (store w b y)))).
    { intros y. unfold store. destruct (MObj_eq_dec b y); cbn; auto. }
    destruct (P (merge b x)) as (P1 & P2 & P3 & P4).
    destruct f; injection H as <- <-; repeat (split; [solve [assumption | reflexivity | auto]|]); try discriminate.
    intros m EM. injection EM as <-. unfold store. destruct (MObj_eq_dec b (merge b x)); [right; reflexivity|].
    left. cbn. split; [left; reflexivity | reflexivity].
  - destruct f; injection H as <- <-; repeat (split; [solve [assumption | reflexivity | auto]|]); discriminate.
Qed.

Lemma get_put k v l k' : get k' (put k v l) = if String.eqb k' k then Some v else get k' l.
Proof.
  induction l as [|[a b] l IH]; cbn.
  - reflexivity.
  - destruct (String.eqb_spec k a).
    + subst. cbn. destruct (String.eqb k' a); reflexivity.
    + cbn. rewrite IH. destruct (String.eqb_spec k' a), (String.eqb_spec k' k); subst; try congruence; reflexivity.
Qed.

Ltac mo := cbn [mergeMeta mergeStatus withLabels withFins withStatus withDt withRv mo_name mo_uid mo_rv mo_created mo_dt mo_fins mo_labels mo_annots mo_pid mo_status] in *.

Lemma inv_storeT w b x merge f w' r c :
  Inv w -> In b (w_vers w) -> mo_dt b <> None -> callT (w_log w) b c ->
  (c = WMeta x /\ merge = mergeMeta \/ c = WStatus x /\ merge = mergeStatus) ->
  apiWrite w merge x f = (w', r) -> Inv w' /\ w_log w' = w_log w /\ w_t w' = w_t w /\ w_c w' = w_c w /\
    (forall v, In v (w_vers w) -> In v (w_vers w')).
Proof.
  intros V B D C K H.
  assert (E : mo_rv x = mo_rv b).
  { destruct K as [(-> & _) | (-> & _)]; cbn in C.
    - destruct C as [(? & -> & _) | (-> & _)]; reflexivity.
    - destruct C as (? & -> & _); reflexivity. }
  assert (ST : w_obj w = Some b -> Inv (store w b (merge b x))).
  2: { destruct (inv_write _ _ _ _ _ _ _ V B E ST H) as (Q1 & Q2 & Q3 & Q4 & Q5 & _). auto. }
  intros EO. destruct K as [(-> & ->) | (-> & ->)]; cbn in C.
  - destruct C as [(n & -> & S) | (-> & S)]; apply inv_store; mo; auto.
    + apply facts_low. rewrite S. lia.
    + eapply facts_ext; [apply sub_refl | | | apply (i_facts w V b B)]; [|lia]. repeat split.
  - destruct C as (s & -> & F). apply inv_store; mo; auto.
Qed.

Lemma dying_stage w b : Inv w -> In b (w_vers w) -> mo_dt b = None -> stage (mo_status b) = 0%nat.
Proof.
  intros V B D. destruct (stage (mo_status b)) eqn:E; [reflexivity|]. exfalso.
  apply (i_dt w V b B); [lia | exact D].
Qed.

Lemma inv_storeC w bs x merge f w' r c :
  Inv w -> (forall b, In b bs -> In b (w_vers w) /\ mo_dt b = None) -> callC (w_log w) bs c ->
  (c = WMeta x /\ merge = mergeMeta \/ c = WStatus x /\ merge = mergeStatus) ->
  apiWrite w merge x f = (w', r) -> Inv w' /\ w_log w' = w_log w /\ w_t w' = w_t w /\ w_c w' = w_c w /\
    (forall v, In v (w_vers w) -> In v (w_vers w')) /\
    (forall m, r = RObj m -> In m (w_vers w') /\ mo_dt m = None).
Proof.
  intros V B C K H.
  assert (E : exists b, In b bs /\ mo_rv x = mo_rv b /\ (w_obj w = Some b -> Inv (store w b (merge b x))) /\ mo_dt (merge b x) = None).
  { destruct K as [(-> & ->) | (-> & ->)]; cbn in C.
    - destruct C as (b & IB & EU & ER & _). destruct (B b IB) as (B1 & B2). exists b. split; [exact IB|]. split; [exact ER|].
      split; [|exact B2]. intros EO. pose proof (dying_stage w b V B1 B2) as S0.
      apply inv_store; mo; rewrite ?S0; auto; try lia; try (apply facts_low; lia).
    - destruct C as (b & s & IB & -> & P). destruct (B b IB) as (B1 & B2). exists b. split; [exact IB|]. split; [reflexivity|].
      split; [|exact B2]. intros EO. pose proof (dying_stage w b V B1 B2) as S0.
      assert (S1 : stage s = 0%nat).
      { destruct P as [P | (P1 & P2)]; [apply stage_phase; exact P|]. unfold stage in *. rewrite P1, P2. exact S0. }
      apply inv_store; mo; rewrite ?S1; auto; try lia; try (apply facts_low; lia). }
  destruct E as (b & IB & ER & S & DT). destruct (B b IB) as (B1 & B2).
  destruct (inv_write _ _ _ _ _ _ _ V B1 ER S H) as (Q1 & Q2 & Q3 & Q4 & Q5 & Q6).
  repeat (split; [assumption|]). intros m EM. destruct (Q6 m EM) as [(Q7 & Q8) | ->]; [split; [exact Q7 | congruence]|].
  split; [apply Q5; exact B1 | exact B2].
Qed.

Lemma inv_step cf w op : not_created op -> Inv w -> Inv (step cf w op).
Proof.
  intros NC V. destruct op; cbn [step].
  - destruct NC.
  - destruct (w_obj w) as [o|] eqn:EO; [|exact V]. destruct (mo_dt o) eqn:ED; [exact V|].
    apply inv_store; mo; auto; try discriminate.
    pose proof (dying_stage w o V (i_obj w V o EO) ED) as S0. apply facts_low. rewrite S0. lia.
  - destruct (w_obj w) as [o|] eqn:EO; [|exact V]. destruct (String.eqb_spec k "node") as [_|NE]; [exact V|].
    apply inv_store; mo; auto.
    + eapply facts_ext; [apply sub_refl | | | apply (i_facts w V o (i_obj w V o EO))]; [|lia].
      split; [reflexivity|]. split; [|reflexivity]. unfold nodeName, getS. cbn. rewrite get_put.
      destruct (String.eqb_spec "node" k); [congruence | reflexivity].
    + apply (i_dt w V o (i_obj w V o EO)).
  - destruct (w_obj w) as [o|] eqn:EO; [|exact V]. apply inv_store; mo; auto.
    + eapply facts_ext; [apply sub_refl | | | apply (i_facts w V o (i_obj w V o EO))]; [|lia]. repeat split.
    + apply (i_dt w V o (i_obj w V o EO)).
  - destruct (w_obj w) as [o|] eqn:EO; [|exact V]. apply inv_store; mo; auto.
    + eapply facts_ext; [apply sub_refl | | | apply (i_facts w V o (i_obj w V o EO))]; [|lia]. repeat split.
    + apply (i_dt w V o (i_obj w V o EO)).
  - destruct (w_obj w) as [o|] eqn:EO; [|exact V].
    assert (S0 : stage (mo_status (setTerminating (w_now w) o)) = 0%nat) by reflexivity.
    apply inv_store; auto; rewrite ?S0; [apply facts_low; lia | lia].
  - destruct (w_pend w) as [|v r] eqn:EP; [exact V|].
    pose proof V as V'. destruct V as [A1 A2 A3 A4 A5 A6 A7 A8 A9 A10 A11 A12 A13]. rewrite EP in *.
    constructor; cbn [w_obj w_view w_pend w_next w_uids w_now w_tq w_c w_t w_vms w_vers w_log]; auto.
    + intros x I0. apply A4. right. exact I0.
    + rewrite <- A5. symmetry. apply (last_hist (v :: r) (w_view w) [w_view w] v r). reflexivity.
    + intros l1 m l2 E. apply (A6 (w_view w :: l1) m l2). cbn. rewrite E. reflexivity.
    + intros l1 l2 E. apply (A7 (v :: l1) l2). cbn. rewrite E. reflexivity.
    + intros T. destruct v as [m|].
      * destruct (mo_dt m) eqn:ED.
        -- constructor; [cbn; congruence|]. apply (A6 [w_view w] m r); [reflexivity | congruence].
        -- specialize (A8 T). inversion A8; assumption.
      * constructor; [exact I|]. rewrite (A7 [] r eq_refl). constructor.
  - destruct (if t then w_t w else w_c w) eqn:ES; [exact V|].
    destruct (t && negb (w_tq w)) eqn:ET; [exact V|]. unfold start.
    destruct (w_view w) as [m|] eqn:EV.
    + assert (IM : In m (w_vers w)) by (apply (i_hist w V); left; exact EV).
      destruct t; cbn in ET.
      * apply inv_slots; [exact V | | apply (i_c w V)]. intros p E. injection E as <-. exists m. split; [exact IM|].
        assert (D : mo_dt m <> None).
        { apply negb_false_iff in ET. pose proof (i_tq w V ET) as FF. inversion FF as [|? ? F1 F2]; subst. rewrite EV in F1. exact F1. }
        split; [exact D|]. apply okT_termination; [exact D | apply (i_facts w V m IM)].
      * destruct (mo_dt m) eqn:ED; [exact V|]. apply inv_slots; [exact V | apply (i_t w V) |].
        intros p E. injection E as <-. exists [m]. split; [|apply okC_reconcile].
        intros b [<- | []]. auto.
    + destruct t; [|exact V].
      destruct V as [A1 A2 A3 A4 A5 A6 A7 A8 A9 A10 A11 A12 A13]. rewrite EV in *.
      constructor; cbn [w_obj w_view w_pend w_next w_uids w_now w_tq w_c w_t w_vms w_vers w_log]; auto. discriminate.
  - destruct (if t then w_t w else w_c w) as [p|] eqn:ES; [|exact V].
    destruct p as [| |c k].
    + destruct t; apply inv_slots; try exact V; try discriminate; first [apply (i_t w V) | apply (i_c w V)].
    + apply inv_crash. exact V.
    + destruct t.
      * destruct (i_t w V _ ES) as (b & B1 & B2 & B3). cbn [okT] in B3. destruct B3 as (C & K).
        destruct (perform w QT c r f vms) as [w' r'] eqn:EP. unfold perform in EP.
        remember (match c with CNow => (w, RTime (w_now w)) | WMeta m => apiWrite w mergeMeta m f
                  | WStatus m => apiWrite w mergeStatus m f | _ => (w, r) end) as wr eqn:EW.
        destruct wr as [w1 r1]. injection EP as EP1 EP2. subst r1.
        assert (Q : Inv w1 /\ w_log w1 = w_log w /\ w_t w1 = w_t w /\ w_c w1 = w_c w /\
                    (forall v, In v (w_vers w) -> In v (w_vers w1))).
        { destruct c; try (injection EW as -> _; repeat (split; [solve [assumption|reflexivity]|]); auto; fail);
          symmetry in EW; eapply inv_storeT; try eassumption; auto. }
        destruct Q as (Q1 & Q2 & Q3 & Q4 & Q5).
        assert (V1 : Inv w').
        { subst w'. apply inv_log; [exact Q1|]. cbn [logOk]. split; [|apply (i_log w1 Q1)]. rewrite Q2.
          destruct c; auto; cbn [callT] in C; try destruct C as (-> & C); try subst; auto. }
        apply inv_slots; [exact V1 | | apply (i_c w' V1)].
        intros p E. injection E as <-. exists b. subst w'. unfold setLog; cbn [w_vers w_log]. rewrite Q2. auto.
      * destruct (i_c w V _ ES) as (bs & B1 & B2). cbn [okC] in B2. destruct B2 as (C & K).
        destruct (perform w QC c r f vms) as [w' r'] eqn:EP. unfold perform in EP.
        remember (match c with CNow => (w, RTime (w_now w)) | WMeta m => apiWrite w mergeMeta m f
                  | WStatus m => apiWrite w mergeStatus m f | _ => (w, r) end) as wr eqn:EW.
        destruct wr as [w1 r1]. injection EP as EP1 EP2. subst r1.
        assert (Q : Inv w1 /\ w_log w1 = w_log w /\ w_t w1 = w_t w /\ w_c w1 = w_c w /\
                    (forall v, In v (w_vers w) -> In v (w_vers w1)) /\
                    (forall m m', c = WMeta m' -> r' = RObj m -> In m (w_vers w1) /\ mo_dt m = None)).
        { destruct c; try (injection EW as -> _; repeat (split; [solve [assumption|reflexivity|auto]|]); discriminate);
          symmetry in EW.
          - destruct (inv_storeC _ _ _ _ _ _ _ _ V B1 C (or_introl (conj eq_refl eq_refl)) EW) as (Z1 & Z2 & Z3 & Z4 & Z5 & Z6).
            repeat (split; [assumption|]). intros ? ? _ E; apply Z6; exact E.
          - destruct (inv_storeC _ _ _ _ _ _ _ _ V B1 C (or_intror (conj eq_refl eq_refl)) EW) as (Z1 & Z2 & Z3 & Z4 & Z5 & Z6).
            repeat (split; [assumption|]). discriminate. }
        destruct Q as (Q1 & Q2 & Q3 & Q4 & Q5 & Q6).
        assert (V1 : Inv w').
        { subst w'. apply inv_log; [exact Q1|]. cbn [logOk]. split; [|apply (i_log w1 Q1)]. rewrite Q2.
          destruct c; auto. }
        apply inv_slots; [exact V1 | apply (i_t w' V1) |].
        intros p E. injection E as <-. eexists. split; [|subst w'; unfold setLog; cbn [w_vers w_log]; rewrite Q2; apply K].
        subst w'; unfold setLog; cbn [w_vers w_log].
        intros b IB. assert (OLD : In b bs -> In b (w_vers w1) /\ mo_dt b = None).
        { intros I0. destruct (B1 b I0). auto. }
        destruct c; auto. destruct r'; auto. destruct IB as [<- | IB]; auto. eapply Q6; reflexivity.
  - destruct (spared _ _); [exact V|]. apply inv_log; [exact V|]. cbn. split; [exact I | apply (i_log w V)].
  - destruct V as [A1 A2 A3 A4 A5 A6 A7 A8 A9 A10 A11 A12 A13].
    unfold setLog. constructor; cbn [w_obj w_view w_pend w_next w_uids w_now w_tq w_c w_t w_vms w_vers w_log]; auto.
  - destruct V as [A1 A2 A3 A4 A5 A6 A7 A8 A9 A10 A11 A12 A13].
    constructor; cbn [w_obj w_view w_pend w_next w_uids w_now w_tq w_c w_t w_vms w_vers w_log]; auto.
  - apply inv_crash. exact V.
Qed.

Lemma inv_created cf now labels annots fins pid : Inv (step cf (init now) (OCreate labels annots fins pid)).
Proof.
  cbn [step init w_obj w_view w_pend w_next w_uids w_now w_tq w_c w_t w_vms w_vers w_log app].
  constructor; cbn [w_obj w_view w_pend w_next w_uids w_now w_tq w_c w_t w_vms w_vers w_log].
  - constructor; [intros []|constructor].
  - intros v [<- | []]. mo. lia.
  - intros o E. injection E as <-. left; reflexivity.
  - intros v [E | [E | []]]; [discriminate|]. injection E as <-. left; reflexivity.
  - reflexivity.
  - intros l1 m l2 E D. destruct l1 as [|x l1]; [discriminate|]. injection E as _ E.
    destruct l1 as [|y l1]; [|destruct l1; discriminate]. injection E as E <-. constructor.
  - intros l1 l2 E. destruct l1 as [|x l1]; [discriminate|]. destruct l1; discriminate.
  - discriminate.
  - intros v [<- | []]. apply facts_low. cbn. lia.
  - intros v [<- | []]. cbn. lia.
  - discriminate.
  - discriminate.
  - exact I.
Qed.

Lemma inv_run cf ops : forall w, Forall not_created ops -> Inv w -> Inv (run cf w ops).
Proof.
  unfold run. induction ops as [|op ops IH]; intros w F V; [exact V|]. cbn [fold_left].
  inversion F; subst. apply IH; [assumption|]. apply inv_step; assumption.
Qed.

Lemma inv_history cf now labels annots fins pid ops :
  Forall not_created ops -> Inv (run cf (init now) (OCreate labels annots fins pid :: ops)).
Proof. intros F. apply (inv_run cf ops (step cf (init now) (OCreate labels annots fins pid)) F). apply inv_created. Qed.

(** ** Consequences *)

Lemma store_protected w o n : w_obj w = Some o -> In MCM (mo_fins n) -> exists m', protected (store w o n) m'.
Proof.
  intros EO I0. unfold store. destruct (MObj_eq_dec o n) as [->|]; [exists n; split; assumption|].
  exists (withRv (w_next w) n). split; [|exact I0]. cbn [w_obj]. mo.
  destruct (mo_dt n); [|reflexivity]. destruct (mo_fins n); [destruct I0 | reflexivity].
Qed.

Lemma setLog_protected w l vms m : protected (setLog w l vms) m <-> protected w m.
Proof. reflexivity. Qed.
Lemma setSlots_protected w c t m : protected (setSlots w c t) m <-> protected w m.
Proof. reflexivity. Qed.

Lemma write_protected w merge x f w' r m :
  protected w m -> (forall o n, accepted w merge x = Some (o, n) -> In MCM (mo_fins n)) ->
  apiWrite w merge x f = (w', r) -> exists m', protected w' m'.
Proof.
  intros (EO & I0) A H. unfold apiWrite in H.
  assert (NO : exists m', protected w m') by (exists m; split; assumption).
  destruct (accepted w merge x) as [[o n]|] eqn:EA.
  - assert (o = m) as ->. { unfold accepted in EA. rewrite EO in EA. destruct (_ && _); congruence. }
    pose proof (store_protected w m n EO (A _ _ eq_refl)) as SP.
    destruct f; injection H as <- _; assumption.
  - destruct f; injection H as <- _; exact NO.
Qed.

Lemma release_lemma cf w op m :
  Inv w -> not_created op -> protected w m -> (forall m', ~ protected (step cf w op) m') ->
  mo_dt m <> None /\ facts (w_log w) m 6.
Proof.
  intros V NC P N. pose proof P as (EO & I0).
  assert (ST : forall n, In MCM (mo_fins n) -> (forall m', ~ protected (store w m n) m') -> False).
  { intros n I1 N1. destruct (store_protected w m n EO I1) as (m' & P'). exact (N1 _ P'). }
  assert (NO : (forall m', ~ protected w m') -> False) by (intros N1; exact (N1 m P)).
  destruct op; cbn [step] in N.
  - destruct NC.
  - exfalso. rewrite EO in N. destruct (mo_dt m); [exact (NO N)|]. eapply ST; [|exact N]. exact I0.
  - exfalso. rewrite EO in N. destruct (String.eqb k "node"); [exact (NO N)|]. eapply ST; [|exact N]. exact I0.
  - exfalso. rewrite EO in N. eapply ST; [|exact N]. exact I0.
  - exfalso. rewrite EO in N. eapply ST; [|exact N]. right. exact I0.
  - exfalso. rewrite EO in N. eapply ST; [|exact N]. exact I0.
  - exfalso. destruct (w_pend w); [exact (NO N) | apply NO; exact N].
  - exfalso. destruct (if t then w_t w else w_c w); [exact (NO N)|].
    destruct (t && negb (w_tq w)); [exact (NO N)|]. unfold start in N.
    destruct (w_view w) as [v|]; [|destruct t; apply NO; exact N].
    destruct t; [apply NO; exact N|]. destruct (mo_dt v); apply NO; exact N.
  - destruct (if t then w_t w else w_c w) as [p|] eqn:ES; [|exfalso; exact (NO N)].
    destruct p as [| |c k].
    + exfalso. destruct t; apply NO; exact N.
    + exfalso. apply NO; exact N.
    + unfold perform in N.
      remember (match c with CNow => (w, RTime (w_now w)) | WMeta m => apiWrite w mergeMeta m f
                | WStatus m => apiWrite w mergeStatus m f | _ => (w, r) end) as wr eqn:EW.
      destruct wr as [w1 r1].
      assert (N1 : forall m', ~ protected w1 m').
      { intros m' P'. destruct t; apply (N m'); exact P'. }
      assert (KEEP : forall merge x, (w1, r1) = apiWrite w merge x f ->
                (forall o n, accepted w merge x = Some (o, n) -> In MCM (mo_fins n)) -> False).
      { intros merge x E A. destruct (write_protected w merge x f w1 r1 m P A (eq_sym E)) as (m' & P'). exact (N1 _ P'). }
      assert (STAT : forall x, c = WStatus x -> False).
      { intros x ->. apply (KEEP mergeStatus x EW). intros o n A. unfold accepted in A. rewrite EO in A.
        destruct (_ && _); [|discriminate]. injection A as <- <-. exact I0. }
      destruct c; try (exfalso; injection EW as -> _; exact (NO N1)); [|exfalso; eapply STAT; reflexivity].
      destruct t.
      * destruct (i_t w V _ ES) as (b & B1 & B2 & B3). cbn [okT] in B3. destruct B3 as (C & _). cbn [callT] in C.
        destruct C as [(nn & E & S) | (E & S)].
        -- exfalso. apply (KEEP mergeMeta m0 EW). intros o n A.
           destruct (accepted_base _ _ _ _ _ _ V A B1) as (-> & EB & ->); [subst m0; reflexivity|].
           rewrite EO in EB. injection EB as <-. subst m0. exact I0.
        -- destruct (accepted w mergeMeta m0) as [[o n]|] eqn:EA.
           ++ destruct (accepted_base _ _ _ _ _ _ V EA B1) as (-> & EB & _); [subst m0; reflexivity|].
              rewrite EO in EB. injection EB as <-. split; [exact B2|].
              pose proof (i_facts w V m B1) as F. rewrite S in F. exact F.
           ++ exfalso. apply (KEEP mergeMeta m0 EW). intros o n A. rewrite EA in A. discriminate.
      * exfalso. destruct (i_c w V _ ES) as (bs & B1 & B2). cbn [okC] in B2. destruct B2 as (C & _). cbn [callC] in C.
        destruct C as (b & IB & EU & ER & K). destruct (B1 b IB) as (B3 & _).
        apply (KEEP mergeMeta m0 EW). intros o n A.
        destruct (accepted_base _ _ _ _ _ _ V A B3 ER) as (-> & EB & ->).
        rewrite EO in EB. injection EB as <-. apply K. exact I0.
  - exfalso. destruct (spared _ _); apply NO; exact N.
  - exfalso. apply NO; exact N.
  - exfalso. apply NO; exact N.
  - exfalso. apply NO; exact N.
Qed.

Lemma logOk_split l : logOk l -> forall l1 e l2, l = l1 ++ e :: l2 -> logOk (e :: l2).
Proof.
  intros H l1. revert l H. induction l1 as [|x l1 IH]; intros l H e l2 E.
  - rewrite E in H. exact H.
  - destruct l as [|y l]; [discriminate|]. cbn in E. injection E as -> E. eapply IH; [|exact E]. apply H.
Qed.

Lemma last_cond_spec t l c : byType t l = Some c <->
  exists l1 l2, l = l1 ++ c :: l2 /\ nc_type c = t /\ Forall (fun d => nc_type d <> t) l2.
Proof.
  unfold byType. split.
  - induction l as [|x l IH] using rev_ind; cbn [rev find]; [discriminate|].
    rewrite rev_app_distr. cbn [rev app find]. destruct (String.eqb_spec (nc_type x) t).
    + intros E. injection E as <-. exists l, []. split; [reflexivity|]. split; [assumption | constructor].
    + intros E. destruct (IH E) as (l1 & l2 & -> & A & B). exists l1, (l2 ++ [x]). split; [rewrite <- app_assoc; reflexivity|].
      split; [exact A|]. apply Forall_app. split; [exact B|]. constructor; [assumption|constructor].
  - intros (l1 & l2 & -> & A & B). induction l2 as [|x l2 IH] using rev_ind.
    + rewrite rev_app_distr. cbn [rev app find]. destruct (String.eqb_spec (nc_type c) t); [reflexivity | contradiction].
    + apply Forall_app in B. destruct B as (B1 & B2). inversion B2; subst.
      rewrite app_comm_cons, app_assoc, rev_app_distr. cbn [rev app find].
      destruct (String.eqb_spec (nc_type x) (nc_type c)); [contradiction|]. apply IH. exact B1.
Qed.

Lemma long_spec now t g m :
  match lastCond t (ms_conds (mo_status m)) with
  | Some c => negb (String.eqb (nc_status c) g) && (300 <? now - nc_trans c)
  | None => false
  end = true <-> bad_for_long now t g m.
Proof.
  unfold bad_for_long, lastCond. destruct (byType t (ms_conds (mo_status m))) as [c|] eqn:E.
  - pose proof (proj1 (last_cond_spec _ _ _) E) as (l1 & l2 & A & B & C).
    rewrite andb_true_iff, negb_true_iff. split.
    + intros (X & Y). exists l1, c, l2. split; [exact A|]. split; [exact B|]. split; [exact C|].
      split; [intros Z; rewrite Z, String.eqb_refl in X; discriminate | lia].
    + intros (k1 & c' & k2 & A' & B' & C' & X & Y).
      assert (E' : byType t (ms_conds (mo_status m)) = Some c') by (apply last_cond_spec; exists k1, k2; auto).
      rewrite E in E'. injection E' as ->. split; [|lia]. destruct (String.eqb_spec (nc_status c') g); [contradiction | reflexivity].
  - split; [discriminate|]. intros (k1 & c' & k2 & A' & B' & C' & _).
    assert (E' : byType t (ms_conds (mo_status m)) = Some c') by (apply last_cond_spec; exists k1, k2; auto).
    congruence.
Qed.

Lemma force_lemma : forall cf m now, nodeName m <> "" -> mo_dt m <> None ->
  exists force : bool, (force = true <-> may_force (cf_drain cf) now m) /\
    next (drainNode cf m) [] = Some CNow /\
    next (drainNode cf m) [RTime now] = Some (CNodeCond m) /\
    next (drainNode cf m) [RTime now; RUnit] = Some (CDrain m force) /\
    forall e, next (drainNode cf m) [RTime now; RErr e] = if force then Some (CDrain m true) else Some CNow.
Proof.
  intros cf m now N D. destruct (mo_dt m) as [dt|] eqn:ED; [|congruence].
  remember (notReadyLong now m || String.eqb (getS "force-deletion" (mo_labels m)) "True" || (0 <? (now - cf_drain cf) - dt)) as force eqn:EF.
  exists force. split.
  - rewrite EF, !orb_true_iff. unfold notReadyLong. rewrite orb_true_iff, !long_spec. unfold may_force.
    assert (L : String.eqb (getS "force-deletion" (mo_labels m)) "True" = true <-> get "force-deletion" (mo_labels m) = Some "True").
    { unfold getS. destruct (get "force-deletion" (mo_labels m)).
      - rewrite String.eqb_eq. split; [intros ->; reflexivity | intros E; injection E as ->; reflexivity].
      - split; discriminate. }
    rewrite L, ED.
    assert (T : (0 <? now - cf_drain cf - dt) = true <-> exists dt', Some dt = Some dt' /\ now > dt' + cf_drain cf).
    { split; [intros X; exists dt; split; [reflexivity|lia] | intros (dt' & E & X); injection E as <-; lia]. }
    rewrite T. tauto.
  - unfold drainNode. destruct (String.eqb_spec (nodeName m) ""); [contradiction|]. rewrite ED. cbn [next]. rewrite <- EF.
    split; [reflexivity|]. split; [reflexivity|]. split; [reflexivity|].
    intros e. destruct force; reflexivity.
Qed.

Lemma only_requested : forall cf now labels annots fins pid ops,
  Forall not_created ops ->
  let w := run cf (init now) (OCreate labels annots fins pid :: ops) in
  (forall c r m, In (QT, c, r) (w_log w) ->
     (exists f, c = CDrain m f) \/ c = CNodeCond m \/ c = CDelVA m \/ c = CDelete m \/ c = CDeleteNode m -> mo_dt m <> None) /\
  w_t w <> Some Panic.
Proof.
  intros cf now labels annots fins pid ops F w.
  pose proof (inv_history cf now labels annots fins pid ops F) as V. fold w in V. split.
  - intros c r m I0 K. apply in_split in I0. destruct I0 as (l1 & l2 & E).
    destruct (logOk_split _ (i_log _ V) _ _ _ E) as (A & _).
    destruct K as [(f & ->) | [-> | [-> | [-> | ->]]]]; try exact A; apply A.
  - intros E. destruct (i_t w V _ E) as (b & _ & _ & B). exact B.
Qed.
