(** C26, C27: the VMs of one machine name, for all histories with a truthful provider. *)
Require Import Coq.ZArith.ZArith Coq.Lists.List Coq.Strings.String Coq.Bool.Bool.
From Verif Require Import CodesModel MachModel LevModel HealthModel LifeModel LifeSpec LifeProofs VmSpec VmProofs.
Import ListNotations.
Open Scope string_scope.
Open Scope list_scope.
Open Scope Z_scope.

(** C26. In every history (both queues, orphan collection, stale caches, lost writes,
    crashes between any two calls, objects created again under the name, failing creation
    calls that leave a VM behind) there is never more than one VM for the machine name,
    and a VM is created only if there is none. *)
Theorem C26_one_at_a_time : forall cf now ops,
  truthful_run cf (init now) ops ->
  let w := run cf (init now) ops in
  (List.length (w_vms w) <= 1)%nat /\
  (forall m k, w_c w = Some (Do (CCreate m) k) -> w_vms w = []) /\
  (forall m k, w_t w <> Some (Do (CCreate m) k)).
Proof.
  intros cf now ops T w. pose proof (v_run cf ops (init now) (v_init now) T) as [A B C]. fold w in A, B, C.
  split; [exact A|]. split; intros m k E; rewrite E in *.
  - destruct B as (g & (B1 & _) & B2). apply B2, B1.
  - apply C.
Qed.
Print Assumptions C26_one_at_a_time.

(** C26. If VMs do not vanish by themselves, a second VM is created only to replace one
    that was asked to be deleted: successful creations are at most one more than deletion
    calls. Missing from "at most one VM is ever created": see [C26_twice_refuted]. *)
Theorem C26_count_partial : forall cf now ops,
  truthful_run cf (init now) ops -> Forall steady ops ->
  let w := run cf (init now) ops in
  (count created (w_log w) <= 1 + count deleting (w_log w))%nat.
Proof.
  intros cf now ops T S w. pose proof (v_run cf ops (init now) (v_init now) T) as V.
  assert (B : balanced w) by (apply count_run; [apply v_init | exact T | exact S | cbv; auto]).
  unfold balanced in B. pose proof (v_len _ V) as L. fold w in L.
  apply (Nat.le_trans _ _ _ B). apply Nat.add_le_mono_r. exact L.
Qed.
Print Assumptions C26_count_partial.

(** C26. A VM that the provider reports for the machine is adopted: whatever happens
    afterwards no VM is created, and its ID and node name are written unless recorded. *)
Theorem C26_adopts : forall cf m node pid lks,
  (forall rs x, next (triggerCreationFlow cf m) (RUnit :: POk node pid lks :: rs) <> Some (CCreate x)) /\
  (has "node" (mo_labels m) = false \/ has MachinePriority (mo_annots m) = false \/ mo_pid m = "" ->
   exists m', next (triggerCreationFlow cf m) [RUnit; POk node pid lks] = Some (WMeta m') /\
     mo_pid m' = pid /\ get "node" (mo_labels m') = Some node /\ mo_uid m' = mo_uid m).
Proof.
  intros cf m node pid lks. split; [intros; apply adopts|].
  intros H. exists (labelled m node pid). split; [apply (finish_records cf m false node pid H)|].
  split; [reflexivity|]. split; [|reflexivity]. unfold labelled. cbn [mo_labels].
  rewrite get_put. reflexivity.
Qed.
Print Assumptions C26_adopts.

(** C26. Once the node label is visible, no reconcile creates a VM, whatever the provider
    answers. *)
Theorem C26_not_after_label : forall cf m rs x,
  get "node" (mo_labels m) <> None -> next (reconcileMachine cf m) rs <> Some (CCreate x).
Proof.
  intros cf m rs x H. apply okN_next, okN_labelled. unfold has. destruct (get "node" (mo_labels m)); [reflexivity | contradiction].
Qed.
Print Assumptions C26_not_after_label.

(** C27. Orphan collection leaves the VM alone whose provider ID the cached machine
    carries; with a cache that is up to date this is every VM of an existing machine that
    carries its ID.
    Partial: otherwise refuted (C27_stale_cache_refuted, C27_unrecorded_refuted). *)
Theorem C27_spared_partial : forall cf now ops o r vms,
  let w := run cf (init now) ops in
  w_pend w = [] -> w_obj w = Some o -> step cf w (OOrphan (mo_pid o) r vms) = w.
Proof. exact fresh_spared. Qed.
Print Assumptions C27_spared_partial.

(** C27. Exactly when the collection asks for the deletion of a listed VM: unless the
    cached machine of that name carries its ID, or has no phase yet, or its creation is
    being retried. The request carries nothing of the machine but the VM's ID. *)
Theorem C27_deletes_when : forall cf w pid r vms,
  let spare := exists m, w_view w = Some m /\
    (mo_pid m = pid \/ cs_phase (ms_cur (mo_status m)) = "" \/ cs_phase (ms_cur (mo_status m)) = "CrashLoopBackOff") in
  (spare -> step cf w (OOrphan pid r vms) = w) /\
  (~ spare -> exists m, w_log (step cf w (OOrphan pid r vms)) = (QO, CDelete m, r) :: w_log w /\
     mo_pid m = pid /\ mo_labels m = [] /\ mo_annots m = [] /\ mo_fins m = [] /\ mo_dt m = None).
Proof.
  intros cf w pid r vms spare. cbn [step]. unfold spare, spared, phase. destruct (w_view w) as [m|].
  - split.
    + intros (m' & E & H). injection E as <-.
      destruct H as [<-|[->| ->]]; [rewrite String.eqb_refl|rewrite orb_true_r|rewrite orb_true_r]; reflexivity.
    + intro H. destruct (String.eqb (mo_pid m) pid) eqn:E1; [exfalso; apply H; exists m; apply String.eqb_eq in E1; auto|].
      destruct (String.eqb (cs_phase (ms_cur (mo_status m))) "") eqn:E2; [exfalso; apply H; exists m; apply String.eqb_eq in E2; auto|].
      destruct (String.eqb (cs_phase (ms_cur (mo_status m))) "CrashLoopBackOff") eqn:E3; [exfalso; apply H; exists m; apply String.eqb_eq in E3; auto|].
      exists (orphanObj pid). repeat split.
  - split; [intros (m & E & _); discriminate|]. intros _. exists (orphanObj pid). repeat split.
Qed.
Print Assumptions C27_deletes_when.

(** C27. When the machine object is gone (and the cache has seen it), one round of orphan
    collection over the listed VMs with successful deletions leaves none. *)
Theorem C27_collected : forall cf ops w,
  w_view w = None -> Forall collecting ops -> truthful_run cf w ops ->
  (forall p, In p (w_vms w) -> exists r v, In (OOrphan p r v) ops) ->
  w_vms (run cf w ops) = [].
Proof. intros. apply collect_all; assumption. Qed.
Print Assumptions C27_collected.

(** ** Concrete histories *)
Definition cf1 : Cfg := mkCfg 7200 1200 600 "" (mkShow (fun _ => "") (fun _ => "")).
Definition noVm : Reply := PFail (errorText (mkStatus cNotFound "no such VM")) None.
Definition noStatus : Reply := PFail (errorText (mkStatus cUnimplemented "no status")) None.
Definition gone : Reply := POk "" "" "".
Definition s (r : Reply) (vms : list string) : Op := OStep false r Applied vms.
(** Creation up to the call that creates the VM. *)
Definition upToCreate : list Op :=
  [OCreate [] [] [MCM] ""; OAdvance; OStart false; s (RBool false) []; s RUnit []; s RUnit []; s noVm []].

(** A failing creation call that leaves a VM behind; the next reconcile adopts it. *)
Definition adopting : list Op :=
  upToCreate ++ [s (PFail "timeout" None) ["vm-1"]; s RUnit []; s RUnit []; s RUnit []; OAdvance;
  OStart false; s (RBool false) []; s RUnit []; s RUnit []; s (POk "n1" "vm-1" "") []; s RUnit []; s RUnit []; OAdvance].
Ltac truth := repeat match goal with
  | |- truthful_run _ _ (_ :: _) => split
  | |- truthful_run _ _ [] => exact I
  end.
Example C26_case : truthful_run cf1 (init 0) adopting /\
  w_vms (run cf1 (init 0) adopting) = ["vm-1"] /\
  option_map mo_pid (w_obj (run cf1 (init 0) adopting)) = Some "vm-1".
Proof.
  split; [|vm_compute; auto].
  unfold adopting, upToCreate. cbn [app]. truth; try exact I; vm_compute; auto.
  - split; [discriminate|]. split; [reflexivity | discriminate].
  - right. exists "vm-1". reflexivity.
Qed.

(** The VM came up under the name of an existing node: it is deleted, and the next
    reconcile creates another one, so a machine object may see two VMs one after the other. *)
Definition twice : list Op :=
  upToCreate ++ [s (POk "n1" "vm-1" "") ["vm-1"]; s (RBool true) []; s gone []; s RUnit []; s RUnit []; s RUnit []; OAdvance;
  OStart false; s (RBool false) []; s RUnit []; s RUnit []; s noVm []; s (POk "n2" "vm-2" "") ["vm-2"]].
Theorem C26_twice_refuted : exists ops, truthful_run cf1 (init 0) (OCreate [] [] [MCM] "" :: ops) /\
  Forall not_created ops /\ Forall steady ops /\
  count created (w_log (run cf1 (init 0) (OCreate [] [] [MCM] "" :: ops))) = 2%nat.
Proof.
  exists (tl twice). change (OCreate [] [] [MCM] "" :: tl twice) with twice.
  split; [|split; [|split]].
  - unfold twice, upToCreate. cbn [app]. truth; try exact I; vm_compute; auto.
    + split; [discriminate|]. split; [reflexivity | discriminate].
    + split; [exists (fun _ => false); reflexivity|]. intros _. split; [intros [] | reflexivity].
    + split; [discriminate|]. split; [reflexivity | discriminate].
  - repeat constructor.
  - repeat constructor.
  - vm_compute. reflexivity.
Qed.
Print Assumptions C26_twice_refuted.

(** A provider that does not implement the status call: a crash (or a failing call) between
    the creation and the write of the ID leaves a first VM, and a second one is created. *)
Definition twoAtOnce : list Op :=
  [OCreate [] [] [MCM] ""; OAdvance; OStart false; s (RBool false) []; s RUnit []; s RUnit []; s noStatus [];
   s (POk "n1" "vm-1" "") ["vm-1"]; OCrash;
   OStart false; s (RBool false) []; s RUnit []; s RUnit []; s noStatus []; s (POk "n2" "vm-2" "") ["vm-2"; "vm-1"]].
Theorem C26_unimplemented_refuted : exists ops, w_vms (run cf1 (init 0) ops) = ["vm-2"; "vm-1"].
Proof. exists twoAtOnce. vm_compute. reflexivity. Qed.
Print Assumptions C26_unimplemented_refuted.

(** A machine that failed to be created in time and is created after all: as long as the
    cache does not show the ID, orphan collection takes the VM away. *)
Definition lateCreation : list Op :=
  upToCreate ++ [OTick 2000; s (PFail "quota" None) []; s RUnit []; s RUnit []; s RUnit []; OAdvance;
   OStart false; s (RBool false) []; s RUnit []; s RUnit []; s noVm []; s (POk "n1" "vm-1" "") ["vm-1"]].
Theorem C27_stale_cache_refuted : exists ops o, let w := run cf1 (init 0) ops in
  truthful_run cf1 (init 0) ops /\ w_obj w = Some o /\ mo_pid o = "vm-1" /\ w_vms w = ["vm-1"] /\
  w_vms (step cf1 w (OOrphan "vm-1" gone [])) = [].
Proof.
  exists (lateCreation ++ [s (RBool false) []; s RUnit []]). eexists. cbv zeta.
  split; [|split; [vm_compute; reflexivity|]; vm_compute; auto].
  unfold lateCreation, upToCreate. cbn [app]. truth; try exact I; vm_compute; auto.
  all: split; [discriminate|]; split; [reflexivity | discriminate].
Qed.
Print Assumptions C27_stale_cache_refuted.

(** The same without any delay of the cache, between the creation call and the write. *)
Theorem C27_unrecorded_refuted : exists ops, let w := run cf1 (init 0) ops in
  truthful_run cf1 (init 0) ops /\ w_pend w = [] /\ w_view w = w_obj w /\ w_obj w <> None /\ w_vms w = ["vm-1"] /\
  w_vms (step cf1 w (OOrphan "vm-1" gone [])) = [].
Proof.
  exists lateCreation. cbv zeta.
  split; [|split; [vm_compute; reflexivity|]; split; [vm_compute; reflexivity|]; split; [vm_compute; discriminate|]; vm_compute; auto].
  unfold lateCreation, upToCreate. cbn [app]. truth; try exact I; vm_compute; auto.
  all: split; [discriminate|]; split; [reflexivity | discriminate].
Qed.
Print Assumptions C27_unrecorded_refuted.

(** Why the collection is needed: the machine is deleted while its creation call is on the
    way; the object goes away first and the VM stays. *)
Definition t' (r : Reply) : Op := OStep true r Applied [].
Definition tpass (rs : list Reply) : list Op := OStart true :: map t' rs ++ [t' RUnit; OAdvance].
Definition deletedMeanwhile : list Op :=
  upToCreate ++ [ODelete; OAdvance] ++
  tpass [RUnit; RUnit; RUnit] ++ tpass [RUnit; RErr "none"; noVm; RUnit; RUnit] ++ tpass [RUnit; RUnit; RUnit] ++
  tpass [RUnit; noVm; RUnit; RUnit] ++ tpass [RUnit; RUnit; RUnit] ++ tpass [RUnit; RUnit] ++
  [s (POk "n1" "vm-1" "") ["vm-1"]].
Example C27_case : let w := run cf1 (init 0) deletedMeanwhile in
  w_obj w = None /\ w_view w = None /\ w_vms w = ["vm-1"] /\
  w_vms (run cf1 w [OOrphan "vm-1" gone []]) = [].
Proof. vm_compute. auto. Qed.
