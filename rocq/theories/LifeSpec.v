(** Specification of creation and deletion of machines, in terms of the log of calls and
    answers and of the stored object. *)
Require Import Coq.ZArith.ZArith Coq.Lists.List Coq.Strings.String Coq.Bool.Bool.
From Verif Require Import CodesModel MachModel LifeModel.
Import ListNotations.
Open Scope string_scope.
Open Scope list_scope.
Open Scope Z_scope.

(** Histories in which no second object is created under the name. *)
Definition not_created (op : Op) : Prop := match op with OCreate _ _ _ _ => False | _ => True end.

(** The machine object with the controller's finalizer is in the API server. *)
Definition protected (w : World) (m : MObj) : Prop := w_obj w = Some m /\ In MCM (mo_fins m).

(** The provider reports that the VM is gone: the call succeeded or ended with NotFound. *)
Definition vm_gone (r : Reply) : Prop :=
  match r with
  | POk _ _ _ => True
  | PFail text _ => s_code (fst (FromError text)) = cNotFound
  | _ => False
  end.

(** The API server of the target cluster reports that the node object is gone. *)
Definition node_gone (r : Reply) : Prop := match r with RUnit | RMissing _ => True | _ => False end.

(** Two versions of the same machine, with the same node and the same VM. *)
Definition same_machine (a b : MObj) : Prop :=
  mo_uid a = mo_uid b /\ nodeName a = nodeName b /\ mo_pid a = mo_pid b.

(** After deletion of the machine was requested, the provider was asked to delete its VM
    and reported it gone. *)
Definition vm_deleted (log : list Event) (m : MObj) : Prop :=
  exists m' r, In (QT, CDelete m', r) log /\ same_machine m' m /\ mo_dt m' <> None /\ vm_gone r.

(** The node object was deleted or not found, or no node was ever known. *)
Definition node_deleted (log : list Event) (m : MObj) : Prop :=
  nodeName m = "" \/
  exists m' r, In (QT, CDeleteNode m', r) log /\ same_machine m' m /\ mo_dt m' <> None /\ node_gone r.

(** A drain that was not forced completed. *)
Definition drain_completed (log : list Event) (m : MObj) : Prop :=
  exists m', In (QT, CDrain m' false, RUnit) log /\ same_machine m' m /\ mo_dt m' <> None.

(** The volume attachments of the node were looked at: the node is gone, has no volumes
    attached, or has no attachment that is not being deleted. *)
Definition volumes_handled (e : Event) (m : MObj) : Prop :=
  match e with
  | (QT, CVolumes m', RMissing _) | (QT, CVolumes m', RBool false) | (QT, CLiveVA m', RBool false) => same_machine m' m
  | _ => False
  end.

(** A forced drain was made, and after it the volume attachments were handled. *)
Definition forced_and_handled (log : list Event) (m : MObj) : Prop :=
  exists newer e older m' r, log = newer ++ e :: older /\ volumes_handled e m /\
    In (QT, CDrain m' true, r) older /\ same_machine m' m /\ mo_dt m' <> None.

(** What has to come before the VM is deleted. *)
Definition ready_to_delete (log : list Event) (m : MObj) : Prop :=
  nodeName m = "" \/ drain_completed log m \/ forced_and_handled log m.

(** Why a drain may be forced: the label, the elapsed drain timeout, or a node that
    reports to be not ready (or to have a read-only file system) for five minutes. *)
Definition bad_for_long (now : Z) (type good : string) (m : MObj) : Prop :=
  exists l1 c l2, ms_conds (mo_status m) = l1 ++ c :: l2 /\ nc_type c = type /\
    Forall (fun d => nc_type d <> type) l2 /\ nc_status c <> good /\ now - nc_trans c > 300.
Definition may_force (drainTimeout now : Z) (m : MObj) : Prop :=
  get "force-deletion" (mo_labels m) = Some "True" \/
  (exists dt, mo_dt m = Some dt /\ now > dt + drainTimeout) \/
  bad_for_long now "Ready" "True" m \/ bad_for_long now "ReadonlyFilesystem" "False" m.

(** The call that a reconcile makes after the given answers to its first calls. *)
Fixpoint next (p : prog) (rs : list Reply) : option Call :=
  match p, rs with
  | Do c _, [] => Some c
  | Do _ k, r :: rs' => next (k r) rs'
  | _, _ => None
  end.
