(** Ownership and deletion of parents: which machines belong to a MachineSet, which
    MachineSets to a MachineDeployment, and when the parent's finalizer goes.
    Models pkg/controller/controller_ref_manager.go, machineset.go 457-604 and
    744-793, deployment.go 346-374, 414-507, 553-613, controller_utils.go 426-429
    and 601-605. The code for machines and for MachineSets is the same up to types;
    the model has one copy. *)
Require Import Coq.Lists.List Coq.Strings.String Coq.Bool.Bool Coq.Arith.PeanoNat.
From Verif Require Import StatusModel.
Import ListNotations.
Open Scope string_scope.
Open Scope list_scope.

(** metav1.OwnerReference: uid and the controller flag. *)
Record Owner := mkOwner { ow_uid : nat; ow_ctrl : bool }.

(** A child object (machine or MachineSet): name, uid, owner references, labels,
    whether the deletion timestamp is set.
    Read at pkg/controller/controller_ref_manager.go 75-131. *)
Record Obj := mkObj { o_name : nat; o_uid : nat; o_owners : list Owner; o_labels : list (string * string); o_deleting : bool }.

(** metav1.GetControllerOf (k8s.io/apimachinery, external): the first owner
    reference flagged as controller. *)
Definition GetControllerOf (o : Obj) : option nat := option_map ow_uid (find ow_ctrl (o_owners o)).

(** Answer of the uncached read of the parent. pkg/controller/controller_ref_manager.go 400-411. *)
Inductive Live := LFail | LFound (uid : nat) (deleting : bool).

(** pkg/controller/controller_ref_manager.go 52-59 CanAdopt with 398-411
    RecheckDeletionTimestamp and the uid check at machineset.go 592-601 or
    deployment.go 361-370. The read happens at most once per pass; its answer is
    the same for all objects of the pass. *)
Definition CanAdopt (me : nat) (l : Live) : bool :=
  match l with LFail => false | LFound u d => Nat.eqb u me && negb d end.

(** What the API server answers to a patch, and what can go wrong: the request is
    lost, or it is executed and the answer is lost.
    External; used at pkg/controller/controller_ref_manager.go 226-269 and 356-394. *)
Inductive PRes := PDone | PNotFound | PInvalid | PError.
(** External; used at pkg/controller/controller_ref_manager.go 226-269 and 356-394. *)
Inductive Fault := FNone | FBefore | FAfter.

(** PatchMachine / PatchMachineSet, pkg/controller/controller_utils.go 426-429 and
    601-605: a JSON merge patch (types.MergePatchType). By RFC 7386 an array in a
    merge patch replaces the stored array, so the owner references become those of
    the patch. The patch names the uid; another uid is refused (as the comment at
    controller_ref_manager.go 257-260 says). No resource version is sent. External:
    the API server. *)
Definition patchOwners (f : Fault) (store : list Obj) (name uid : nat) (owners : list Owner) : PRes * list Obj :=
  match f with
  | FBefore => (PError, store)
  | _ =>
      match find (fun s => Nat.eqb (o_name s) name) store with
      | None => (PNotFound, store)
      | Some s =>
          if Nat.eqb (o_uid s) uid then
            (match f with FAfter => PError | _ => PDone end,
             map (fun s => if Nat.eqb (o_name s) name then mkObj (o_name s) (o_uid s) owners (o_labels s) (o_deleting s) else s) store)
          else (PInvalid, store)
      end
  end.

(** pkg/controller/controller_ref_manager.go 226-239 AdoptMachine (325-336 for
    MachineSets). A failed check is an error that is not NotFound. *)
Definition Adopt (me : nat) (l : Live) (f : Fault) (store : list Obj) (o : Obj) : PRes * list Obj :=
  if CanAdopt me l then patchOwners f store (o_name o) (o_uid o) [mkOwner me true] else (PError, store).

(** pkg/controller/controller_ref_manager.go 243-269 ReleaseMachine (340-365 for
    MachineSets). The patch carries the same reference with an additional member
    "$patch": "delete". That is a directive of strategic merge patches only; in a
    JSON merge patch it is an unknown member of the reference, which the API server
    drops. NotFound and Invalid are ignored. *)
Definition Release (me : nat) (f : Fault) (store : list Obj) (o : Obj) : PRes * list Obj :=
  let '(r, store') := patchOwners f store (o_name o) (o_uid o) [mkOwner me true] in
  (match r with PNotFound => PDone | PInvalid => PDone | _ => r end, store').

(** pkg/controller/controller_ref_manager.go 76-131 ClaimObject: claimed, error,
    store. [o] is the object in the controller's cache, [store] the API server. *)
Definition ClaimObject (me : nat) (deleting : bool) (l : Live) (f : Fault) (sel : list (string * string)) (store : list Obj) (o : Obj)
  : bool * bool * list Obj :=
  match GetControllerOf o with
  | Some u =>
      if negb (Nat.eqb u me) then (false, false, store)
      else if selectorMatches sel (o_labels o) then (true, false, store)
      else if deleting then (false, false, store)
      else match Release me f store o with
           | (PDone, s) => (false, false, s)
           | (PNotFound, s) => (false, false, s)
           | (_, s) => (false, true, s)
           end
  | None =>
      if deleting || negb (selectorMatches sel (o_labels o)) then (false, false, store)
      else if o_deleting o then (false, false, store)
      else match Adopt me l f store o with
           | (PDone, s) => (true, false, s)
           | (PNotFound, s) => (false, false, s)
           | (_, s) => (false, true, s)
           end
  end.

(** pkg/controller/controller_ref_manager.go 185-222 ClaimMachines and 325-352
    ClaimMachineSets, over the whole cache. [faults]: by object name. *)
Fixpoint Claim (me : nat) (deleting : bool) (l : Live) (faults : nat -> Fault) (sel : list (string * string)) (store : list Obj) (cache : list Obj)
  : list Obj * bool * list Obj :=
  match cache with
  | [] => ([], false, store)
  | o :: r =>
      let '(ok, err, store1) := ClaimObject me deleting l (faults (o_name o)) sel store o in
      let '(claimed, errs, store2) := Claim me deleting l faults sel store1 r in
      ((if ok then o :: claimed else claimed), err || errs, store2)
  end.

(** A parent: uid, deletion timestamp, finalizers, selector.
    machineset_types.go 26-40, machinedeployment_types.go 30-50. *)
Record Parent := mkParent { p_uid : nat; p_deleting : bool; p_finalizers : list string; p_sel : list (string * string) }.

(** pkg/controller/controller.go: DeleteFinalizerName. Lines 37-38. *)
Definition DeleteFinalizerName := "machine.sapcloud.io/machine-controller-manager".

(** sets.NewString(l...) with Has, Insert, Delete (k8s.io/apimachinery, external).
    The order of List() is not modelled. *)
Definition has (x : string) (l : list string) : bool := existsb (String.eqb x) l.
(** Used at pkg/controller/machineset.go 744-766. *)
Definition del (x : string) (l : list string) : list string := filter (fun y => negb (String.eqb x y)) l.

(** pkg/controller/machineset.go 744-766 and deployment.go 580-596: the finalizers
    to be written, computed from the object as read before; [None]: no write. *)
Definition addFinalizer (read : list string) : option (list string) :=
  if has DeleteFinalizerName read then None else Some (DeleteFinalizerName :: read).
(** pkg/controller/machineset.go 756-766 and deployment.go 589-596. *)
Definition removeFinalizer (read : list string) : option (list string) :=
  if has DeleteFinalizerName read then Some (del DeleteFinalizerName read) else None.

(** pkg/controller/machineset.go 769-793 updateMachineSetFinalizers and deployment.go
    598-613: a fresh read, whose finalizers are replaced by the computed ones. [ok]:
    one of the attempts succeeds. *)
Definition updateFinalizers (stored : list string) (w : option (list string)) (ok : bool) : list string * bool :=
  match w with None => (stored, true) | Some l => if ok then (l, true) else (stored, false) end.

(** What happens around a reconcile: answer of the uncached read, faults of patches,
    whether the finalizer update succeeds, which delete calls succeed.
    Answers to the calls of pkg/controller/machineset.go 457-604. *)
Record Env := mkEnv { e_live : Live; e_fault : nat -> Fault; e_final : bool; e_delete : nat -> bool }.

(** Delete calls on children: deployment.go 553-573 terminateMachineSets and
    machineset.go 665-737 terminateMachines; children already marked are skipped. *)
Definition terminateAll (e : Env) (targets : list Obj) (store : list Obj) : list Obj :=
  map (fun s => if existsb (fun t => Nat.eqb (o_name t) (o_name s) && negb (o_deleting t)) targets && e_delete e (o_name s)
                then mkObj (o_name s) (o_uid s) (o_owners s) (o_labels s) true else s) store.

(** A new child made by the reconcile. pkg/controller/machineset.go 376-423. *)
Definition adoptive (me : nat) (tmpl : list (string * string)) (name : nat) : Obj := mkObj name name [mkOwner me true] tmpl false.

(** reconcileClusterMachineSet, pkg/controller/machineset.go 457-587, as far as
    ownership goes. [p]: the parent as read, [q]: its stored finalizers when they
    are written; [valid]: validation passed; [news]: names of the machines created
    by manageReplicas. Result: finalizers, children. Not modelled: template syncs
    (525-537) and the status update. *)
Definition reconcileSet (e : Env) (valid : bool) (p : Parent) (q : list string) (store cache : list Obj) (tmpl : list (string * string)) (news : list nat)
  : list string * list Obj :=
  if negb valid then (q, store)
  else
    let '(q1, ok) := if p_deleting p then (q, true) else updateFinalizers q (addFinalizer (p_finalizers p)) (e_final e) in
    if negb ok then (q1, store)
    else
      let '(claimed, err, store1) := Claim (p_uid p) (p_deleting p) (e_live e) (e_fault e) (p_sel p) store cache in
      if err then (q1, store1)
      else if negb (p_deleting p) then (q1, store1 ++ map (adoptive (p_uid p) tmpl) news)
      else match claimed with
           | [] => (fst (updateFinalizers q1 (removeFinalizer (p_finalizers p)) (e_final e)), store1)
           | _ => if has DeleteFinalizerName (p_finalizers p) then (q1, terminateAll e claimed store1) else (q1, store1)
           end.

(** reconcileClusterMachineDeployment, pkg/controller/deployment.go 414-507. An
    error while adding the finalizer is ignored (462-465, 601-603); an empty selector
    ends the reconcile (467-478). *)
Definition reconcileDeployment (e : Env) (valid : bool) (p : Parent) (q : list string) (store cache : list Obj) (tmpl : list (string * string)) (news : list nat)
  : list string * list Obj :=
  if negb valid then (q, store)
  else
    let q1 := if p_deleting p then q else fst (updateFinalizers q (addFinalizer (p_finalizers p)) (e_final e)) in
    match p_sel p with
    | [] => (q1, store)
    | _ =>
        let '(claimed, err, store1) := Claim (p_uid p) (p_deleting p) (e_live e) (e_fault e) (p_sel p) store cache in
        if err then (q1, store1)
        else if negb (p_deleting p) then (q1, store1 ++ map (adoptive (p_uid p) tmpl) news)
        else if negb (has DeleteFinalizerName (p_finalizers p)) then (q1, store1)
        else match claimed with
             | [] => (fst (updateFinalizers q1 (removeFinalizer (p_finalizers p)) (e_final e)), store1)
             | _ => (q1, terminateAll e claimed store1)
             end
    end.

(** A MachineSet and all machines. The parent object is gone once it is being
    deleted and has no finalizer left. Around pkg/controller/machineset.go 457-604. *)
Record World := mkWorld { w_parent : option Parent; w_store : list Obj }.

(** External: the API server; finalizers of pkg/controller/machineset.go 744-793. *)
Definition settleParent (p : Parent) : option Parent :=
  match p_deleting p, p_finalizers p with true, [] => None | _, _ => Some p end.

(** Around pkg/controller/machineset.go 457-604; lines there for the first case. *)
Inductive Op :=
| OReconcile (e : Env) (valid : bool) (cache : list Obj) (news : list nat)   (* with this cache *)
| ODelete                                     (* the parent is asked to be deleted *)
| OFinalizers (l : list string)               (* others add finalizers *)
| OUnfinalize (x : string)                    (* others remove one *)
| OForeign (o : Obj)                          (* a child that is not ours appears *)
| OMark (name : nat)                          (* a child is asked to be deleted *)
| OGone (name : nat).                         (* a child vanishes *)

(** Steps of one MachineSet with labels [tmpl] for new machines.
    pkg/controller/machineset.go 457-604 and its surroundings. *)
Definition step (tmpl : list (string * string)) (w : World) (o : Op) : World :=
  match o with
  | OReconcile e valid cache news =>
      match w_parent w with
      | None => w
      | Some p =>
          let '(q, s) := reconcileSet e valid p (p_finalizers p) (w_store w) cache tmpl news in
          mkWorld (settleParent (mkParent (p_uid p) (p_deleting p) q (p_sel p))) s
      end
  | ODelete =>
      match w_parent w with
      | None => w
      | Some p => mkWorld (settleParent (mkParent (p_uid p) true (p_finalizers p) (p_sel p))) (w_store w)
      end
  | OFinalizers l =>
      match w_parent w with
      | None => w
      | Some p => mkWorld (Some (mkParent (p_uid p) (p_deleting p) (l ++ p_finalizers p) (p_sel p))) (w_store w)
      end
  | OUnfinalize x =>
      match w_parent w with
      | None => w
      | Some p => mkWorld (settleParent (mkParent (p_uid p) (p_deleting p) (del x (p_finalizers p)) (p_sel p))) (w_store w)
      end
  | OForeign c => mkWorld (w_parent w) (w_store w ++ [c])
  | OMark n => mkWorld (w_parent w) (map (fun s => if Nat.eqb (o_name s) n then mkObj (o_name s) (o_uid s) (o_owners s) (o_labels s) true else s) (w_store w))
  | OGone n => mkWorld (w_parent w) (filter (fun s => negb (Nat.eqb (o_name s) n)) (w_store w))
  end.

(** The selector check of validation, pkg/apis/machine/validation/machineset.go 34-39
    and machinedeployment.go 90-95: a missing label reads as "". *)
Definition validSelector (sel tmpl : list (string * string)) : bool :=
  forallb (fun '(k, v) => String.eqb (match lookup k tmpl with Some x => x | None => "" end) v) sel.
