(** Revisions of MachineSets and rollback.
    Models pkg/controller/deployment_util.go 249-443, 864-901,
    deployment_sync.go 120-135, 235-400 and deployment_rollback.go 40-141. *)
Require Import Coq.ZArith.ZArith Coq.Lists.List Coq.Bool.Bool.
From Verif Require Import Sort.
Import ListNotations.
Open Scope Z_scope.

(** The revision annotation (pkg/controller/deployment_util.go 281-290): absent,
    the empty text, a text strconv.ParseInt rejects, an int64. *)
Inductive Rev := RevMissing | RevEmpty | RevBad | RevInt (z : Z).

(** pkg/controller/deployment_util.go 281-290 Revision; [None] is the error. *)
Definition Revision (r : Rev) : option Z :=
  match r with RevMissing => Some 0 | RevInt z => Some z | _ => None end.

(** int64 wrap-around of the Go addition at pkg/controller/deployment_sync.go 241. *)
Definition wrap64 (z : Z) : Z := (z + 9223372036854775808) mod 18446744073709551616 - 9223372036854775808.

(** MachineSet as far as revisions go
    (pkg/apis/machine/v1alpha1/machineset_types.go). Templates are numbers; equal
    number means equal for pkg/controller/deployment_util.go 840-862. [v_hist]:
    the comma-separated history annotation as a list. *)
Record VSet := mkV { v_uid : nat; v_ctime : Z; v_template : nat; v_rev : Rev; v_hist : list Rev }.

(** pkg/controller/deployment_util.go 249-261 MaxRevision. *)
Fixpoint maxRevisionFrom (m : Z) (l : list VSet) : Z :=
  match l with
  | [] => m
  | s :: r => match Revision (v_rev s) with
              | Some v => maxRevisionFrom (if v >? m then v else m) r
              | None => maxRevisionFrom m r
              end
  end.
(** pkg/controller/deployment_util.go 250: the search starts at zero. *)
Definition MaxRevision (l : list VSet) : Z := maxRevisionFrom 0 l.

(** pkg/controller/deployment_util.go 263-279 LastRevision. *)
Fixpoint lastRevisionFrom (m sec : Z) (l : list VSet) : Z :=
  match l with
  | [] => sec
  | s :: r => match Revision (v_rev s) with
              | None => lastRevisionFrom m sec r
              | Some v =>
                  if v >=? m then lastRevisionFrom v m r
                  else if v >? sec then lastRevisionFrom m v r
                  else lastRevisionFrom m sec r
              end
  end.
(** pkg/controller/deployment_util.go 265: both start at zero. *)
Definition LastRevision (l : list VSet) : Z := lastRevisionFrom 0 0 l.

(** The common body of SetNewMachineSetAnnotations, SetNewMachineSetNodeTemplate
    and SetNewMachineSetConfig (pkg/controller/deployment_util.go 294-436) after
    the copying: [changed] says whether the copy changed anything. Returns
    whether an update is needed and the new annotations. *)
Definition bumpRevision (changed : bool) (newRev : Z) (s : VSet) : bool * VSet :=
  let old := match v_rev s with RevInt z => Some z | RevMissing | RevEmpty => Some 0 | RevBad => None end in
  match old with
  | None => (false, s)
  | Some o =>
      let changed' := changed || (o <? newRev) in
      let rev' := if o <? newRev then RevInt newRev else v_rev s in
      let present := match v_rev s with RevMissing => false | _ => true end in
      let hist' := if present && changed'
                   then match v_hist s with
                        | [] | RevEmpty :: _ => [v_rev s]
                        | h => h ++ [v_rev s]
                        end
                   else v_hist s in
      (changed', mkV (v_uid s) (v_ctime s) (v_template s) rev' hist')
  end.

(** The MachineDeployment and its sets; [vw_next] supplies fresh UIDs;
    [vw_rollback] is spec.rollbackTo.revision
    (pkg/apis/machine/v1alpha1/machinedeployment_types.go 46-124). *)
Record VWorld := mkVW { vw_template : nat; vw_rollback : option Z; vw_sets : list VSet; vw_next : nat }.

(** Creation-timestamp order, pkg/controller/controller_utils.go 807-818; ties by
    UID here instead of name. *)
Definition byTime (a b : VSet) : bool :=
  (v_ctime a <? v_ctime b) || ((v_ctime a =? v_ctime b) && Nat.leb (v_uid a) (v_uid b)).

(** pkg/controller/deployment_util.go 864-877 FindNewMachineSet. *)
Definition FindNewMachineSet (t : nat) (l : list VSet) : option VSet :=
  find (fun s => Nat.eqb (v_template s) t) (isort byTime l).

(** pkg/controller/deployment_util.go 881-896 FindOldMachineSets (second result);
    the list was sorted by FindNewMachineSet. *)
Definition FindOldMachineSets (t : nat) (l : list VSet) : list VSet :=
  match FindNewMachineSet t l with
  | None => isort byTime l
  | Some n => filter (fun s => negb (Nat.eqb (v_uid s) (v_uid n))) (isort byTime l)
  end.

(** What the caller of getNewMachineSet does not decide: which copies change
    something, the clock, and whether the write succeeds.
    Inputs of pkg/controller/deployment_sync.go 235-400. *)
Record SyncIn := mkSync { si_annot : bool; si_node : bool; si_config : bool; si_now : Z; si_ok : bool }.

(** pkg/controller/deployment_sync.go 235-400 getNewMachineSet, restricted to
    revisions: the new set if any, or [None] with an error flag; and the sets
    stored afterwards. Creation copies no history. Not modelled: the hash
    collision path (no set is created there). *)
Definition getNewMachineSet (i : SyncIn) (create : bool) (t next : nat) (l : list VSet)
  : option (option VSet) * list VSet :=
  let newRev := wrap64 (MaxRevision (FindOldMachineSets t l) + 1) in
  match FindNewMachineSet t l with
  | Some e =>
      let '(c1, s1) := bumpRevision (si_annot i) newRev e in
      let '(c2, s2) := bumpRevision (si_node i) newRev s1 in
      let '(c3, s3) := bumpRevision (si_config i) newRev s2 in
      if c1 || c2 || c3 then
        if si_ok i then (Some (Some s3), map (fun s => if Nat.eqb (v_uid s) (v_uid e) then s3 else s) l)
        else (None, l)
      else (Some (Some s3), l)
  | None =>
      if negb create then (Some None, l)
      else if si_ok i then
        let s := snd (bumpRevision true newRev (mkV next (si_now i) t RevMissing [])) in
        (Some (Some s), l ++ [s])
      else (None, l)
  end.

(** pkg/controller/deployment_sync.go 120-135 getAllMachineSetsAndSyncRevision,
    as a change of the world. *)
Definition syncRevision (i : SyncIn) (create : bool) (w : VWorld) : VWorld :=
  mkVW (vw_template w) (vw_rollback w)
       (snd (getNewMachineSet i create (vw_template w) (vw_next w) (vw_sets w))) (S (vw_next w)).

(** pkg/controller/deployment_rollback.go 58-91 and 98-123: the first set with the
    wanted revision. *)
Definition findRevision (r : Z) (l : list VSet) : option VSet :=
  find (fun s => match Revision (v_rev s) with Some v => v =? r | None => false end) l.

(** pkg/controller/deployment_rollback.go 40-93 rollback with rollbackToTemplate
    (98-123) and updateMachineDeploymentAndClearRollbackTo (136-141): the template
    of the MachineDeployment and rollbackTo afterwards. [ok]: the update of the
    MachineDeployment succeeds. Not modelled: taints of nodes, events. *)
Definition rollback (i : SyncIn) (ok : bool) (w : VWorld) : VWorld :=
  match vw_rollback w with
  | None => w
  | Some r0 =>
      let '(n, sets) := getNewMachineSet i true (vw_template w) (vw_next w) (vw_sets w) in
      let w1 := mkVW (vw_template w) (vw_rollback w) sets (S (vw_next w)) in
      match n with
      | None | Some None => w1
      | Some (Some new) =>
          let all := FindOldMachineSets (vw_template w) (vw_sets w) ++ [new] in
          let r := if r0 =? 0 then LastRevision all else r0 in
          let t := if r =? 0 then vw_template w
                   else match findRevision r all with
                        | Some s => v_template s
                        | None => vw_template w
                        end in
          if ok then mkVW t None sets (S (vw_next w)) else w1
      end
  end.

(** What can happen to the MachineDeployment: reconciles, edits, removal of any
    set (history clean-up at pkg/controller/deployment_sync.go 570-604 or by the
    user). *)
Inductive VOp :=
| VSync (i : SyncIn) (create : bool)
| VRollback (i : SyncIn) (ok : bool)
| VTemplate (t : nat)
| VAskRollback (r : Z)
| VDelete (uid : nat).

(** One step; reconciles follow pkg/controller/deployment.go 520-548. *)
Definition vstep (w : VWorld) (o : VOp) : VWorld :=
  match o with
  | VSync i create => syncRevision i create w
  | VRollback i ok => rollback i ok w
  | VTemplate t => mkVW t (vw_rollback w) (vw_sets w) (vw_next w)
  | VAskRollback r => mkVW (vw_template w) (Some r) (vw_sets w) (vw_next w)
  | VDelete u => mkVW (vw_template w) (vw_rollback w) (filter (fun s => negb (Nat.eqb (v_uid s) u)) (vw_sets w)) (vw_next w)
  end.

(** A history of such steps (pkg/controller/deployment.go 414-551, repeated). *)
Definition vrun (w : VWorld) (l : list VOp) : VWorld := fold_left vstep l w.
