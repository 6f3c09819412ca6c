(** Expectations of the MachineSet controller and the overshoot freeze.
    Models pkg/controller/controller_utils.go 159-393, the use of expectations in
    machineset.go 161-308, 333-452, 665-711, and machine_safety.go 36-491.
    Simplifications: counters are unbounded integers; each method call on the
    expectations is one atomic step (the code holds a lock or uses one atomic
    addition, and a counter replaced meanwhile is never read again). *)
Require Import Coq.ZArith.ZArith Coq.Lists.List Coq.Strings.String Coq.Bool.Bool.
From Verif Require Import Types RolloutModel StatusModel.
Import ListNotations.
Open Scope string_scope.
Open Scope list_scope.
Open Scope Z_scope.

(** pkg/controller/controller_utils.go 265-273 ControlleeExpectations; times in
    nanoseconds. *)
Record Exp := mkExp { e_add : Z; e_del : Z; e_time : Z }.

(** The two stores of pkg/controller/controller_utils.go 159-161 and 322-332, by
    controller key: counters, and the machines whose deletion is awaited. *)
Record Exps := mkExps { x_exp : string -> option Exp; x_uids : string -> option (list string) }.

(** pkg/controller/controller_utils.go 73 ExpectationsTimeout: five minutes. *)
Definition ExpectationsTimeout : Z := 300 * second.

(** cache.Store Add and Delete (k8s.io/client-go, external) as used at
    pkg/controller/controller_utils.go 178, 223, 364, 389. *)
Definition put {A} (m : string -> option A) (k : string) (v : option A) : string -> option A :=
  fun k' => if String.eqb k' k then v else m k'.

(** pkg/controller/controller_utils.go 219-223 SetExpectations. *)
Definition SetExpectations (now : Z) (k : string) (add del : Z) (x : Exps) : Exps :=
  mkExps (put (x_exp x) k (Some (mkExp add del now))) (x_uids x).

(** pkg/controller/controller_utils.go 226-228 ExpectCreations (also of the UID
    tracking type, which embeds it). *)
Definition ExpectCreations (now : Z) (k : string) (adds : Z) (x : Exps) : Exps := SetExpectations now k adds 0 x.

(** pkg/controller/controller_utils.go 236-242 LowerExpectations with 276-279 Add. *)
Definition LowerExpectations (k : string) (add del : Z) (x : Exps) : Exps :=
  match x_exp x k with
  | Some e => mkExps (put (x_exp x) k (Some (mkExp (e_add e - add) (e_del e - del) (e_time e)))) (x_uids x)
  | None => x
  end.

(** pkg/controller/controller_utils.go 254-256 CreationObserved. *)
Definition CreationObserved (k : string) (x : Exps) : Exps := LowerExpectations k 1 0 x.

(** sets.NewString with Insert (k8s.io/apimachinery, external) as used at
    pkg/controller/controller_utils.go 359-362. *)
Definition newSet (keys : list string) : list string := nodup string_dec keys.

(** pkg/controller/controller_utils.go 344-360 ExpectDeletions. *)
Definition ExpectDeletions (now : Z) (k : string) (keys : list string) (x : Exps) : Exps :=
  let s := newSet keys in
  SetExpectations now k 0 (Z.of_nat (List.length s)) (mkExps (x_exp x) (put (x_uids x) k (Some s))).

(** pkg/controller/controller_utils.go 363-373 DeletionObserved. *)
Definition DeletionObserved (k m : string) (x : Exps) : Exps :=
  match x_uids x k with
  | Some u =>
      if existsb (String.eqb m) u
      then let x' := LowerExpectations k 0 1 x in
           mkExps (x_exp x') (put (x_uids x') k (Some (filter (fun a => negb (String.eqb m a)) u)))
      else x
  | None => x
  end.

(** pkg/controller/controller_utils.go 377-387 DeleteExpectations. *)
Definition DeleteExpectations (k : string) (x : Exps) : Exps :=
  mkExps (put (x_exp x) k None) (put (x_uids x) k None).

(** pkg/controller/controller_utils.go 286-289 Fulfilled. *)
Definition Fulfilled (e : Exp) : bool := (e_add e <=? 0) && (e_del e <=? 0).

(** pkg/controller/controller_utils.go 215-217 isExpired. *)
Definition isExpired (now : Z) (e : Exp) : bool := ExpectationsTimeout <? now - e_time e.

(** pkg/controller/controller_utils.go 184-210 SatisfiedExpectations. *)
Definition SatisfiedExpectations (now : Z) (k : string) (x : Exps) : bool :=
  match x_exp x k with
  | Some e => if Fulfilled e then true else isExpired now e
  | None => true
  end.

(** The calls made on the expectations: pkg/controller/machineset.go 183, 306, 376,
    420, 440, 476, 684. *)
Inductive XOp :=
| XExpectCreations (now : Z) (k : string) (n : Z)
| XExpectDeletions (now : Z) (k : string) (keys : list string)
| XCreationObserved (k : string)
| XDeletionObserved (k m : string)
| XForget (k : string).

(** One call (pkg/controller/controller_utils.go 159-396). *)
Definition xstep (x : Exps) (o : XOp) : Exps :=
  match o with
  | XExpectCreations now k n => ExpectCreations now k n x
  | XExpectDeletions now k keys => ExpectDeletions now k keys x
  | XCreationObserved k => CreationObserved k x
  | XDeletionObserved k m => DeletionObserved k m x
  | XForget k => DeleteExpectations k x
  end.

(** pkg/controller/controller_utils.go 293-295, 399-401: both stores start empty. *)
Definition xinit : Exps := mkExps (fun _ => None) (fun _ => None).

(** A history of calls, from controller start (pkg/controller/controller_utils.go
    293-295). *)
Definition xrun (l : list XOp) : Exps := fold_left xstep l xinit.

(** Creation rounds of one MachineSet. [g_todo]: creations of the running
    reconcile not attempted yet; [g_pending]: machines created whose add event has
    not reached the controller (pkg/controller/machineset.go 161-186, 376-423). *)
Record GWorld := mkG { g_exp : Exps; g_todo : nat; g_pending : list nat; g_next : nat }.

(** What can happen: a reconcile decides to create [n]; an attempt succeeds or
    fails; the add event of a machine arrives. machineset.go 161-186, 376-423. *)
Inductive GOp :=
| GReconcile (now : Z) (n : nat)
| GCreate (ok : bool)
| GSkip
| GDeliver (m : nat).

(** The key of the MachineSet (pkg/controller/machineset.go 334). *)
Definition gkey : string := "ns/set".

(** One event. [gated]: whether the reconcile first asks SatisfiedExpectations; the
    code has that line commented out (pkg/controller/machineset.go 542), so it runs
    with [gated = false]. A reconcile of the same key starts only when the previous
    one has ended (work queue). Creation and skipping:
    pkg/controller/machineset.go 376, 387-421, event: 183. *)
Definition gstep (gated : bool) (w : GWorld) (o : GOp) : GWorld :=
  match o with
  | GReconcile now n =>
      match g_todo w with
      | O => if gated && negb (SatisfiedExpectations now gkey (g_exp w)) then w
             else mkG (ExpectCreations now gkey (Z.of_nat n) (g_exp w)) n (g_pending w) (g_next w)
      | S _ => w
      end
  | GCreate ok =>
      match g_todo w with
      | O => w
      | S t => if ok then mkG (g_exp w) t (g_next w :: g_pending w) (S (g_next w))
               else mkG (CreationObserved gkey (g_exp w)) t (g_pending w) (g_next w)
      end
  | GSkip =>
      match g_todo w with
      | O => w
      | S t => mkG (CreationObserved gkey (g_exp w)) t (g_pending w) (g_next w)
      end
  | GDeliver m =>
      if existsb (Nat.eqb m) (g_pending w)
      then mkG (CreationObserved gkey (g_exp w)) (g_todo w) (filter (fun a => negb (Nat.eqb m a)) (g_pending w)) (g_next w)
      else w
  end.

(** The controller has just started (pkg/controller/controller_utils.go 293-295). *)
Definition ginit : GWorld := mkG xinit 0 [] 0.

(** A history (pkg/controller/machineset.go 457-587, repeated). *)
Definition grun (gated : bool) (l : list GOp) : GWorld := fold_left (gstep gated) l ginit.
