(** What it means that a machine comes up in time. *)
Require Import Coq.ZArith.ZArith Coq.Lists.List Coq.Strings.String Coq.Bool.Bool.
From Verif Require Import CodesModel MachModel HealthModel LifeModel CreaSpec JoinSpec SoonModel SoonSpec GoneModel GoneSpec ComeModel.
Import ListNotations.
Open Scope string_scope.
Open Scope list_scope.
Open Scope Z_scope.

(** The states of an execution, the first one included. *)
Fixpoint cstates (cf : Cfg) (w : GW) (ops : list GOp) : list GW :=
  w :: match ops with [] => [] | op :: r => cstates cf (cstep cf w op) r end.
Definition crun (cf : Cfg) (w : GW) (ops : list GOp) : GW := fold_left (cstep cf) ops w.

(** A machine as it is created: no node, no phase. *)
Definition newborn (m : MObj) : Prop :=
  mo_dt m = None /\ get "node" (mo_labels m) = None /\ phase m = "" /\ ms_conds (mo_status m) = [].

(** The answers when everything works. [up]: the VM is initialized and its node is there and sound. Before
    that, the provider may call the VM uninitialized, and the node is not there or not yet in order. *)
Definition answers (cf : Cfg) (up : bool) (c : Call) (r : Reply) : Prop :=
  match c with
  | CFrozen => r = RBool false
  | CClass | CSecret _ | CSync _ => r = RUnit
  | CNode _ => exists a, r = RNode a /\ clear a /\ (joined cf a <-> up = true)
  | CGetStatus m =>
      (exists n p l, r = POk n p l /\ n <> "" /\ p <> "") \/
      (up = false /\ exists t n p l, r = PFail t (Some (n, p, l)) /\ n <> "" /\ p <> "" /\ failsWith r cUninitialized) \/
      ((failsWith r cNotFound \/ failsWith r cUnimplemented) /\ (get "node" (mo_labels m) = None \/ recorded m))
  | CCreate _ => exists n p l, r = POk n p l /\ n <> "" /\ p <> ""
  | CStaleNode _ => r = RBool false
  | CInit _ => (exists n p l, r = POk n p l) \/ failsWith r cUnimplemented
  | _ => True
  end.

(** All calls are answered so; VM and node are up from time [since] on. *)
Definition easy (cf : Cfg) (since : Z) (w : GW) (op : GOp) : Prop :=
  match op with
  | GStep r _ => match z_run (g_z w) with Some (RDo c _) => answers cf (since <=? z_now (g_z w)) c r | _ => True end
  | _ => True
  end.
Fixpoint easily (cf : Cfg) (since : Z) (w : GW) (ops : list GOp) : Prop :=
  match ops with
  | [] => True
  | op :: r => easy cf since w op /\ easily cf since (cstep cf w op) r
  end.

(** When the machine is Running at the latest: three writes (finalizer, node and VM, phase Pending) and the
    one that makes it Running, each within a [stage_time]; a machine that waits for its node is looked at
    once a minute instead of every five seconds. *)
Definition up_by (lam delta eps since now : Z) : Z := Z.max now since + 4 * stage_time lam delta eps + 55000.

(** The machine is Running, and all about its VM is recorded. *)
Definition running (w : GW) : Prop :=
  exists m, g_obj w = Some m /\ phase m = "Running" /\ hasFin m = true /\ recorded m /\ nodeName m <> "".
