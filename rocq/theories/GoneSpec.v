(** What it means that a deletion takes its time, and no more. *)
Require Import Coq.ZArith.ZArith Coq.Lists.List Coq.Strings.String Coq.Bool.Bool.
From Verif Require Import CodesModel MachModel HealthModel LifeModel LifeSpec LiveSpec SoonModel SoonSpec GoneModel.
Import ListNotations.
Open Scope string_scope.
Open Scope list_scope.
Open Scope Z_scope.

(** The states of an execution, the first one included. *)
Fixpoint gstates (cf : Cfg) (w : GW) (ops : list GOp) : list GW :=
  w :: match ops with [] => [] | op :: r => gstates cf (gstep cf w op) r end.
Definition grun (cf : Cfg) (w : GW) (ops : list GOp) : GW := fold_left (gstep cf) ops w.

(** Workers are prompt, and the cache shows what is stored within [lam] milliseconds. *)
Definition timely (lam delta eps : Z) (w : GW) : Prop :=
  prompt delta eps (g_z w) /\ (g_chg w + lam < z_now (g_z w) -> z_view (g_z w) = g_obj w).

(** Calls succeed, and from time [since] on the node's volumes are not attached any more.
    [vm]: the provider is asked for a VM that exists, and deletes it. *)
Definition smooth (vm : bool) (since : Z) (w : GW) (op : GOp) : Prop :=
  match op with
  | GStep r _ =>
      match z_run (g_z w) with
      | Some (RDo c _) =>
          success c r /\
          match c with
          | CDelete _ => vm = true -> exists n p l, r = POk n p l
          | CLiveVA _ => since <= z_now (g_z w) -> r = RBool false
          | _ => True
          end
      | _ => True
      end
  | _ => True
  end.
Fixpoint smoothly (vm : bool) (since : Z) (cf : Cfg) (w : GW) (ops : list GOp) : Prop :=
  match ops with
  | [] => True
  | op :: r => smooth vm since w op /\ smoothly vm since cf (gstep cf w op) r
  end.

(** The machine object is still there with the finalizer of the controller. *)
Definition held (w : GW) : Prop := exists m, g_obj w = Some m /\ In MCM (mo_fins m).

(** How long one stage takes at most: the cache shows the last one, a reconcile that began
    before ends and is repeated after five seconds. *)
Definition stage_time (lam delta eps : Z) : Z := lam + delta + 2 * eps + 5000.
