(** A MachineDeployment ends where its last change says, however far the cache lags (C111): notions of the statements. *)
Require Import Coq.ZArith.ZArith Coq.Lists.List Coq.Strings.String Coq.Bool.Bool.
From Verif Require Import Types RolloutModel RolloutSpec WholeModel WholeSpec WishModel WishSpec LateModel.
Import ListNotations.
Open Scope Z_scope.

(* The sets a reconcile gets to see. *)
Definition views (v : list TSet) (late : option TSet) : list TSet := match late with Some t => t :: v | None => v end.
(* Every step of a run satisfies [P] where it is taken; [past] are all the versions of sets that were ever stored. *)
Fixpoint lived (P : list TSet -> Dep -> Op -> Prop) (past : list TSet) (w : Dep) (l : list Op) : Prop :=
  match l with [] => True | o :: l => P past w o /\ lived P (p_sets (step w o) ++ past) (step w o) l end.
(* The cache holds at most one version of each set, and one of each template; every one of them was stored once. *)
Definition remembered (past v : list TSet) : Prop :=
  incl v past /\ NoDup (map name v) /\ NoDup (map t_tmpl v).
(* The name that a set of the template gets is not that of a cached set of another template. *)
Definition named (w : Dep) (v : list TSet) (a : Calls) : Prop := forall t, In t v -> name t = a_name a -> of_template w t.
(* What may happen: as in C110, at least one machine is always asked for and no product exceeds int32; the cache
   holds what was stored at some time, every set at another time if need be. *)
Definition modest (past : list TSet) (w : Dep) (o : Op) : Prop :=
  match o with
  | Now o => WishSpec.modest w o
  | Behind v late a => remembered past (views v late) /\ named w v a /\
      forall surge, is_surge (p_surge w) (p_size w) surge -> Forall (fun t => spec t * (p_size w + surge) < 2147483648) v
  end.
(* ... and what that leads to: the cache is in order, and the shares are defined where they are needed. *)
Definition possible (w : Dep) (o : Op) : Prop :=
  match o with
  | Now o => WishSpec.possible w o
  | Behind v late a => (proper (withSets w (views v late)) /\ named w v a) /\
      (p_paused w = true \/ ~ size_known (withSets w v) -> shares_defined (withSets w v))
  end.
(* The user changes nothing. *)
Definition no_edit (o : Op) : Prop := match o with Now o => WishSpec.no_edit o | Behind _ _ _ => True end.
(* At least [k] steps of the run are reconciles on what is stored that satisfy [P]. *)
Fixpoint count (P : Dep -> WishModel.Op -> Prop) (k : nat) (w : Dep) (l : list Op) : Prop :=
  match k, l with
  | O, _ => True
  | S _, [] => False
  | S k', o :: l => (match o with Now o => P w o | _ => False end /\ count P k' (step w o) l) \/ count P k (step w o) l
  end.
(* What is seen tells the present size of the deployment. *)
Definition sees_size (w : Dep) (o : Op) : Prop :=
  match o with
  | Behind v late _ => forall t n, In t (views v late) -> 0 < spec t -> ms_desired (x_set (t_x t)) = AnnInt n -> n = p_size w
  | Now _ => True
  end.
Fixpoint always (P : Dep -> Op -> Prop) (w : Dep) (l : list Op) : Prop :=
  match l with [] => True | o :: l => P w o /\ always P (step w o) l end.
(* The cache has caught up: what it holds was stored no earlier than at the beginning of this run. *)
Definition caught_up (past : list TSet) (w : Dep) (o : Op) : Prop :=
  match o with Behind v late _ => incl (views v late) past | Now _ => True end.
(* The cache never goes back: what it holds was stored no earlier than what an earlier reconcile on it was seen to
   know; [seen] are the versions stored since. *)
Fixpoint forward (seen : list TSet) (w : Dep) (l : list Op) : Prop :=
  match l with
  | [] => True
  | o :: l =>
      match o with Behind v late _ => incl (views v late) seen | Now _ => True end /\
      forward (p_sets (step w o) ++ match o with Now (Do _) => p_sets w | _ => seen end) (step w o) l
  end.
