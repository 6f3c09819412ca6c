(** Vocabulary of the rollout properties, independent of the model's helpers. *)
Require Import Coq.ZArith.ZArith Coq.Lists.List Coq.Strings.String Coq.Bool.Bool.
From Verif Require Import Types.
Import ListNotations.
Open Scope Z_scope.

(** Sum of [f] over a list. *)
Definition sum {A} (f : A -> Z) (l : list A) : Z := fold_right (fun x a => f x + a) 0 l.

(** Number of machines requested by a list of MachineSets. *)
Definition requested (l : list MachineSet) : Z := sum ms_spec l.

(** Number of machines reported available. *)
Definition available (l : list MachineSet) : Z := sum ms_avail l.

(** Available machines of a set that its requested size still keeps: a set that
    shrinks removes its unavailable machines first (property C18). *)
Definition kept (s : MachineSet) : Z := Z.min (ms_avail s) (ms_spec s).

(** A configured budget is a non-negative number or percentage. *)
Definition good_budget (v : option IntOrString) : Prop :=
  match v with
  | Some (IOSInt z) => 0 <= z
  | Some (IOSPercent p) => 0 <= p
  | _ => False
  end.

(** The surge a budget means for [n] replicas: the number itself, or the
    smallest integer not below [p] percent of [n]. *)
Definition is_surge (v : option IntOrString) (n x : Z) : Prop :=
  match v with
  | Some (IOSInt z) => x = z
  | Some (IOSPercent p) => p * n <= 100 * x /\ 100 * (x - 1) < p * n
  | _ => False
  end.

(** The unavailability a budget means for [n] replicas before the correction of
    the all-zero case: the number, or the largest integer not above the
    percentage. *)
Definition is_unavail (v : option IntOrString) (n x : Z) : Prop :=
  match v with
  | Some (IOSInt z) => x = z
  | Some (IOSPercent p) => 100 * x <= p * n /\ p * n < 100 * (x + 1)
  | _ => False
  end.

(** The resolved pair (surge, unavailable) of a rolling update of [n] replicas:
    rounded as above, but one machine may be unavailable if both are zero; never
    more than all [n]. *)
Definition is_budget (s u : option IntOrString) (n surge unavail : Z) : Prop :=
  exists x, is_surge s n surge /\ is_unavail u n x /\
    unavail = Z.min n (if (surge =? 0) && (x =? 0) then 1 else x).

(** The configuration says how large the new set may become. *)
Definition sizable (d : MachineDeployment) : Prop :=
  match md_strategy d with
  | Recreate => True
  | RollingUpdate s _ => exists x, is_surge s (md_replicas d) x
  | _ => False
  end.

(** Two lists hold the same MachineSets in any order, up to the requested size
    and the replica annotations. *)
Definition same_set (a b : MachineSet) : Prop :=
  ms_name a = ms_name b /\ ms_ctime a = ms_ctime b /\ ms_status a = ms_status b /\
  ms_avail a = ms_avail b /\ ms_ready a = ms_ready b /\ ms_deleting a = ms_deleting b.

(** One budget is configured at most as large as another of the same kind. *)
Definition budget_le (v w : option IntOrString) : Prop :=
  match v, w with
  | Some (IOSInt a), Some (IOSInt b) => a <= b
  | Some (IOSPercent a), Some (IOSPercent b) => a <= b
  | _, _ => False
  end.
