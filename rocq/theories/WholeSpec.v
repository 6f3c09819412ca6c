(** A rolling update as a whole (C100): notions of the statements. *)
Require Import Coq.ZArith.ZArith Coq.Lists.List Coq.Strings.String Coq.Bool.Bool.
From Verif Require Import Types RolloutModel RolloutSpec WholeModel.
Import ListNotations.
Open Scope Z_scope.

(* The machines requested of a set; those that exist; those available; those available that the
   requested size keeps. *)
Definition x_spec (x : XSet) : Z := ms_spec (x_set x).
Definition x_kept (x : XSet) : Z := Z.min (x_up x) (x_spec x).
Definition sets (w : World) : list XSet := w_new w :: w_olds w.
Definition all_requested (w : World) : Z := sum x_spec (sets w).
Definition machines (w : World) : Z := sum x_have (sets w).
Definition all_up (w : World) : Z := sum x_up (sets w).
Definition all_kept (w : World) : Z := sum x_kept (sets w).
Definition x_names (w : World) : list string := map ms_name (stored w).

(* Sensible numbers. *)
Definition sane_ms (s : MachineSet) : Prop := 0 <= ms_spec s /\ 0 <= ms_status s /\ 0 <= ms_avail s.
Definition sane_set (x : XSet) : Prop := sane_ms (x_set x) /\ 0 <= x_up x <= x_have x.
Definition sane (w : World) : Prop := NoDup (x_names w) /\ Forall sane_set (sets w).
(* What may happen: the cache holds at most one object of each name, with sensible numbers, and the
   new set is known as such; statuses hold no negative numbers. *)
Definition possible (w : World) (o : Op) : Prop :=
  match o with
  | Reconcile _ vn vo => NoDup (map ms_name (vn :: vo)) /\ Forall sane_ms (vn :: vo) /\ ms_name vn = ms_name (x_set (w_new w))
  | Report _ r a => 0 <= r /\ 0 <= a
  | _ => True
  end.
(* Every step of a run satisfies [P] where it is taken. *)
Fixpoint always (d : MachineDeployment) (P : World -> Op -> Prop) (w : World) (l : list Op) : Prop :=
  match l with
  | [] => True
  | o :: l => P w o /\ always d P (step d w o) l
  end.

(* The reconcile works on what is stored. *)
Definition uptodate (w : World) (vn : MachineSet) (vo : list MachineSet) : Prop :=
  vn = x_set (w_new w) /\ vo = map x_set (w_olds w).
(* The statuses tell the truth of this moment. *)
Definition truthful (w : World) : Prop := Forall (fun x => ms_status (x_set x) = x_have x /\ ms_avail (x_set x) = x_up x) (sets w).

(* A reconcile that sees the truth, when no set lacks machines it was asked for. *)
Definition sees_machines (w : World) (o : Op) : Prop :=
  match o with
  | Reconcile _ vn vo => uptodate w vn vo /\ truthful w /\ Forall (fun x => x_spec x <= x_have x) (sets w)
  | _ => True
  end.
(* A reconcile that sees the truth, when no set has available machines it was asked to give up. *)
Definition sees_available (w : World) (o : Op) : Prop :=
  match o with
  | Reconcile _ vn vo => uptodate w vn vo /\ truthful w /\ Forall (fun x => x_up x <= x_spec x) (sets w)
  | _ => True
  end.

(* A reconcile that can make progress: on what is stored, with all calls succeeding, the new set
   complete and available, the old ones complete - however many of the old machines are broken. *)
Definition helpful (w : World) (o : Op) : Prop :=
  match o with
  | Reconcile api vn vo => uptodate w vn vo /\ api_new api = true /\ (forall s, api_clean api s = true) /\ (forall s, api_down api s = true) /\
      (ms_status vn = ms_spec vn /\ ms_avail vn = ms_spec vn) /\ Forall (fun s => ms_status s = ms_spec s /\ ms_avail s <= ms_spec s) vo
  | _ => False
  end.
(* At least [k] steps of the run are helpful. *)
Fixpoint helped (d : MachineDeployment) (k : nat) (w : World) (l : list Op) : Prop :=
  match k, l with
  | O, _ => True
  | S _, [] => False
  | S k', o :: l => (helpful w o /\ helped d k' (step d w o) l) \/ helped d k (step d w o) l
  end.
(* How far the rollout is from its end, and its end. *)
Definition distance (d : MachineDeployment) (w : World) : Z := Z.abs (md_replicas d - x_spec (w_new w)) + sum x_spec (w_olds w).
Definition finished (d : MachineDeployment) (w : World) : Prop := x_spec (w_new w) = md_replicas d /\ Forall (fun x => x_spec x = 0) (w_olds w).

(* What happens in the ordinary course: the controllers do their work, machines of the new set become available,
   statuses are true when written, reconciles see what is stored and their calls succeed. No old machine
   becomes available, none fails. *)
Definition ordinary (w : World) (o : Op) : Prop :=
  match o with
  | Reconcile api vn vo => uptodate w vn vo /\ api_new api = true /\ (forall s, api_clean api s = true) /\ (forall s, api_down api s = true)
  | Report n r a => exists x, In x (sets w) /\ ms_name (x_set x) = n /\ r = x_have x /\ a = x_up x
  | Work _ _ => True
  | Ready n => n = ms_name (x_set (w_new w))
  | Lost _ | Gone _ => False
  end.
