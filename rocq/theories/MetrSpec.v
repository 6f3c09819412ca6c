(** Metrics (C99): notions of the statements. *)
Require Import Coq.ZArith.ZArith Coq.Lists.List Coq.Strings.String Coq.Bool.Bool.
From Verif Require Import MetrModel.
Import ListNotations.
Open Scope string_scope.
Open Scope list_scope.
Open Scope Z_scope.

(* What a gauge shows for an object. *)
Definition of (m : Meta) : list string := [o_name m; o_ns m].
Definition shows (r : Reg) (g : string) (labels : list string) (v : Z) : Prop := r (g, labels) = Some v.

(* No two objects of a list have the same name and namespace; no two conditions the same type. *)
Definition apart {A} (meta : A -> Meta) (l : list A) : Prop := NoDup (map (fun x => of (meta x)) l).
Definition conds_apart (l : list (string * string)) : Prop := NoDup (map fst l).

(* The number for the status of a condition. *)
Inductive statusNumber : string -> Z -> Prop :=
| n_true : statusNumber "True" 1
| n_false : statusNumber "False" 0
| n_unknown : statusNumber "Unknown" 2.
(* The number for a phase. *)
Inductive phaseNumber : string -> Z -> Prop :=
| n_terminating : phaseNumber "Terminating" (-4)
| n_failed : phaseNumber "Failed" (-3)
| n_crash : phaseNumber "CrashLoopBackOff" (-2)
| n_unknown' : phaseNumber "Unknown" (-1)
| n_pending : phaseNumber "Pending" 0
| n_running : phaseNumber "Running" 1.

Definition failedLabels (m : Meta) (f : FailedM) : list string := of m ++ [f_name f; f_pid f; f_owner f; f_state f; f_type f].

(* A deployment on which the collection of metrics stumbles. *)
Definition incomplete (d : DepO) : Prop :=
  d_type d = "RollingUpdate" /\ forall s u, d_rolling d <> Some (Some s, Some u).

(* How many deletions count as the removal of a stale machine. *)
Fixpoint removed (l : list COp) : Z :=
  match l with
  | [] => 0
  | Deleted true "Failed" "HealthCheck" :: l => 1 + removed l
  | _ :: l => removed l
  end.
