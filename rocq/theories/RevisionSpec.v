(** Vocabulary of the revision and rollback properties. *)
Require Import Coq.ZArith.ZArith Coq.Lists.List Coq.Bool.Bool.
From Verif Require Import RevisionModel.
Import ListNotations.
Open Scope Z_scope.

(** The set carries revision number [r]. *)
Definition has_rev (s : VSet) (r : Z) : Prop := v_rev s = RevInt r.

(** A MachineDeployment without MachineSets. *)
Definition vfresh (w : VWorld) : Prop := vw_sets w = [].

(** [n] is the MachineSet of the current template: the oldest with it. *)
Definition current (w : VWorld) (n : VSet) : Prop :=
  In n (vw_sets w) /\ v_template n = vw_template w /\
  forall s, In s (vw_sets w) -> v_template s = vw_template w -> v_ctime n <= v_ctime s.

(** How many readable revisions of [l] satisfy [p]; sets without the annotation
    count as revision 0. *)
Definition revs (l : list VSet) : list Z :=
  flat_map (fun s => match v_rev s with RevInt z => [z] | RevMissing => [0] | _ => [] end) l.
Definition count (p : Z -> bool) (l : list Z) : nat := length (filter p l).

(** [r] is the second highest of the positive revisions in [l]; 0 if there are
    fewer than two. *)
Definition second_highest (l : list Z) (r : Z) : Prop :=
  0 <= r /\ (count (fun v => Z.ltb r v) l <= 1)%nat /\
  (0 < r -> (2 <= count (fun v => Z.leb r v) l)%nat).
