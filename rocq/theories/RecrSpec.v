(** Vocabulary of C104: a Recreate rollout comes to its end. The events are those
    of RecreateModel. *)
Require Import Coq.ZArith.ZArith Coq.Lists.List Coq.Strings.String Coq.Bool.Bool Coq.Arith.PeanoNat.
From Verif Require Import Types RecreateModel.
Import ListNotations.
Open Scope Z_scope.

(** The user edits neither the template nor the size. *)
Definition calm (e : Event) : Prop :=
  match e with SetTemplate _ | SetReplicas _ => False | _ => True end.

(** The clean-up cannot run past the end of the list of sets. *)
Definition limit_ok (w : World) : Prop := match w_limit w with Some l => 0 <= l | None => True end.

(** The current template's set requests the wanted number of machines; no other
    set requests any. *)
Definition finished (w : World) : Prop :=
  (exists z, In z (w_sets w) /\ r_template z = w_template w /\ ms_spec (r_ms z) = w_replicas w) /\
  (forall x, In x (w_sets w) -> r_template x <> w_template w -> ms_spec (r_ms x) = 0).

(** Every set that requests no machine has none and reports none. *)
Definition drained (w : World) : bool :=
  forallb (fun x => negb (ms_spec (r_ms x) =? 0) || ((r_machines x =? 0) && (ms_status (r_ms x) =? 0))) (w_sets w).

(** A turn: the controller looks at a drained world, at least its first write
    arrives, and the name of a set it would create is not taken. *)
Definition turn (w : World) (e : Event) : bool :=
  match e with
  | Reconcile _ name _ writes =>
      drained w && Nat.ltb 0 writes && negb (existsb (fun x => String.eqb (r_name x) name) (w_sets w))
  | _ => false
  end.

(** How many turns the history contains. *)
Fixpoint turns (w : World) (l : list Event) : nat :=
  match l with
  | [] => 0
  | e :: r => (if turn w e then 1 else 0) + turns (step w e) r
  end%nat.

(** The MachineSets have all the machines they request, and say so. *)
Definition served (w : World) : Prop :=
  forall x, In x (w_sets w) -> r_machines x = ms_spec (r_ms x) /\ ms_status (r_ms x) = ms_spec (r_ms x).
