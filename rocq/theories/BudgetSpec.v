(* What C94 claims about pod disruption budgets. *)
Require Import List String Bool Arith ZArith.
From Verif Require Import AttModel DrainModel DrainSpec.
Import ListNotations.
Open Scope string_scope.
Open Scope list_scope.
Open Scope nat_scope.

(* The answers to the evictions of a pod, in order. *)
Definition evictions (k : string) (t : list TEv) : list Ans :=
  flat_map (fun x => match x with TCall true q a => if String.eqb (getPodKey q) k then [a] else [] | _ => [] end) t.

(* An answer that says neither that the pod goes nor that it is gone. *)
Definition refused (a : Ans) : Prop := a = ATooMany \/ a = AOther.

(* A budget that can never be met by waiting: all its pods are healthy and none may go. *)
Definition Hopeless (b : Pdb) : Prop :=
  b_gen b = b_seen b /\ (0 < b_expected b)%Z /\ (b_expected b <= b_healthy b)%Z /\ b_allowed b = 0%Z.
Definition hopelessFirst (bs : list Pdb) : Prop := exists b r, bs = b :: r /\ Hopeless b.
