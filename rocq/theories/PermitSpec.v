(** Specification of permits. *)
Require Import Coq.ZArith.ZArith Coq.Lists.List Coq.Strings.String Coq.Bool.Bool Coq.Arith.PeanoNat.
From Verif Require Import PermitModel.
Import ListNotations.
Open Scope string_scope.
Open Scope list_scope.
Open Scope nat_scope.

(** The goroutines that hold a permit for a key. *)
Definition holds (k : string) (t : TS) : bool := match t with Holding k' _ => String.eqb k k' | _ => false end.
Definition holders (k : string) (w : PW) : nat := List.length (filter (holds k) (p_threads w)).

(** The goroutines that hold, wait for or give back a permit for a key. *)
Definition uses (k : string) (t : TS) : bool :=
  match t with Holding k' _ | Waiting k' _ | Releasing k' _ => String.eqb k k' | _ => false end.
Definition busy (k : string) (w : PW) : bool := existsb (uses k) (p_threads w).

(** Every key is registered with its own number of permits. *)
Definition registers (n : string -> nat) (op : POp) : Prop :=
  match op with PRegister k m => m = n k | _ => True end.

(** No deletion and no shutdown; the clean-up deletes a key only while nobody uses it. *)
Definition calm (w : PW) (op : POp) : Prop :=
  match op with
  | PClean => match p_jan w with Some k => busy k w = false | None => True end
  | PDelete _ _ | PClose => False
  | _ => True
  end.
Fixpoint calm_run (stale : Z) (w : PW) (ops : list POp) : Prop :=
  match ops with
  | [] => True
  | op :: r => calm w op /\ calm_run stale (pstep stale w op) r
  end.

(** No deletion (the clean-up may delete at any time). *)
Definition undeleted (op : POp) : Prop := match op with PDelete _ _ => False | _ => True end.
