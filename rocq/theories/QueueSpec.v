(** Specification of the work queues. *)
Require Import Coq.Lists.List Coq.Strings.String Coq.Bool.Bool Coq.Arith.PeanoNat.
From Verif Require Import PermitModel QueueModel.
Import ListNotations.
Open Scope string_scope.
Open Scope list_scope.
Open Scope nat_scope.

(** The outcomes of the reconciles of a key in a history, latest first. *)
Definition outcome1 (k : string) (w : QW) (op : QOp) : list bool :=
  match op with
  | QFinish i failed => match nth_error (q_workers w) i with
                        | Some (Some k') => if String.eqb k k' then [failed] else []
                        | _ => []
                        end
  | _ => []
  end.
Fixpoint outcomes (m : nat) (k : string) (w : QW) (ops : list QOp) (acc : list bool) : list bool :=
  match ops with
  | [] => acc
  | op :: r => outcomes m k (qstep m w op) r (outcome1 k w op ++ acc)
  end.

(** The failures since the last success. *)
Fixpoint failures (l : list bool) : nat := match l with true :: r => S (failures r) | _ => 0 end.

(** The worker works on the key. *)
Definition worksOn (w : QW) (i : nat) (k : string) : Prop := nth_error (q_workers w) i = Some (Some k).
