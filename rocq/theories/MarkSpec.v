(** What the loops around the mark of a MachineSet should do. *)
Require Import Coq.ZArith.ZArith Coq.Lists.List Coq.Strings.String Coq.Bool.Bool Coq.Arith.PeanoNat.
From Verif Require Import MarkModel.
Import ListNotations.
Open Scope string_scope.
Open Scope list_scope.
Open Scope Z_scope.

(** Executions and their states. *)
Definition mrun (rm : bool) (w : W) (ops : list Op) : W := fold_left (mstep rm) ops w.
Fixpoint mstates (rm : bool) (w : W) (ops : list Op) : list W :=
  w :: match ops with [] => [] | op :: r => mstates rm (mstep rm w op) r end.

(** All versions in the server are older than the next one. *)
Definition versions (srv : Key -> option Ob) (version : nat) : Prop := forall k o, srv k = Some o -> (o_rv o < version)%nat.

(** The value the mark should have: "True", or none after its removal. *)
Definition right (rm : bool) (o : Ob) : Prop := look MarkKey (o_ann o) = if rm then None else Some "True".

(** The call makes a request in this state. *)
Definition request (w : W) : bool :=
  match m_pc w with
  | Get => match m_hand w with Some _ => true | None => false end
  | Put _ _ => true
  | _ => false
  end.
(** The number of requests in an execution. *)
Fixpoint requests (rm : bool) (w : W) (ops : list Op) : nat :=
  match ops with
  | [] => 0%nat
  | op :: r => ((match op with Go _ => if request w then 1 else 0 | _ => 0 end) + requests rm (mstep rm w op) r)%nat
  end.

(** Every stage takes at most [d], and a sleep ends at most [d] late. *)
Definition prompt (d : Z) (w : W) : Prop :=
  match m_pc w with
  | End _ => True
  | Sleep t => m_now w <= t + d
  | _ => m_now w <= m_since w + d
  end.

(** Up to time [s] anything may happen to the updates, but the reads work and the set is not deleted; from
    then on every request works and nobody else writes. *)
Definition calm (k : Key) (s : Z) (w : W) (op : Op) : Prop :=
  match op with
  | Tick _ => True
  | Other x o => m_now w < s /\ (x = k -> o <> None)
  | Go f => match m_pc w with
            | Put _ _ => s <= m_now w -> f = Fine
            | _ => f = Fine
            end
  end.
Fixpoint calmly (rm : bool) (k : Key) (s : Z) (w : W) (ops : list Op) : Prop :=
  match ops with
  | [] => True
  | op :: r => calm k s w op /\ calmly rm k s (mstep rm w op) r
  end.
