(** Vocabulary of C103. *)
Require Import Coq.ZArith.ZArith Coq.Lists.List Coq.Strings.String Coq.Bool.Bool Coq.Sorting.Permutation.
From Verif Require Import MSetModel MSetSpec LagModel.
Import ListNotations.
Open Scope string_scope.
Open Scope list_scope.
Open Scope Z_scope.

(** Machines that serve and are not being deleted. *)
Definition kept (m : Mach) : Prop := serving m /\ m_deleting m = false.
Definition nkept (l : list Mach) : Z := Z.of_nat (List.length (filter (fun m => servingb m && negb (m_deleting m)) l)).

(** The cache shows a former state, in any order. *)
Definition shown (l : LW) (o : LOp) : Prop :=
  match o with
  | LSee i v => exists s, nth_error (l_hist l) i = Some s /\ Permutation v (s_ms s)
  | _ => True
  end.
(** The requested number stays between two bounds. *)
Definition sized (lo hi : Z) (o : LOp) : Prop := match o with LScale n => lo <= n <= hi | _ => True end.
(** Fewer than [k] reconciles are not yet visible to the cache. *)
Definition behind (k : nat) (l : LW) (o : LOp) : Prop :=
  match o with LReconcile _ _ => (l_done l - l_seen l < k)%nat | _ => True end.
(** A machine asked to be deleted is also shown as terminating. *)
Definition told (o : LOp) : Prop :=
  match o with LReconcile api _ => forall id, a_delete api id = true -> a_status api id = true | _ => True end.

(** Every event of the execution meets [P] in the state in which it happens. *)
Fixpoint each (P : LW -> LOp -> Prop) (l : LW) (os : list LOp) : Prop :=
  match os with [] => True | o :: r => P l o /\ each P (lstep l o) r end.

(** Machines with different names, all older than the next one. *)
Definition named (ms : list Mach) (next : nat) : Prop :=
  NoDup (map m_id ms) /\ Forall (fun m => (m_id m < next)%nat) ms.

(** The ordinary course of things: deleted machines disappear, the cache catches up
    completely, and a reconcile meets no failing call. *)
Definition ordinary (l : LW) (o : LOp) : Prop :=
  match o with
  | LGone _ => True
  | LSee i v => i = 0%nat /\ v = w_machines (l_w l)
  | LReconcile api _ => api = allok
  | _ => False
  end.
