(** Vocabulary of C108. *)
Require Import Coq.ZArith.ZArith Coq.Lists.List Coq.Strings.String Coq.Bool.Bool.
From Verif Require Import MSetModel MSetSpec PickModel.
Import ListNotations.
Open Scope string_scope.
Open Scope list_scope.
Open Scope Z_scope.

(** A set at rest: as many machines as wanted, all Running, none marked, named or being deleted, none
    of low priority. *)
Definition at_rest (w : PW) : Prop :=
  NoDup (map m_id (p_ms w)) /\ p_names w = [] /\ p_size w = p_want w /\ p_want w = Z.of_nat (List.length (p_ms w)) /\
  Forall (fun m => (m_id m < p_next w)%nat /\ m_phase m = "Running" /\ m_deleting m = false /\ 3 <= prio m /\ m_trigger m <> "true") (p_ms w).

(** The autoscaler names machines of the set and lowers the size by their number. *)
Definition asks (w : PW) (o : POp) : Prop :=
  exists names, NoDup names /\ (forall i, In i names -> In i (map m_id (p_ms w))) /\
    o = PAsk (p_want w - Z.of_nat (List.length names)) names.
Definition asked (o : POp) : list nat := match o with PAsk _ names => names | _ => [] end.

(** What may follow: passes of both controllers with any failures, those of the MachineSet controller on an
    up-to-date view; machines created later (from number [n] on) get any phase but Running; machines
    being deleted vanish. *)
Definition follows (n : nat) (w : PW) (o : POp) : Prop :=
  match o with
  | PTick _ | PDep _ _ _ | PGone _ => True
  | PAsk _ _ => False
  | PSet _ size view => size = p_size w /\ view = p_ms w
  | PPhase i ph => (n <= i)%nat /\ (rank ph < rank "Running")%nat
  end.
Fixpoint pEach (P : PW -> POp -> Prop) (w : PW) (l : list POp) : Prop :=
  match l with [] => True | o :: r => P w o /\ pEach P (pstep w o) r end.

(** No call fails. *)
Definition undisturbed : POp := PDep (fun _ => false) true true.
(** A pass of the MachineSet controller on what there is. *)
Definition looks (api : Api) (w : PW) : POp := PSet api (p_size w) (p_ms w).
