(** Vocabulary of the MachineSet properties. *)
Require Import Coq.ZArith.ZArith Coq.Lists.List Coq.Strings.String Coq.Strings.Ascii Coq.Bool.Bool.
From Verif Require Import MSetModel.
Import ListNotations.
Open Scope string_scope.
Open Scope list_scope.
Open Scope Z_scope.

(** Machines that count towards the requested size: neither failed, nor being
    terminated, nor marked for deletion by annotation. *)
Definition serving (m : Mach) : Prop :=
  m_phase m <> "Failed" /\ m_phase m <> "Terminating" /\ m_prio m <> "1" /\ m_trigger m <> "true".
Definition servingb (m : Mach) : bool :=
  negb (String.eqb (m_phase m) "Failed") && negb (String.eqb (m_phase m) "Terminating") &&
  negb (String.eqb (m_prio m) "1") && negb (String.eqb (m_trigger m) "true").
Definition nserving (l : list Mach) : Z := Z.of_nat (List.length (filter servingb l)).

(** Phases in the order in which they are given up; phases not listed come first. *)
Definition phase_order := ["Terminating"; "Failed"; "CrashLoopBackOff"; "Unknown"; "Pending"; "Available"; "Running"].
Fixpoint index_of (s : string) (l : list string) : option nat :=
  match l with [] => None | a :: r => if String.eqb a s then Some 0%nat else option_map S (index_of s r) end.
Definition rank (p : string) : nat := match index_of p phase_order with Some n => n | None => 0%nat end.

(** Priority: the number in the annotation, 3 if absent or no number. *)
Definition prio (m : Mach) : Z :=
  if String.eqb (m_prio m) "" then 3 else match Atoi (m_prio m) with Some n => n | None => 3 end.

(** [a] is to be given up before [b]. *)
Definition before (a b : Mach) : Prop :=
  prio a < prio b \/
  (prio a = prio b /\ (rank (m_phase a) < rank (m_phase b))%nat) \/
  (prio a = prio b /\ rank (m_phase a) = rank (m_phase b) /\ m_ctime a < m_ctime b).

(** Number of calls in [from, from+n) that succeed. *)
Definition nsucc (f : nat -> bool) (from n : nat) : nat := List.length (filter f (seq from n)).

Definition allok : Api := mkApi (fun _ => true) (fun _ => true) (fun _ => true).

(** A number of undisturbed rounds: the cache catches up, then a reconcile. *)
Fixpoint rounds (n : nat) (now : Z) (w : World) : World :=
  match n with O => w | S k => rounds k now (step (step w OObserve) (OReconcile allok now)) end.

Definition wf (w : World) : Prop :=
  NoDup (map m_id (w_machines w)) /\ Forall (fun m => (m_id m < w_next w)%nat) (w_machines w).

(** No serving machine is shown as being deleted: what holds when every deletion so
    far was followed by its status change. *)
Definition settled (l : list Mach) : Prop := Forall (fun m => m_deleting m = true -> servingb m = false) l.

(** Shown as terminating, but never asked to be deleted. *)
Definition lost (m : Mach) : Prop :=
  m_phase m = "Terminating" /\ m_deleting m = false /\ m_prio m <> "1" /\ m_trigger m <> "true".

(** Decimal numbers: an optional sign and digits, within 64 bits. *)
Definition decimal_digits : list ascii := ["0"; "1"; "2"; "3"; "4"; "5"; "6"; "7"; "8"; "9"]%char.
Fixpoint place (c : ascii) (l : list ascii) : option nat :=
  match l with [] => None | a :: r => if Ascii.eqb a c then Some 0%nat else option_map S (place c r) end.
Fixpoint written (s : string) (v : Z) : Prop :=
  match s with
  | EmptyString => v = 0
  | String c r => exists d v', place c decimal_digits = Some d /\ written r v' /\ v = Z.of_nat d * 10 ^ Z.of_nat (String.length r) + v'
  end.
Definition numeral (s : string) (z : Z) : Prop :=
  exists sign body v, body <> "" /\ written body v /\ s = (sign ++ body)%string /\
    (sign = "" /\ z = v \/ sign = "+" /\ z = v \/ sign = "-" /\ z = - v) /\ - 2 ^ 63 <= z < 2 ^ 63.
