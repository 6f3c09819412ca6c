(** Work queues and the workers on them.
    Models pkg/util/worker/worker.go 24-68 on top of the work queue of
    k8s.io/client-go/util/workqueue (not in /repo; its documented behaviour: a queue without
    duplicates, a set of keys that need work, a set of keys being worked on, a counter of
    failures per key). Simplifications: the calls after a reconcile (Forget, AddRateLimited,
    Done) are one step; how long a delayed key waits is left open. *)
Require Import Coq.Lists.List Coq.Strings.String Coq.Bool.Bool Coq.Arith.PeanoNat.
From Verif Require Import PermitModel.
Import ListNotations.
Open Scope string_scope.
Open Scope list_scope.
Open Scope nat_scope.

(** worker.go 17: DefaultMaxRetries. *)
Definition DefaultMaxRetries : nat := 15.

(** What becomes of a key after a reconcile that failed or not, with the number of requeues
    before (worker.go 46-64): the new number, and whether it was put back. *)
Definition afterRun (maxRetries : nat) (requeues : nat) (failed : bool) : nat * bool :=
  if failed then
    if Nat.ltb requeues maxRetries then (S requeues, true) else (0, false)
  else (0, false).

(** The queue, the keys that need work, the keys that will be added later, the number of
    requeues per key, and what each worker works on.
    External; made at pkg/util/provider/machinecontroller/controller.go 91-97. *)
Record QW := mkQW {
  q_queue : list string; q_dirty : list string; q_later : list string; q_count : string -> nat;
  q_workers : list (option string) }.

(** What can happen next.
    Lines at each case, else external; e.g. machinecontroller/machine.go 104-132. *)
Inductive QOp :=
| QAdd (k : string)                 (* an event, or a direct Add *)
| QLater (k : string)               (* AddAfter *)
| QDue (n : nat)                    (* the n-th delayed key becomes due *)
| QGet (i : nat)                    (* worker i takes the first key, worker.go 39 *)
| QFinish (i : nat) (failed : bool). (* its reconcile returns, 45-64 *)

(** Membership. External: sets of client-go behind worker.go 39. *)
Definition hasKey (k : string) (l : list string) : bool := existsb (String.eqb k) l.
(** Some worker works on the key. External: the set behind worker.go 39 and 64. *)
Definition processing (w : QW) (k : string) : bool :=
  existsb (fun o => match o with Some k' => String.eqb k k' | None => false end) (q_workers w).
(** workqueue Add. External; called e.g. at machinecontroller/machine.go 104, 122. *)
Definition add (w : QW) (k : string) : QW :=
  if hasKey k (q_dirty w) then w
  else mkQW (if processing w k then q_queue w else q_queue w ++ [k]) (q_dirty w ++ [k]) (q_later w) (q_count w) (q_workers w).
(** Removal of a key from a set. External: sets of client-go behind worker.go 39. *)
Definition without (k : string) (l : list string) : list string := filter (fun x => negb (String.eqb k x)) l.
(** The list without its n-th element.
    External: the delayed keys of e.g. machinecontroller/machine.go 111. *)
Definition dropNth (n : nat) (l : list string) : list string := firstn n l ++ skipn (S n) l.

(** One step (worker.go 35-67). *)
Definition qstep (maxRetries : nat) (w : QW) (op : QOp) : QW :=
  match op with
  | QAdd k => add w k
  | QLater k => mkQW (q_queue w) (q_dirty w) (q_later w ++ [k]) (q_count w) (q_workers w)
  | QDue n =>
      match nth_error (q_later w) n with
      | Some k => add (mkQW (q_queue w) (q_dirty w) (dropNth n (q_later w)) (q_count w) (q_workers w)) k
      | None => w
      end
  | QGet i =>
      match nth_error (q_workers w) i, q_queue w with
      | Some None, k :: r => mkQW r (without k (q_dirty w)) (q_later w) (q_count w) (upd (q_workers w) i (Some k))
      | _, _ => w
      end
  | QFinish i failed =>
      match nth_error (q_workers w) i with
      | Some (Some k) =>
          let '(c, again) := afterRun maxRetries (q_count w k) failed in
          mkQW (if hasKey k (q_dirty w) then q_queue w ++ [k] else q_queue w) (q_dirty w)
            (if again then q_later w ++ [k] else q_later w)
            (fun k' => if String.eqb k k' then c else q_count w k') (upd (q_workers w) i None)
      | _ => w
      end
  end.

(** A history. worker.go 24-68, any interleaving. *)
Definition qrun (maxRetries : nat) (w : QW) (ops : list QOp) : QW := fold_left (qstep maxRetries) ops w.
(** An empty queue with [n] workers. worker.go 24-30. *)
Definition qinit (n : nat) : QW := mkQW [] [] [] (fun _ => 0) (repeat None n).
