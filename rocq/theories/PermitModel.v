(** The giver of permits (locks with a number of holders per key).
    Models pkg/util/permits/permits.go 25-177: a concurrent map from keys to buffered
    channels; a permit is a value in the channel. Every step that another goroutine can
    see is one step here. Simplifications: [RegisterPermits] and [Close] are one step
    each; time is a number; a goroutine that uses a permit releases it itself
    (machine_util.go 1641-1642), so a release is made by a holder. *)
Require Import Coq.ZArith.ZArith Coq.Lists.List Coq.Strings.String Coq.Bool.Bool Coq.Arith.PeanoNat.
Import ListNotations.
Open Scope string_scope.
Open Scope list_scope.
Open Scope Z_scope.

(** permits.go 27: a channel with its capacity, the number of values in it and whether it
    is closed. [c_key] is the key it was made for. *)
Record Chan := mkChan { c_key : string; c_cap : nat; c_len : nat; c_closed : bool }.

(** What a goroutine is doing: nothing; waiting in the select of [TryPermit] (97-108) with
    the channel it loaded; using the permit; in [ReleasePermit] (111-126) after it loaded a
    channel; in [DeletePermits] (74-83) after it loaded a channel, and after it closed it.
    A goroutine that holds a permit knows only the key; the channel it got the permit from
    is kept for the proofs. *)
Inductive TS :=
| Idle | Waiting (k : string) (ch : nat) | Holding (k : string) (ch : nat) | Releasing (k : string) (ch : nat)
| Deleting (k : string) (ch : nat) | Removing (k : string).

(** The state: all channels ever made, the map (permits.go 53) with the time of
    registration (26), the stop channel (54), the clock, the goroutines, the key that the
    clean-up has found stale and is about to delete (158-167), and whether the process has
    panicked. *)
Record PW := mkPW {
  p_chans : list Chan; p_map : list (string * (nat * Z)); p_stop : bool; p_now : Z;
  p_threads : list TS; p_jan : option string; p_panic : bool }.

(** sync.Map.Load. permits.go 78, 89, 112, 142, 147. *)
Fixpoint lookup (k : string) (m : list (string * (nat * Z))) : option (nat * Z) :=
  match m with
  | [] => None
  | (k', v) :: r => if String.eqb k k' then Some v else lookup k r
  end.
(** sync.Map.Delete. permits.go 81, 163. *)
Definition remove (k : string) (m : list (string * (nat * Z))) : list (string * (nat * Z)) :=
  filter (fun e => negb (String.eqb k (fst e))) m.
(** Assignment to an element of a list. No counterpart: the heap of permits.go 27. *)
Fixpoint upd {A} (l : list A) (i : nat) (x : A) : list A :=
  match l, i with
  | [], _ => []
  | _ :: r, O => x :: r
  | y :: r, S j => y :: upd r j x
  end.

(** What can happen next. permits.go 57-177, lines at each case. *)
Inductive POp :=
| PRegister (k : string) (n : nat)   (* RegisterPermits, 57-72 *)
| PTry (i : nat) (k : string)        (* TryPermit up to the select, 85-96 *)
| PSend (i : nat)                    (* the permit is acquired, 99-101 *)
| PTimeout (i : nat)                 (* the ticker fires, 102-103 *)
| PStopped (i : nat)                 (* the giver was stopped, 104-106 *)
| PRelease (i : nat)                 (* ReleasePermit: load the channel, 112-117 *)
| PRecv (i : nat)                    (* ReleasePermit: take a value out, 118-125 *)
| PCheck (k : string)                (* the clean-up finds an entry stale, 159-162 *)
| PClean                             (* and deletes the key, 163 *)
| PDelete (i : nat) (k : string)     (* DeletePermits: load the channel, 75-79 *)
| PDeleteClose (i : nat)             (* close it, 80 *)
| PRemove (i : nat)                  (* delete the key, 81 *)
| PClose                             (* Close, 169-177 *)
| PTick (d : Z).                     (* time passes *)

(** What a goroutine is doing. The callers of permits.go 85-126. *)
Definition thread (w : PW) (i : nat) : TS := nth i (p_threads w) Idle.
(** The channel with a number. permits.go 27. *)
Definition chan (w : PW) (ch : nat) : Chan := nth ch (p_chans w) (mkChan "" 0 0 false).
(** A goroutine goes on. The callers of permits.go 85-126. *)
Definition setThread (w : PW) (i : nat) (t : TS) : PW :=
  mkPW (p_chans w) (p_map w) (p_stop w) (p_now w) (upd (p_threads w) i t) (p_jan w) (p_panic w).
(** A channel changes. permits.go 27. *)
Definition setChan (w : PW) (ch : nat) (c : Chan) : PW :=
  mkPW (upd (p_chans w) ch c) (p_map w) (p_stop w) (p_now w) (p_threads w) (p_jan w) (p_panic w).
(** The map changes. permits.go 27, keyPermitsMap. *)
Definition setMap (w : PW) (m : list (string * (nat * Z))) : PW :=
  mkPW (p_chans w) m (p_stop w) (p_now w) (p_threads w) (p_jan w) (p_panic w).
(** The clean-up goes on. permits.go 158-167. *)
Definition setJan (w : PW) (j : option string) : PW :=
  mkPW (p_chans w) (p_map w) (p_stop w) (p_now w) (p_threads w) j (p_panic w).
(** A runtime panic ends the process. Closing or sending at permits.go 74-83, 85-109, 169-177. *)
Definition panicked (w : PW) : PW :=
  mkPW (p_chans w) (p_map w) (p_stop w) (p_now w) (p_threads w) (p_jan w) true.
(** The same channel with another number of values. permits.go 85-126. *)
Definition withLen (c : Chan) (n : nat) : Chan := mkChan (c_key c) (c_cap c) n (c_closed c).
(** The same channel, closed. permits.go 74-83, 158-177. *)
Definition closed (c : Chan) : Chan := mkChan (c_key c) (c_cap c) (c_len c) true.

(** One step (permits.go 57-177; a closed giver refuses all but releases, 128-136); [stale]
    is the timeout of the clean-up (158-162; controller.go 80: one hour). Steps that are not possible leave
    the state alone. *)
Definition pstep (stale : Z) (w : PW) (op : POp) : PW :=
  if p_panic w then w else
  match op with
  | PRegister k n =>
      if p_stop w then w else
      match lookup k (p_map w) with
      | Some _ => w
      | None =>
          mkPW (p_chans w ++ [mkChan k n 0 false]) ((k, (List.length (p_chans w), p_now w)) :: p_map w)
            (p_stop w) (p_now w) (p_threads w) (p_jan w) (p_panic w)
      end
  | PTry i k =>
      match thread w i with
      | Idle => if p_stop w then w else
          match lookup k (p_map w) with
          | Some (ch, _) => setThread w i (Waiting k ch)
          | None => w
          end
      | _ => w
      end
  | PSend i =>
      match thread w i with
      | Waiting k ch =>
          if c_closed (chan w ch) then panicked w
          else if Nat.ltb (c_len (chan w ch)) (c_cap (chan w ch))
               then setThread (setChan w ch (withLen (chan w ch) (S (c_len (chan w ch))))) i (Holding k ch)
               else w
      | _ => w
      end
  | PTimeout i => match thread w i with Waiting _ _ => setThread w i Idle | _ => w end
  | PStopped i => match thread w i with Waiting _ _ => if p_stop w then setThread w i Idle else w | _ => w end
  | PRelease i =>
      match thread w i with
      | Holding k _ =>
          match lookup k (p_map w) with
          | Some (ch, _) => setThread w i (Releasing k ch)
          | None => setThread w i Idle
          end
      | _ => w
      end
  | PRecv i =>
      match thread w i with
      | Releasing k ch => setThread (setChan w ch (withLen (chan w ch) (Nat.pred (c_len (chan w ch))))) i Idle
      | _ => w
      end
  | PCheck k =>
      match p_jan w, lookup k (p_map w) with
      | None, Some (ch, t) =>
          if (0 <? p_now w - stale - t) && Nat.eqb (c_len (chan w ch)) 0 then setJan w (Some k) else w
      | _, _ => w
      end
  | PClean => match p_jan w with Some k => setJan (setMap w (remove k (p_map w))) None | None => w end
  | PDelete i k =>
      match thread w i with
      | Idle => if p_stop w then w else
          match lookup k (p_map w) with Some (ch, _) => setThread w i (Deleting k ch) | None => w end
      | _ => w
      end
  | PDeleteClose i =>
      match thread w i with
      | Deleting k ch => if c_closed (chan w ch) then panicked w else setThread (setChan w ch (closed (chan w ch))) i (Removing k)
      | _ => w
      end
  | PRemove i => match thread w i with Removing k => setThread (setMap w (remove k (p_map w))) i Idle | _ => w end
  | PClose =>
      if p_stop w then panicked w
      else if existsb (fun e => c_closed (chan w (fst (snd e)))) (p_map w) then panicked w
      else mkPW (fold_left (fun cs e => upd cs (fst (snd e)) (closed (nth (fst (snd e)) cs (mkChan "" 0 0 false)))) (p_map w) (p_chans w))
             (p_map w) true (p_now w) (p_threads w) (p_jan w) false
  | PTick d => mkPW (p_chans w) (p_map w) (p_stop w) (p_now w + Z.abs d) (p_threads w) (p_jan w) (p_panic w)
  end.

(** A history. permits.go 25-177, any interleaving. *)
Definition prun (stale : Z) (w : PW) (ops : list POp) : PW := fold_left (pstep stale) ops w.
(** NewPermitGiver (31-50) and any number of goroutines. *)
Definition pinit (now : Z) (workers : nat) : PW := mkPW [] [] false now (repeat Idle workers) None false.
