(** Waiters for volume attachment events.
    Models pkg/util/provider/drain/volume_attachment.go 17-110. Channels are numbered in the order
    in which they are made. The event handlers are called one after the other by one goroutine of
    the informer (client-go, not in /repo), so at most one event is in hand; all else interleaves
    freely. Simplifications: a VolumeAttachment is the fields the code looks at; an object of
    another type (36) cannot occur with a typed informer; the unlocked look at the list (31) is one
    atomic read. *)
Require Import Coq.Lists.List Coq.Strings.String Coq.Bool.Bool Coq.Arith.PeanoNat.
Import ListNotations.
Open Scope string_scope.
Open Scope list_scope.
Open Scope nat_scope.

(** storage.k8s.io/v1 VolumeAttachment as used in drain.go 924-932 and 965-976; [va_pv] is the
    pointer Spec.Source.PersistentVolumeName. *)
Record VA := mkVA { va_pv : option string; va_node : string; va_attached : bool }.

(** volume_attachment.go 76: chanSize. *)
Definition chanSize : nat := 20.

(** A channel made by AddWorker (83): what is in its buffer, what the waiter took out of it so
    far, and whether it is closed. *)
Record Chan := mkChan { c_buf : list VA; c_got : list VA; c_closed : bool }.

(** VolumeAttachmentHandler (17-20): the list of workers; all channels ever made; the event the
    informer goroutine is about to distribute (between 31 and 45). *)
Record Hd := mkHd { h_workers : list nat; h_chans : list Chan; h_hand : option VA }.

(** NewVolumeAttachmentHandler (23-28). *)
Definition h0 : Hd := mkHd [] [] None.

(** What can happen next. volume_attachment.go 30-110, lines at each case. *)
Inductive AOp :=
| Event (obj : option VA)   (* AddVolumeAttachment, UpdateVolumeAttachment up to 44; None: a nil pointer *)
| Deliver                   (* the part of dispatch under the lock, 45-56 *)
| Register                  (* AddWorker, 72-88 *)
| Unregister (n : nat)      (* DeleteWorker, 91-110 *)
| Receive (n : nat).        (* a waiter takes an event out of its channel, drain.go 965 *)

(** The channel list with the n-th channel replaced (Go channels are references; 83). *)
Fixpoint updC (l : list Chan) (n : nat) (c : Chan) : list Chan :=
  match l, n with
  | [], _ => []
  | _ :: r, 0 => c :: r
  | x :: r, S m => x :: updC r m c
  end.

(** The non-blocking send of 51-55; None: send on a closed channel, a panic. *)
Definition trySend (c : Chan) (v : VA) : option Chan :=
  if c_closed c then None
  else if Nat.ltb (List.length (c_buf c)) chanSize
       then Some (mkChan (c_buf c ++ [v]) (c_got c) false)
       else Some c.

(** The loop 48-56; None: panic. *)
Fixpoint sendAll (ws : list nat) (cs : list Chan) (v : VA) : option (list Chan) :=
  match ws with
  | [] => Some cs
  | w :: r =>
      match nth_error cs w with
      | None => sendAll r cs v
      | Some c => match trySend c v with Some c' => sendAll r (updC cs w c') v | None => None end
      end
  end.

(** close (101); None: close of a closed channel, a panic. *)
Definition closeC (c : Chan) : option Chan :=
  if c_closed c then None else Some (mkChan (c_buf c) (c_got c) true).

(** The loop 99-106: the channels and the new list of workers; None: panic. *)
Fixpoint delWorker (n : nat) (ws : list nat) (cs : list Chan) : option (list nat * list Chan) :=
  match ws with
  | [] => Some ([], cs)
  | w :: r =>
      if Nat.eqb w n then
        match nth_error cs w with
        | None => delWorker n r cs
        | Some c => match closeC c with Some c' => delWorker n r (updC cs w c') | None => None end
        end
      else match delWorker n r cs with Some (r', cs') => Some (w :: r', cs') | None => None end
  end.

(** One step; None: the program panics. volume_attachment.go 30-110. *)
Definition astep (h : Hd) (op : AOp) : option Hd :=
  match op with
  | Event obj =>
      match h_hand h with
      | Some _ => Some h                       (* the informer goroutine is still busy *)
      | None =>
          match h_workers h with
          | [] => Some h                       (* 31-34 *)
          | _ =>
              match obj with
              | None => Some h                 (* 37-40 *)
              | Some v =>
                  match va_pv v with
                  | None => None               (* 42: nil pointer *)
                  | Some _ => Some (mkHd (h_workers h) (h_chans h) (Some v))
                  end
              end
          end
      end
  | Deliver =>
      match h_hand h with
      | None => Some h
      | Some v => match sendAll (h_workers h) (h_chans h) v with
                  | Some cs => Some (mkHd (h_workers h) cs None)
                  | None => None
                  end
      end
  | Register => Some (mkHd (h_workers h ++ [List.length (h_chans h)]) (h_chans h ++ [mkChan [] [] false]) (h_hand h))
  | Unregister n =>
      match delWorker n (h_workers h) (h_chans h) with
      | Some (ws, cs) => Some (mkHd ws cs (h_hand h))
      | None => None
      end
  | Receive n =>
      match nth_error (h_chans h) n with
      | None => Some h
      | Some c =>
          match c_buf c with
          | v :: r => Some (mkHd (h_workers h) (updC (h_chans h) n (mkChan r (c_got c ++ [v]) (c_closed c))) (h_hand h))
          | [] => if c_closed c then None      (* a nil event; drain.go 966 *)
                  else Some h                  (* the waiter blocks *)
          end
      end
  end.

(** A history; None: panic on the way. volume_attachment.go 17-110, any interleaving. *)
Fixpoint arun (h : Hd) (ops : list AOp) : option Hd :=
  match ops with
  | [] => Some h
  | o :: r => match astep h o with Some h' => arun h' r | None => None end
  end.

(** isDesiredReattachment (drain.go 924-932). *)
Definition isDesiredReattachment (v : VA) (prev : string) : bool :=
  va_attached v && negb (String.eqb (va_node v) prev).

(** The pvsWaitingForReattachments map after an event (drain.go 966-975). *)
Definition afterEvent (prev : string) (waiting : list string) (v : VA) : list string :=
  match va_pv v with
  | Some pv => if isDesiredReattachment v prev then filter (fun x => negb (String.eqb pv x)) waiting else waiting
  | None => waiting
  end.

(** waitForReattach (drain.go 937-986) with the events that come until the deadline; [handler] says
    whether there is a handler (720, 947). The result of 963 is [false], that of 985 [true]. With a
    nil channel nothing is ever received (965). *)
Fixpoint reattachLoop (prev : string) (waiting : list string) (evs : list VA) : bool :=
  match evs with
  | [] => false
  | v :: r => match afterEvent prev waiting v with [] => true | w => reattachLoop prev w r end
  end.

(** waitForReattach (drain.go 937-986). *)
Definition waitForReattach (handler : bool) (prev : string) (pvs : list string) (evs : list VA) : bool :=
  match pvs with
  | [] => true
  | _ => if String.eqb prev "" then true else if handler then reattachLoop prev pvs evs else false
  end.
