(* What C43 and C66 claim. *)
Require Import List String Bool Arith.
From Verif Require Import AttModel.
Import ListNotations.
Open Scope string_scope.
Open Scope list_scope.
Open Scope nat_scope.

(* [a] is [b] with some elements left out. *)
Inductive Sub {A} : list A -> list A -> Prop :=
| SubNil : Sub [] []
| SubSkip : forall x a b, Sub a b -> Sub a (x :: b)
| SubTake : forall x a b, Sub a b -> Sub (x :: a) (x :: b).

(* The events that come in, and that the informer hands over, in a history: an
   event that finds nobody registered is not handed on; the informer brings an
   event only after the one before. *)
Definition comes (h : Hd) (o : AOp) : list VA :=
  match o with
  | Event (Some v) => match h_hand h, h_workers h with None, _ :: _ => [v] | _, _ => [] end
  | _ => []
  end.
Fixpoint arrivals (h : Hd) (ops : list AOp) : list VA :=
  match ops with
  | [] => []
  | o :: r => comes h o ++ match astep h o with Some h' => arrivals h' r | None => [] end
  end.

(* The event in hand. *)
Definition inHand (h : Hd) : list VA := match h_hand h with Some v => [v] | None => [] end.

(* What has come out of, and what is in, the n-th channel. *)
Definition took (h : Hd) (n : nat) : list VA := match nth_error (h_chans h) n with Some c => c_got c | None => [] end.
Definition holdsC (h : Hd) (n : nat) : list VA := match nth_error (h_chans h) n with Some c => c_buf c | None => [] end.

(* All states of a history. *)
Fixpoint astates (h : Hd) (ops : list AOp) : list Hd :=
  h :: match ops with
       | [] => []
       | o :: r => match astep h o with Some h' => astates h' r | None => [] end
       end.

(* The handler as it can be reached. *)
Definition Reached (h : Hd) : Prop := exists ops, arun h0 ops = Some h.

(* The event says that the volume is now attached to another node. *)
Definition Moved (prev pv : string) (v : VA) : Prop := va_pv v = Some pv /\ va_attached v = true /\ va_node v <> prev.
