(* What a user expects of annotation and condition edits (C34) and of the list of
   machines named for deletion (C63). *)
Require Import List String Ascii Bool Arith.
From Verif Require Import MetaModel MetaSpec TaintModel AnnoModel.
Import ListNotations.
Open Scope string_scope.
Open Scope list_scope.

(* The entries of a possibly nil map. *)
Definition entries (n : AMap) : Map := match n with None => [] | Some m => m end.

(* [r] is [n] without the keys of [anns]. *)
Definition withoutKeys (anns n r : Map) : Prop :=
  forall k v, In (k, v) r <-> In (k, v) n /\ ~ In k (keys anns).

(* The events caused by others. *)
Definition byOthers (e : NodeEvent) : bool :=
  match e with Annotate => false | Unannotate => false | _ => true end.

(* An event in which somebody else touches key [k]. *)
Definition touches (k : string) (e : NodeEvent) : Prop :=
  match e with
  | UserSets k' _ => k' = k
  | UserRemoves k' => k' = k
  | _ => False
  end.

(* Decide whether a machine is one that can still be marked. *)
Definition markable (ms : Machines) (n : string) : Prop :=
  exists m, ms n = Some m /\ tmGoing m = false.

(* Only the named, still active machines differ, and those only by having
   priority 1. *)
Definition onlyMarked (names : list string) (ms ms' : Machines) : Prop :=
  forall x, ms' x = ms x \/
    (In x names /\ exists m, ms x = Some m /\ tmGoing m = false /\
       ms' x = Some (mkTMachine (tmOwner m) (tmGoing m) "1")).

(* All named, still active machines have priority 1. *)
Definition allMarked (names : list string) (ms ms' : Machines) : Prop :=
  forall x m, In x names -> ms x = Some m -> tmGoing m = false ->
    ms' x = Some (mkTMachine (tmOwner m) (tmGoing m) "1").
