(* What a user expects of writes to Node objects (C91), of the annotations that
   keep the autoscaler away (C92), and of the termination condition (C93). *)
Require Import List String Bool Arith.
From Verif Require Import MetaModel TaintModel AnnoModel AnnoSpec NodeModel.
Import ListNotations.
Open Scope string_scope.
Open Scope list_scope.

(* [h'] is [h] plus one new state, which differs from the newest state of [h] as
   [change] says and in nothing else. *)
Definition wrote (change : NObj -> NObj -> Prop) (h h' : Hist) : Prop :=
  exists o o', current h = Some o /\ h' = Some o' :: h /\ change o o'.

(* All of [a] set, all other annotations as they were, all else too. *)
Definition annotated (a : Map) (o o' : NObj) : Prop :=
  nConds o' = nConds o /\ nRest o' = nRest o /\
  forall k, get k (entries (nAnn o')) =
    match get k a with Some v => Some v | None => get k (entries (nAnn o)) end.

(* All keys of [a] gone, all other annotations as they were, all else too. *)
Definition deannotated (a : Map) (o o' : NObj) : Prop :=
  nConds o' = nConds o /\ nRest o' = nRest o /\
  forall k, get k (entries (nAnn o')) =
    match get k a with Some _ => None | None => get k (entries (nAnn o)) end.

(* The conditions of other types as they were; one of this type, with this
   status, reason and message; all else as it was. *)
Definition conditioned (c : NCond) (o o' : NObj) : Prop :=
  nAnn o' = nAnn o /\ nRest o' = nRest o /\
  exists c', nConds o' = filter (fun x => negb (String.eqb (cType x) (cType c))) (nConds o) ++ [c'] /\
    cType c' = cType c /\ cStatus c' = cStatus c /\ cReason c' = cReason c /\
    cMessage c' = cMessage c /\ cHeartbeat c' = cHeartbeat c.

(* Some earlier state, or the newest one. *)
Definition seen (h : Hist) (o : option NObj) : Prop := exists i, o = current (before i h).

(* A node carries all of [a]. *)
Definition carries (a : Map) (o : NObj) : Prop :=
  forall k v, In (k, v) a -> get k (entries (nAnn o)) = Some v.

(* A node has none of the keys of [a]. *)
Definition lacks (a : Map) (o : NObj) : Prop :=
  forall k, In k (map fst a) -> get k (entries (nAnn o)) = None.

(* Nothing disturbs: the read is up to date, nobody else writes meanwhile, the
   update does not fail. *)
Definition quiet (rounds : list Round) : Prop :=
  exists rest, rounds = mkRound (inl 0) [] None :: rest.

(* The node names that a list of sets mentions. *)
Definition names (sets : list (option ASet)) : list string :=
  List.concat (map (fun s => match s with Some (Some l) => l | _ => [] end) sets).

Definition names' (sets : list ASet) : list string :=
  List.concat (map (fun s => match s with Some l => l | None => [] end) sets).
