(* What a user expects of the finalizers on classes (C44) and secrets (C65). *)
Require Import List String Bool Arith.
From Verif Require Import FinModel.
Import ListNotations.
Open Scope string_scope.
Open Scope list_scope.
Open Scope nat_scope.

(* The names of the two finalizers, spelled out (controller.go 47-54). *)
Definition classFinalizer : string := "machine.sapcloud.io/machine-controller-manager".
Definition secretFinalizer : string := "machine.sapcloud.io/machine-controller".
Definition finalizerOf (k : Kind) : string :=
  match k with KClass => classFinalizer | KSecret => secretFinalizer end.

(* The object is there and carries finalizer [f]. *)
Definition holds (f : string) (s : St) : Prop := exists o, srv s = Some o /\ In f (oFins o).

(* Two objects carry the same finalizers apart from [f]. *)
Definition sameOthers (f : string) (a b : list string) : Prop :=
  forall x, x <> f -> (In x a <-> In x b).

(* A pass that is going to take the own finalizer away. *)
Definition removing (k : Kind) (s : St) : Prop :=
  match pend s with
  | Idle => False
  | Decided l => ~ In (finalizerOf k) l
  | Fetched l _ => ~ In (finalizerOf k) l
  end.

(* Circumstances of one step under which protection can be expected: the cache of
   referring objects does not miss all of them, no reference appears while the
   finalizer is being taken away, and others leave that finalizer alone. *)
Definition careful (k : Kind) (s : St) (o : Op) : Prop :=
  match o with
  | Look _ seen => seen = [] -> refs s = []
  | RefAdd _ => ~ removing k s
  | OtherRemoves f => f <> finalizerOf k
  | _ => True
  end.

(* Such a run. *)
Fixpoint carefulRun (k : Kind) (s : St) (ops : list Op) : Prop :=
  match ops with
  | [] => True
  | o :: r => careful k s o /\ carefulRun k (step k s o) r
  end.

(* A run in which every pass starts from current caches. *)
Definition fresh (s : St) (o : Op) : Prop :=
  match o with Look v seen => srv s = Some v /\ seen = refs s | _ => True end.
Fixpoint freshRun (k : Kind) (s : St) (ops : list Op) : Prop :=
  match ops with
  | [] => True
  | o :: r => fresh s o /\ freshRun k (step k s o) r
  end.

(* All intermediate states of a run. *)
Fixpoint states (k : Kind) (s : St) (ops : list Op) : list St :=
  match ops with [] => [s] | o :: r => s :: states k (step k s o) r end.

(* Resource versions are not from the future. *)
Definition rvOK (s : St) : Prop :=
  (forall o, srv s = Some o -> oRV o <= rev s) /\
  match pend s with Fetched _ rv => rv <= rev s | _ => True end.

(* A step taken by somebody else. *)
Definition others (o : Op) : Prop :=
  match o with Look _ _ => False | Fetch _ => False | Write _ => False | _ => True end.

(* A whole pass in one go, with current caches. *)
Definition pass (o : Obj) (rs : list nat) : list Op := [Look o rs; Fetch false; Write false].

(* The secrets to which a class refers. *)
Definition refsOf (c : ClassRefs) : list SRef :=
  match secretRef c with Some r => [r] | None => [] end ++ match credRef c with Some r => [r] | None => [] end.
