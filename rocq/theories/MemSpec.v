(* C115, C116: what the properties say, in terms of the memory of the process
   and the trace of its accesses only. *)
Require Import List String Bool.
From Verif Require Import MemModel MemMcModel MemMcmModel.
Import ListNotations.
Open Scope string_scope.

(* Cell l holds n and was put there by an informer. *)
Definition in_cache (w : World) (l : nat) (n : Node) : Prop := nth_error (heap w) l = Some (Cache, n).

(* Worker j has read or written cell l. *)
Definition touches (tr : list Event) (j l : nat) : Prop :=
  In (Read j l) tr \/ In (Wrote j l) tr \/ In (Locked j l) tr.

(* Two accesses of different workers to the same cell, nothing in between,
   the first a write. *)
Definition clash (tr : list Event) (i j l : nat) : Prop :=
  i <> j /\ exists a b, tr = (a ++ Wrote i l :: Read j l :: b)%list.
(* The same, the write made with the lock held. *)
Definition clash_locked (tr : list Event) (i j l : nat) : Prop :=
  i <> j /\ exists a b, tr = (a ++ Locked i l :: Read j l :: b)%list.

(* The next thing m does is one of the three assignments of
   machineset_util.go:145, 190, 199. *)
Definition copies_template (w : World) (m : Move) : Prop :=
  exists i c p r, m = Work i c /\ kont w i = Do p :: r /\ copy_statement p = true.

(* The fields of a machine these assignments are about. *)
Definition template_field (f : string) : bool :=
  prefix "Spec.NodeTemplateSpec." f || String.eqb f "Spec.MachineConfiguration"
  || String.eqb f "Spec.Class.Kind".
