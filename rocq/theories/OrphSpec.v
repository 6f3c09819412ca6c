(** Specification of the safety pass. *)
Require Import Coq.ZArith.ZArith Coq.Lists.List Coq.Strings.String Coq.Bool.Bool.
From Verif Require Import WakeModel WakeSpec OrphModel.
Import ListNotations.
Open Scope string_scope.
Open Scope list_scope.

(** The first entry of a key. *)
Definition holds (d : list (string * string)) (k v : string) : Prop :=
  exists l1 l2, d = l1 ++ (k, v) :: l2 /\ forall v', ~ In (k, v') l1.
Definition lacks (d : list (string * string)) (k : string) : Prop := forall v, ~ In (k, v) d.
(** The last entry of a key. *)
Definition holdsLast (d : list (string * string)) (k v : string) : Prop :=
  exists l1 l2, d = l1 ++ (k, v) :: l2 /\ forall v', ~ In (k, v') l2.

(** A listed VM is orphaned: there is no machine of its name, or that machine has another
    provider ID and is past creation. *)
Definition orphaned (m : option OM) (id : string) : Prop :=
  match m with
  | None => True
  | Some x => om_pid x <> id /\ om_phase x <> "" /\ om_phase x <> "CrashLoopBackOff"
  end.

(** The secrets of a class can be read (found or not). *)
Definition readable (c : Cls) : Prop := cl_secret c <> Some SecErr /\ cl_creds c <> Some SecErr.

(** No machine runs on the node; exactly one does. *)
Definition nobodyOn (machines : list WM) (node : string) : Prop := forall m, In m machines -> ~ runsOn m node.

Definition unmanagedKey : string := "node.machine.sapcloud.io/not-managed-by-mcm".

(** The annotations of the node after the calls. *)
Definition written (calls : list OCall) (n : ONode) (a : list (string * string)) : Prop :=
  In (UpdateNode (on_name n) a) calls \/ (a = on_annots n /\ forall a', ~ In (UpdateNode (on_name n) a') calls).

(** Same annotations but for one key. *)
Definition sameBut (k : string) (a b : list (string * string)) : Prop := forall k' v, k' <> k -> (holds a k' v <-> holds b k' v).
