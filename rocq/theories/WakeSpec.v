(** Specification of the events of the machine controller. *)
Require Import Coq.Lists.List Coq.Strings.String Coq.Bool.Bool Coq.Arith.PeanoNat.
From Verif Require Import MachModel QueueModel QueueSpec WakeModel.
Import ListNotations.
Open Scope string_scope.
Open Scope list_scope.

(** The machine runs on the node. *)
Definition runsOn (m : WM) (node : string) : Prop := wm_node m = Some node.
(** It is the only one in the store that does. *)
Definition onlyOn (machines : list WM) (node : string) (m : WM) : Prop :=
  exists l1 l2, machines = l1 ++ m :: l2 /\ runsOn m node /\ forall m', In m' (l1 ++ l2) -> ~ runsOn m' node.

(** The status given for a type of condition: that of the last entry. *)
Definition says (l : list NCond) (t v : string) : Prop :=
  exists l1 c l2, l = l1 ++ c :: l2 /\ nc_type c = t /\ nc_status c = v /\ forall d, In d l2 -> nc_type d <> t.
(** Two lists of conditions give the same status to every type. *)
Definition agree (a b : list NCond) : Prop := forall t v, says a t v <-> says b t v.

(** The annotation of the node has this value (the first entry of the name). *)
Definition annotated (n : WN) (k v : string) : Prop :=
  exists l1 l2, wn_annots n = l1 ++ (k, v) :: l2 /\ forall v', ~ In (k, v') l1.
Definition managed (n : WN) : Prop := forall v, ~ In ("node.machine.sapcloud.io/not-managed-by-mcm", v) (wn_annots n).
Definition toBeDeleted (n : WN) : Prop := annotated n "node.machine.sapcloud.io/trigger-deletion-by-mcm" "true".

(** The taint for critical components comes or goes. *)
Definition taintFlips (old n : WN) : Prop :=
  let t := "node.gardener.cloud/critical-components-not-ready" in
  (In t (wn_taints old) /\ ~ In t (wn_taints n)) \/ (~ In t (wn_taints old) /\ In t (wn_taints n)).

(** A worker of the queue is busy with the key and will look at the machine, or did and will
    add the key again. *)
Definition busy (q : QW) (read : nat -> option (option WM)) (keep : WM -> Prop) (k : string) : Prop :=
  exists i, worksOn q i k /\ (read i = None \/ exists m, read i = Some (Some m) /\ keep m).
(** The key is in the queue, or will be added to it later. *)
Definition queued (q : QW) (k : string) : Prop := In k (q_dirty q) \/ In k (q_later q).

(** A note about a machine of this name that is under way: added, or changed in its
    generation. *)
Definition announced (w : WW) (k : string) (deleting : bool) : Prop :=
  exists m, wm_name m = k /\ wm_deleting m = deleting /\
    (In (NAdd m) (ww_notes w) \/ exists old, In (NUpd old m) (ww_notes w) /\ wm_gen old <> wm_gen m).

(** The API server raises the generation of an object when its deletion is requested; an
    object that replaces another one in the store unseen differs from it in the generation or
    is, like the other one, being deleted or not. *)
Definition orderly1 (w : WW) (op : WOp) : Prop :=
  match op with
  | WStore m => forall old, ww_cache w (wm_name m) = Some old -> wm_gen old = wm_gen m -> wm_deleting old = wm_deleting m
  | _ => True
  end.
Fixpoint orderly (w : WW) (ops : list WOp) : Prop :=
  match ops with [] => True | op :: r => orderly1 w op /\ orderly (wstep w op) r end.

(** Every note is delivered and every worker idle. *)
Definition quiet (w : WW) : Prop :=
  ww_notes w = [] /\ (forall i k, ~ worksOn (ww_mq w) i k) /\ (forall i k, ~ worksOn (ww_tq w) i k).
