(** Watch events of the machine controller, and how its two machine queues are fed.
    Models pkg/util/provider/machinecontroller/machine.go 38-169, 240-290 (only what is
    queued), 292-439, machineclass.go 25-38, machine_safety.go 303-331 and the registration
    in controller.go 145-192. Simplifications: a lister read by name fails only when the
    object is missing (it is a lookup in memory); keys are the names (one namespace); the
    log is left out; a store change and the note about it are one step, handing the note
    over to the handlers is another. *)
Require Import Coq.Lists.List Coq.Strings.String Coq.Bool.Bool Coq.Arith.PeanoNat.
From Verif Require Import MachModel HealthModel LifeModel QueueModel.
Import ListNotations.
Open Scope string_scope.
Open Scope list_scope.
Open Scope nat_scope.

(** What the handlers read of a machine: name, generation, deletion timestamp set, label
    "node", phase, recorded conditions, description of the last operation, kind and name of
    the class. machine.go 47, 63, 68, 325-327, machineclass.go 31-32, machine_safety.go 312. *)
Record WM := mkWM { wm_name : string; wm_gen : nat; wm_deleting : bool; wm_node : option string;
  wm_phase : string; wm_conds : list NCond; wm_desc : string; wm_kind : string; wm_class : string }.

(** What the handlers read of a node. machine.go 309, 327, 354, 422-428. *)
Record WN := mkWN { wn_name : string; wn_annots : list (string * string); wn_taints : list string; wn_conds : list NCond }.

(** pkg/util/provider/machineutils/utils.go 54. *)
Notation NotManagedByMCM := "node.machine.sapcloud.io/not-managed-by-mcm" (only parsing).
(** machineutils/utils.go 59. *)
Notation TriggerDeletionByMCM := "node.machine.sapcloud.io/trigger-deletion-by-mcm" (only parsing).
(** machineutils/utils.go 72, 98. *)
Definition EssentialTaints : list string := ["node.gardener.cloud/critical-components-not-ready"].

(** What handlers do: add a machine to one of the two queues (machine.go 101-124), ask the
    API server to delete a machine (358), start the pass for orphan VMs (machine_safety.go
    330), queue a class (machineclass.go 32), or panic. *)
Inductive WEff := QueueMachine (name : string) | QueueTermination (name : string) | DeleteCall (name : string)
| QueueOrphans | QueueClass (name : string) | Panics.

(** The annotation of a node. machine.go 309, 354. *)
Definition annot (k : string) (n : WN) : option string :=
  option_map snd (find (fun p => String.eqb (fst p) k) (wn_annots n)).

(** getMachineFromNode, machine.go 399-416: an error unless exactly one machine has the label. *)
Definition getMachineFromNode (machines : list WM) (node : string) : option WM :=
  match filter (fun m => match wm_node m with Some n => String.eqb n node | None => false end) machines with
  | [m] => Some m
  | _ => None
  end.

(** addNodeToMachine, machine.go 301-337. *)
Definition addNodeToMachine (machines : list WM) (n : WN) : list WEff :=
  match annot NotManagedByMCM n with
  | Some _ => []
  | None =>
      match getMachineFromNode machines (wn_name n) with
      | None => []
      | Some m =>
          if negb (String.eqb (wm_phase m) "CrashLoopBackOff") && negb (String.eqb (wm_phase m) "Terminating") &&
             nodeConditionsHaveChanged (wm_conds m) (wn_conds n)
          then [QueueMachine (wm_name m)] else []
      end
  end.

(** addedOrRemovedEssentialTaints, machine.go 418-439. *)
Definition addedOrRemovedEssentialTaints (old n : WN) (keys : list string) : bool :=
  existsb (fun k => xorb (hasKey k (wn_taints old)) (hasKey k (wn_taints n))) keys.

(** updateNodeToMachine, machine.go 339-373. [fails]: the answer to the Delete call (358).
    addNodeToMachine lists the machines again (318): [machines']. *)
Definition updateNodeToMachine (machines machines' : list WM) (fails : bool) (old n : WN) : list WEff :=
  match getMachineFromNode machines (wn_name n) with
  | None => []
  | Some m =>
      let trigger := match annot TriggerDeletionByMCM n with Some v => String.eqb v "true" | None => false end in
      let rest := if addedOrRemovedEssentialTaints old n EssentialTaints then [QueueMachine (wm_name m)]
                  else addNodeToMachine machines' n in
      if trigger && negb (wm_deleting m)
      then DeleteCall (wm_name m) :: (if fails then [] else rest)
      else rest
  end.

(** deleteNodeToMachine, machine.go 375-392; a tombstone has the key of its object. *)
Definition deleteNodeToMachine (machines : list WM) (node : string) : list WEff :=
  match getMachineFromNode machines node with
  | None => []
  | Some m => if wm_deleting m then [] else [QueueMachine (wm_name m)]
  end.

(** addMachine, machine.go 38-52. *)
Definition addMachine (m : WM) : list WEff :=
  [if wm_deleting m then QueueTermination (wm_name m) else QueueMachine (wm_name m)].

(** updateMachine, machine.go 54-73. *)
Definition updateMachine (old m : WM) : list WEff :=
  if Nat.eqb (wm_gen old) (wm_gen m) then [] else addMachine m.

(** What an informer hands to a delete handler (external): the object, a tombstone with the
    last known object, a tombstone with something else. machine.go 76-87. *)
Inductive Gone := GObj (m : WM) | GTomb (m : WM) | GOther.

(** deleteMachine, machine.go 75-89. *)
Definition deleteMachine (g : Gone) : list WEff :=
  match g with GObj m | GTomb m => [QueueTermination (wm_name m)] | GOther => [] end.

(** machineToMachineClassAdd, machineclass.go 25-34. *)
Definition machineToMachineClassAdd (m : WM) : list WEff :=
  if String.eqb (wm_kind m) "MachineClass" then [QueueClass (wm_class m)] else [].

(** machineToMachineClassDelete, machineclass.go 36-38: tombstones are dropped (27-30). *)
Definition machineToMachineClassDelete (g : Gone) : list WEff :=
  match g with GObj m => machineToMachineClassAdd m | _ => [] end.

(** updateMachineToSafety, machine_safety.go 303-316. *)
Definition updateMachineToSafety (old m : WM) : list WEff :=
  if negb (contains "OutOfRange" (wm_desc old)) && contains "OutOfRange" (wm_desc m) then [QueueOrphans] else [].

(** deleteMachineToSafety, machine_safety.go 319-326: the type assertion of 320 panics on
    anything but a machine. *)
Definition deleteMachineToSafety (g : Gone) : list WEff :=
  match g with GObj _ => [QueueOrphans] | _ => [Panics] end.

(** All handlers of a new machine, controller.go 157-160, 175-179. *)
Definition onAdd (m : WM) : list WEff := machineToMachineClassAdd m ++ addMachine m.
(** All handlers of a changed machine, controller.go 175-179, 187-192. *)
Definition onUpdate (old m : WM) : list WEff := updateMachine old m ++ updateMachineToSafety old m.
(** All handlers of a deleted machine, controller.go 157-160, 175-179, 187-192. *)
Definition onDelete (g : Gone) : list WEff :=
  machineToMachineClassDelete g ++ deleteMachine g ++ deleteMachineToSafety g.

(** ** The queues *)

(** A note of the informer about a change of its store, not yet handed to the handlers
    (external; controller.go 175-179). *)
Inductive Note := NAdd (m : WM) | NUpd (old m : WM) | NDel (g : Gone).

(** The effects of a note. controller.go 145-192. *)
Definition handle (n : Note) : list WEff :=
  match n with NAdd m => onAdd m | NUpd old m => onUpdate old m | NDel g => onDelete g end.

(** The store of the informer, its notes in order, the two queues with their workers, and
    what a worker at work read from the store (outer [None]: nothing yet). machine.go 136-169,
    240-290; controller.go 312-313. *)
Record WW := mkWW { ww_cache : string -> option WM; ww_notes : list Note;
  ww_mq : QW; ww_tq : QW; ww_mread : nat -> option (option WM); ww_tread : nat -> option (option WM) }.

(** What can happen next. Lines at each case, else external; machine.go 38-290, worker.go 35-67. *)
Inductive WOp :=
| WStore (m : WM)               (* the informer learns of an added or changed machine *)
| WDrop (k : string) (tomb : bool)  (* it learns that the machine is gone, by an event or from a list *)
| WDeliver                      (* the first note is handed to the handlers, controller.go 175-179 *)
| WWake (k : string)            (* other additions to the machine queue: machine.go 335, 368, 390, machineclass.go 128 *)
| WWakeT (k : string)           (* other additions to the termination queue: machineclass.go 140 *)
| WDueM (n : nat) | WDueT (n : nat)                    (* a delayed key becomes due *)
| WGetM (i : nat) | WReadM (i : nat) | WFinishM (i : nat)   (* machine.go 136-169 *)
| WGetT (i : nat) | WReadT (i : nat) | WFinishT (i : nat) (failed : bool).  (* machine.go 240-290 *)

(** Effects on the queues; what goes elsewhere is left out. machine.go 101-124. *)
Definition applyEff (q : QW * QW) (e : WEff) : QW * QW :=
  match e with
  | QueueMachine k => (add (fst q) k, snd q)
  | QueueTermination k => (fst q, add (snd q) k)
  | _ => q
  end.

(** Worker-local memory. machine.go 144, 248. *)
Definition setAt (f : nat -> option (option WM)) (i : nat) (v : option (option WM)) : nat -> option (option WM) :=
  fun j => if Nat.eqb i j then v else f j.

(** A worker is at work on a key. pkg/util/worker/worker.go 39-45. *)
Definition keyOf (q : QW) (i : nat) : option string :=
  match nth_error (q_workers q) i with Some (Some k) => Some k | _ => None end.

(** The end of reconcileClusterMachineKey, machine.go 145-168, 136-169: whether the key is
    added again later, given what was read. *)
Definition againM (r : option WM) : bool :=
  match r with None => false | Some m => negb (wm_deleting m) end.
(** The end of reconcileClusterMachineTermination, machine.go 249-289. *)
Definition againT (r : option WM) : bool := match r with None => false | Some _ => true end.

(** AddAfter, then the return to the worker. machine.go 166-168, 266-288. *)
Definition finish (q : QW) (i : nat) (k : string) (again failed : bool) : QW :=
  let q' := if again then qstep DefaultMaxRetries q (QLater k) else q in
  qstep DefaultMaxRetries q' (QFinish i failed).

(** One step. machine.go 38-290, worker.go 35-67; lines at each operation of [WOp]. *)
Definition wstep (w : WW) (op : WOp) : WW :=
  match op with
  | WStore m =>
      mkWW (fun k => if String.eqb k (wm_name m) then Some m else ww_cache w k)
        (ww_notes w ++ [match ww_cache w (wm_name m) with Some old => NUpd old m | None => NAdd m end])
        (ww_mq w) (ww_tq w) (ww_mread w) (ww_tread w)
  | WDrop k tomb =>
      match ww_cache w k with
      | None => w
      | Some m => mkWW (fun k' => if String.eqb k' k then None else ww_cache w k')
                    (ww_notes w ++ [NDel (if tomb then GTomb m else GObj m)]) (ww_mq w) (ww_tq w) (ww_mread w) (ww_tread w)
      end
  | WDeliver =>
      match ww_notes w with
      | [] => w
      | n :: r => let q := fold_left applyEff (handle n) (ww_mq w, ww_tq w) in
                  mkWW (ww_cache w) r (fst q) (snd q) (ww_mread w) (ww_tread w)
      end
  | WWake k => mkWW (ww_cache w) (ww_notes w) (add (ww_mq w) k) (ww_tq w) (ww_mread w) (ww_tread w)
  | WWakeT k => mkWW (ww_cache w) (ww_notes w) (ww_mq w) (add (ww_tq w) k) (ww_mread w) (ww_tread w)
  | WDueM n => mkWW (ww_cache w) (ww_notes w) (qstep DefaultMaxRetries (ww_mq w) (QDue n)) (ww_tq w) (ww_mread w) (ww_tread w)
  | WDueT n => mkWW (ww_cache w) (ww_notes w) (ww_mq w) (qstep DefaultMaxRetries (ww_tq w) (QDue n)) (ww_mread w) (ww_tread w)
  | WGetM i =>
      match keyOf (ww_mq w) i with
      | Some _ => w
      | None => mkWW (ww_cache w) (ww_notes w) (qstep DefaultMaxRetries (ww_mq w) (QGet i)) (ww_tq w) (setAt (ww_mread w) i None) (ww_tread w)
      end
  | WReadM i =>
      match keyOf (ww_mq w) i, ww_mread w i with
      | Some k, None => mkWW (ww_cache w) (ww_notes w) (ww_mq w) (ww_tq w) (setAt (ww_mread w) i (Some (ww_cache w k))) (ww_tread w)
      | _, _ => w
      end
  | WFinishM i =>
      match keyOf (ww_mq w) i, ww_mread w i with
      | Some k, Some r => mkWW (ww_cache w) (ww_notes w) (finish (ww_mq w) i k (againM r) false) (ww_tq w) (ww_mread w) (ww_tread w)
      | _, _ => w
      end
  | WGetT i =>
      match keyOf (ww_tq w) i with
      | Some _ => w
      | None => mkWW (ww_cache w) (ww_notes w) (ww_mq w) (qstep DefaultMaxRetries (ww_tq w) (QGet i)) (ww_mread w) (setAt (ww_tread w) i None)
      end
  | WReadT i =>
      match keyOf (ww_tq w) i, ww_tread w i with
      | Some k, None => mkWW (ww_cache w) (ww_notes w) (ww_mq w) (ww_tq w) (ww_mread w) (setAt (ww_tread w) i (Some (ww_cache w k)))
      | _, _ => w
      end
  | WFinishT i failed =>
      match keyOf (ww_tq w) i, ww_tread w i with
      | Some k, Some r => mkWW (ww_cache w) (ww_notes w) (ww_mq w) (finish (ww_tq w) i k (againT r) (failed && againT r)) (ww_mread w) (ww_tread w)
      | _, _ => w
      end
  end.

(** A history. machine.go 38-290, any interleaving. *)
Definition wrun (w : WW) (ops : list WOp) : WW := fold_left wstep ops w.
(** After the start, with [n] workers per queue. controller.go 91-97, 307-313. *)
Definition winit (n : nat) : WW := mkWW (fun _ => None) [] (qinit n) (qinit n) (fun _ => None) (fun _ => None).

(** ** Keys of classes *)

(** The keys under which one class is queued: by its own events and the repetition
    (machineclass.go 40-47, 193-199), and by events of machines (machineclass.go 31-33). *)
Definition classKeys (ns name : string) : list string := [(ns ++ "/" ++ name)%string; name].
(** The class a worker reads for a key: cache.SplitMetaNamespaceKey (external) keeps what
    follows the slash, machineclass.go 70-75. *)
Definition afterSlash (k : string) : string :=
  match String.index 0 "/" k with Some n => String.substring (S n) (String.length k - S n) k | None => k end.
