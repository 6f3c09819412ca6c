(* Model of how a machine's node template is copied to its Node object:
   annotations, labels and taints, with the record of what was applied before.
   Source: pkg/util/provider/machinecontroller/machine_util.go 268-499. *)
Require Import List String Bool Arith.
Import ListNotations.
Open Scope string_scope.
Open Scope list_scope.

(* A Go map[string]string.  The list order is the order in which a range loop
   happens to visit the entries; the theorems hold for every order.  A nil map
   and an empty one are told apart only where the code does (nodeAnnotations).
   machine_util.go 268-499. *)
Definition Map := list (string * string).

(* m[k] with its "exists" flag (machine_util.go 371, 379, 410, 418). *)
Fixpoint get (k : string) (m : Map) : option string :=
  match m with
  | [] => None
  | (k', v) :: m' => if String.eqb k k' then Some v else get k m'
  end.

(* delete(m, k) (machine_util.go 372, 411). *)
Definition del (k : string) (m : Map) : Map :=
  filter (fun kv => negb (String.eqb k (fst kv))) m.

(* m[k] = v (machine_util.go 380, 419). *)
Definition put (k v : string) (m : Map) : Map := (k, v) :: del k m.

(* machine_util.go 369-375 and 408-414: keys applied earlier that the template
   no longer has are deleted; the flag is raised even if the node lacks them. *)
Fixpoint dropStale (last m n : Map) (changed : bool) : Map * bool :=
  match last with
  | [] => (n, changed)
  | (k, _) :: last' =>
      match get k m with
      | Some _ => dropStale last' m n changed
      | None => dropStale last' m (del k n) true
      end
  end.

(* machine_util.go 377-383 and 416-422. *)
Fixpoint putAll (m n : Map) (changed : bool) : Map * bool :=
  match m with
  | [] => (n, changed)
  | (k, v) :: m' =>
      match get k n with
      | Some v' => if String.eqb v v' then putAll m' n changed
                   else putAll m' (put k v n) true
      | None => putAll m' (put k v n) true
      end
  end.

(* SyncMachineAnnotations (machine_util.go 349-386) and SyncMachineLabels
   (388-425); the two bodies are the same. [m] is the template's map, [last] the
   one recorded as applied earlier, [n] the node's. *)
Definition syncMap (m last n : Map) : Map * bool :=
  let '(n1, c1) := dropStale last m n false in
  putAll m n1 c1.

(* v1.Taint (k8s.io/api/core/v1); taintKeyEffect is its key and effect
   (machine_util.go 427-432). TimeAdded is a pointer: [None] is nil, [Some t] an
   object holding time t. *)
Record Taint := mkTaint {
  tKey : string;
  tValue : string;
  tEffect : string;
  tTime : option nat
}.

(* Two taints have the same taintKeyEffect (machine_util.go 450-453, 458-461). *)
Definition sameKE (a b : Taint) : bool :=
  String.eqb (tKey a) (tKey b) && String.eqb (tEffect a) (tEffect b).

(* *nV != *mV (machine_util.go 481), negated: Go compares the struct fields, and
   TimeAdded as a pointer.  The two taints come from two different decoded
   objects, so two non-nil pointers are never equal. *)
Definition structEq (a b : Taint) : bool :=
  String.eqb (tKey a) (tKey b) && String.eqb (tValue a) (tValue b)
  && String.eqb (tEffect a) (tEffect b)
  && match tTime a, tTime b with None, None => true | _, _ => false end.

(* A map[taintKeyEffect]*v1.Taint as the list of its values. *)
Definition TMap := list Taint.

(* taintsMap[ke] with ke that of [t]. machine_util.go 436-499. *)
Definition tget (t : Taint) (m : TMap) : option Taint := find (sameKE t) m.

(* delete(taintsMap, ke) (machine_util.go 474). *)
Definition tdel (t : Taint) (m : TMap) : TMap := filter (fun x => negb (sameKE t x)) m.

(* taintsMap[ke] = t (machine_util.go 454, 462, 482). *)
Definition tput (t : Taint) (m : TMap) : TMap := t :: tdel t m.

(* The slice made into a map: a later taint with the same key and effect
   replaces an earlier one (machine_util.go 446-463). *)
Definition toMap (l : list Taint) : TMap := fold_left (fun m t => tput t m) l [].

(* machine_util.go 465-477. *)
Fixpoint dropStaleTaints (last : list Taint) (m n : TMap) (changed : bool) : TMap * bool :=
  match last with
  | [] => (n, changed)
  | t :: last' =>
      match tget t m with
      | Some _ => dropStaleTaints last' m n changed
      | None => dropStaleTaints last' m (tdel t n) true
      end
  end.

(* machine_util.go 479-485. *)
Fixpoint putTaints (m n : TMap) (changed : bool) : TMap * bool :=
  match m with
  | [] => (n, changed)
  | t :: m' =>
      match tget t n with
      | Some x => if structEq x t then putTaints m' n changed
                  else putTaints m' (tput t n) true
      | None => putTaints m' (tput t n) true
      end
  end.

(* SyncMachineTaints (machine_util.go 434-499).  The slice written back is the
   map's values; Go's order is random there, so theorems speak of membership
   only. *)
Definition syncTaints (m last n : list Taint) : list Taint * bool :=
  let mm := toMap m in
  let '(n1, c1) := dropStaleTaints last mm (toMap n) false in
  let '(n2, c2) := putTaints mm n1 c1 in
  if c2 then (n2, true) else (n, false).

(* v1alpha1.NodeTemplateSpec (pkg/apis/machine/v1alpha1/machine_types.go 80-91): the
   three parts that are synced. *)
Record Template := mkTemplate {
  tpAnnotations : Map;
  tpLabels : Map;
  tpTaints : list Taint
}.

(* The parts of a v1.Node involved; [None] annotations is the nil map. *)
Record Node := mkNode {
  nAnnotations : option Map;
  nLabels : Map;
  nTaints : list Taint
}.

(* machineutils.LastAppliedALTAnnotation (pkg/util/provider/machineutils/utils.go 41-42). *)
Definition LastApplied : string := "node.machine.sapcloud.io/last-applied-anno-labels-taints".

(* What syncMachineNodeTemplates does with the node. machine_util.go 271-347. *)
Inductive SyncResult :=
| BadRecord                  (* the record is not JSON of a template: error, no write (300-303) *)
| NoWrite                    (* nothing to do (346) *)
| Write (n : Node).          (* Nodes().Update with this object (331) *)

(* The empty template, lastAppliedALT before decoding (machine_util.go 275). *)
Definition noTemplate : Template := mkTemplate [] [] [].

(* syncMachineNodeTemplates (machine_util.go 271-347), from the node the lister
   returned (a missing node ends the function at 280-283).  [enc]/[dec] are
   json.Marshal / json.Unmarshal of a NodeTemplateSpec. *)
Definition syncNode (enc : Template -> string) (dec : string -> option Template)
    (tp : Template) (n : Node) : SyncResult :=
  let init := match nAnnotations n with None => true | Some _ => false end in
  let annos := match nAnnotations n with None => [] | Some a => a end in
  let lastOrErr :=
    match get LastApplied annos with
    | None => Some noTemplate
    | Some s => dec s
    end in
  match lastOrErr with
  | None => BadRecord
  | Some last =>
      let '(a, ca) := syncMap (tpAnnotations tp) (tpAnnotations last) annos in
      let '(l, cl) := syncMap (tpLabels tp) (tpLabels last) (nLabels n) in
      let '(t, ct) := syncTaints (tpTaints tp) (tpTaints last) (nTaints n) in
      if init || cl || ca || ct
      then Write (mkNode (Some (put LastApplied (enc tp) a)) l t)
      else NoWrite
  end.

(* The node after the call when the API server accepts the update, or when
   nothing was written (machine_util.go 331-346). *)
Definition after (r : SyncResult) (n : Node) : Node :=
  match r with Write n' => n' | _ => n end.
