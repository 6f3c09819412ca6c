(** How a MachineSet makes machines from its template.
    Models pkg/controller/controller_utils.go 453-470 and 497-599 and machineset.go 376-409. *)
Require Import Coq.ZArith.ZArith Coq.NArith.NArith Coq.Lists.List Coq.Strings.String Coq.Strings.Ascii Coq.Bool.Bool Coq.Arith.PeanoNat.
From Verif Require Import MetaModel TmplModel OwnModel MSetModel.
Import ListNotations.
Open Scope string_scope.
Open Scope list_scope.

(** metav1.OwnerReference; flags are pointers. Used at controller_utils.go 453-470. *)
Record Ref := mkRef { r_api : string; r_kind : string; r_name : string; r_uid : nat; r_ctrl : option bool; r_block : option bool }.

(** A pointer to true. controller_utils.go 463-468. *)
Definition yes (b : option bool) : bool := match b with Some true => true | _ => false end.

(** controller_utils.go 453-470 validateControllerRef; [true]: no error. *)
Definition validateControllerRef (r : option Ref) : bool :=
  match r with
  | None => false
  | Some r => negb (String.eqb (r_api r) "") && negb (String.eqb (r_kind r) "") && yes (r_ctrl r) && yes (r_block r)
  end.

(** metav1.LabelSelectorRequirement (k8s.io/apimachinery, external); other operators are refused
    when the selector is converted (machineset.go 502-506). *)
Inductive Expr := In_ (k : string) (vs : list string) | NotIn_ (k : string) (vs : list string) | Exists_ (k : string) | DoesNotExist_ (k : string).

(** labels.Requirement.Matches (k8s.io/apimachinery, external; used at controller_ref_manager.go 83). *)
Definition exprMatches (l : Map) (e : Expr) : bool :=
  match e with
  | In_ k vs => match get k l with Some v => existsb (String.eqb v) vs | None => false end
  | NotIn_ k vs => match get k l with Some v => negb (existsb (String.eqb v) vs) | None => true end
  | Exists_ k => match get k l with Some _ => true | None => false end
  | DoesNotExist_ k => match get k l with Some _ => false | None => true end
  end.

(** metav1.LabelSelectorAsSelector(s).Matches (external; machineset.go 502, controller_ref_manager.go 83). *)
Definition selects (sel : Map) (es : list Expr) (l : Map) : bool :=
  forallb (fun '(k, v) => match get k l with Some x => String.eqb x v | None => false end) sel && forallb (exprMatches l) es.

(** What making a machine reads of the MachineSet: name, uid, template, its finalizers, selector.
    pkg/apis/machine/v1alpha1/machineset_types.go 25-70. *)
Record MkSet := mkSet { k_name : string; k_uid : nat; k_replicas : Z; k_tmpl : Template; k_fins : list string; k_labels : Map; k_exprs : list Expr }.

(** The machine sent to the API server; its status is empty. controller_utils.go 553-569. *)
Record NewMach := mkNM {
  n_gen : string; n_labels : Map; n_annots : Map; n_fins : list string; n_owners : list Ref;
  n_group : string; n_kind : string; n_class : string; n_provider : string; n_node : string; n_conf : string }.

(** A map filled in a range loop. controller_utils.go 500-502 and 515-517. *)
Definition copyMap (m : Map) : Map := fold_right (fun '(k, v) acc => put k v acc) [] m.

(** controller_utils.go 498-504 getMachinesLabelSet. *)
Definition getMachinesLabelSet (t : Template) : Map := copyMap (t_labels t).
(** controller_utils.go 512-518 getMachinesAnnotationSet. *)
Definition getMachinesAnnotationSet (t : Template) : Map := copyMap (t_annotations t).
(** controller_utils.go 506-510 getMachinesFinalizers. *)
Definition getMachinesFinalizers (fins : list string) : list string := fins.

(** controller_utils.go 520-527 getMachinesPrefix; [valid] is NameIsDNSSubdomain (external). *)
Definition getMachinesPrefix (valid : string -> bool) (name : string) : string :=
  if valid (name ++ "-")%string then (name ++ "-")%string else name.

(** controller_utils.go 538-572 GetMachineFromTemplate; the accessor does not fail on a MachineSet. *)
Definition GetMachineFromTemplate (valid : string -> bool) (t : Template) (fins : list string) (parent : string) (r : option Ref) : NewMach :=
  mkNM (getMachinesPrefix valid parent) (getMachinesLabelSet t) (getMachinesAnnotationSet t) (getMachinesFinalizers fins)
       (match r with Some r => [r] | None => [] end)
       (t_group t) (t_kind t) (t_class t) (t_provider t) (t_node t) (t_conf t).

(** How the creation ends; ECall: the API server refused. controller_utils.go 579-599. *)
Inductive Made := MMade (m : NewMach) | EBadRef | ENoLabels | ECall.

(** controller_utils.go 579-599 createMachines; [ok]: the API server stores it. *)
Definition createMachines (valid : string -> bool) (ok : bool) (t : Template) (fins : list string) (parent : string) (r : option Ref) : Made :=
  let m := GetMachineFromTemplate valid t fins parent r in
  match n_labels m with [] => ENoLabels | _ => if ok then MMade m else ECall end.

(** controller_utils.go 530-535 CreateMachinesWithControllerRef. *)
Definition CreateMachinesWithControllerRef (valid : string -> bool) (ok : bool) (t : Template) (fins : list string) (parent : string) (r : option Ref) : Made :=
  if validateControllerRef r then createMachines valid ok t fins parent r else EBadRef.

(** machineset.go 386-395: one call of a batch. *)
Definition createOne (valid : string -> bool) (ok : bool) (s : MkSet) : Made :=
  CreateMachinesWithControllerRef valid ok (k_tmpl s) (k_fins s) (k_name s)
    (Some (mkRef "machine.sapcloud.io/v1alpha1" "MachineSet" (k_name s) (k_uid s) (Some true) (Some true))).

(** The name that the API server gives: the prefix cut at 58 characters and five random ones
    (k8s.io/apiserver/pkg/storage/names, external; asked for at controller_utils.go 557). *)
Definition generated (prefix suffix : string) : string := (substring 0 58 prefix ++ suffix)%string.

(** The stored machine as the claiming of machines sees it (controller_ref_manager.go 75-131). *)
Definition asObj (id uid : nat) (m : NewMach) : Obj :=
  mkObj id uid (map (fun r => mkOwner (r_uid r) (yes (r_ctrl r))) (n_owners m)) (n_labels m) false.

(** The stored machine as the counting of machines sees it (machineset.go 341-347); no phase yet. *)
Definition asMach (id : nat) (now : Z) (m : NewMach) : Mach :=
  mkMach id (read "machinepriority.machine.sapcloud.io" (n_annots m)) (read "node.machine.sapcloud.io/trigger-deletion-by-mcm" (n_annots m)) "" now false.

(** controller_ref_manager.go 76-97 for an object with a controller: whether it is claimed. *)
Definition claimOwned (s : MkSet) (o : Obj) : bool :=
  match GetControllerOf o with Some u => Nat.eqb u (k_uid s) && selects (k_labels s) (k_exprs s) (o_labels o) | None => false end.

(** deployment_sync.go 285-320 with labels.go 30-42 and 75-110: the set made for a deployment, with
    the expressions of its selector. *)
Definition setOf (hash : Template -> option N -> N) (d : Deploy) (fins : list string) (es : list Expr) (uid : nat) (n : Z) : MkSet :=
  let s := newSet hash d n "" 0 in
  mkSet (s_name s) uid n (s_template s) fins (s_selector s) es.
