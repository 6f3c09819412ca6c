(* Model of how a MachineDeployment recognises, creates and rolls back to the MachineSet of
   a template: pkg/controller/deployment_util.go 836-901 and 944-951, deployment_sync.go
   285-398, deployment_rollback.go 95-123, controller_utils.go 807-818 and 882-899,
   pkg/util/labels/labels.go 29-129. *)
Require Import Coq.ZArith.ZArith Coq.NArith.NArith Coq.Lists.List Coq.Strings.String Coq.Strings.Ascii Coq.Bool.Bool Coq.Arith.Arith.
Require Import Coq.Numbers.DecimalString.
From Verif Require Import Sort MetaModel.
Import ListNotations.
Open Scope string_scope.
Open Scope list_scope.
Open Scope Z_scope.

(* v1alpha1.DefaultMachineDeploymentUniqueLabelKey (pkg/apis/machine/v1alpha1/machinedeployment_types.go 97-100). *)
Notation hashKey := "machine-template-hash" (only parsing).

(* MachineTemplateSpec (pkg/apis/machine/v1alpha1/shared_types.go 16-27, machine_types.go
   51-80). A nil map is an empty one: EqualIgnoreHash does not tell them apart (846-855 range
   over labels; Semantic.DeepEqual treats nil and empty alike). Simplified: the other fields of
   the metadata, the node template and the configuration are opaque texts. *)
Record Template := mkT {
  t_labels : Map;
  t_annotations : Map;
  t_meta : string;      (* other metadata: name, namespace, … *)
  t_group : string;     (* spec.class.apiGroup *)
  t_kind : string;      (* spec.class.kind *)
  t_class : string;     (* spec.class.name *)
  t_provider : string;  (* spec.providerID *)
  t_node : string;      (* spec.nodeTemplate *)
  t_conf : string       (* spec.MachineConfiguration *)
}.

(* Semantic.DeepEqual of two maps (used at deployment_util.go 861). *)
Definition sameMap (a b : Map) : bool :=
  Nat.eqb (List.length a) (List.length b) &&
  forallb (fun '(k, v) => match get k b with Some w => String.eqb v w | None => false end) a.

(* m[k] without the flag: the empty string if there is none (deployment_util.go 850). *)
Definition read (k : string) (m : Map) : string := match get k m with Some v => v | None => "" end.

(* deployment_util.go 849-853: every label of the second map but the hash is in the first. *)
Definition covers (l1 l2 : Map) : bool :=
  forallb (fun '(k, v) => String.eqb (read k l1) v || String.eqb k hashKey) l2.

(* deployment_util.go 840-862 EqualIgnoreHash. *)
Definition EqualIgnoreHash (t1 t2 : Template) : bool :=
  let '(l1, l2) := if Nat.ltb (List.length (t_labels t2)) (List.length (t_labels t1))
                   then (t_labels t2, t_labels t1) else (t_labels t1, t_labels t2) in
  covers l1 l2 &&
  (sameMap (t_annotations t1) (t_annotations t2) && String.eqb (t_meta t1) (t_meta t2) &&
   String.eqb (t_group t1) (t_group t2) && String.eqb (t_class t1) (t_class t2) && String.eqb (t_provider t1) (t_provider t2)).

(* MachineSet: what the functions below read (pkg/apis/machine/v1alpha1/machineset_types.go). *)
Record TSet := mkS {
  s_uid : string;
  s_name : string;
  s_ctime : Z;
  s_owner : option string;   (* UID of the controller reference *)
  s_replicas : Z;
  s_labels : Map;
  s_selector : Map;          (* spec.selector.matchLabels *)
  s_template : Template
}.

(* controller_utils.go 813-818 MachineSetsByCreationTimestamp.Less, made reflexive. *)
Definition byAge (a b : TSet) : bool :=
  (s_ctime a <? s_ctime b) || ((s_ctime a =? s_ctime b) && String.leb (s_name a) (s_name b)).

(* deployment_util.go 864-877 FindNewMachineSet. *)
Definition FindNewMachineSet (t : Template) (l : list TSet) : option TSet :=
  find (fun s => EqualIgnoreHash (s_template s) t) (isort byAge l).

(* deployment_util.go 881-896 FindOldMachineSets: those with replicas, and all. The list was
   sorted in place by FindNewMachineSet. *)
Definition FindOldMachineSets (t : Template) (l : list TSet) : list TSet * list TSet :=
  let olds := match FindNewMachineSet t l with
              | Some n => filter (fun s => negb (String.eqb (s_uid s) (s_uid n))) (isort byAge l)
              | None => isort byAge l
              end in
  (filter (fun s => negb (s_replicas s =? 0)) olds, olds).

(* labels.go 30-42 CloneAndAddLabel, and 86-91 for the selector, with a key that is not empty. *)
Definition withLabel (m : Map) (k v : string) : Map := put k v m.

(* deployment_util.go 949-956 SetFromMachineSetTemplate; labels.go 46-58 CloneAndRemoveLabel. *)
Definition SetFromMachineSetTemplate (t : Template) : Template :=
  mkT (del hashKey (t_labels t)) (t_annotations t) (t_meta t) (t_group t) (t_kind t) (t_class t) (t_provider t) (t_node t) (t_conf t).

(* deployment_rollback.go 98-123 rollbackToTemplate: whether a rollback is performed, and the
   template of the MachineDeployment afterwards. Not modelled: annotations, events, the write. *)
Definition rollbackToTemplate (d is : Template) : bool * Template :=
  if EqualIgnoreHash d is then (false, d) else (true, SetFromMachineSetTemplate is).

(* fmt.Sprintf("%d", …) of the hash (deployment_sync.go 291). *)
Definition decimal (n : N) : string := NilZero.string_of_uint (N.to_uint n).

(* rand.SafeEncodeString (k8s.io/apimachinery/pkg/util/rand, external; deployment_sync.go 297):
   each byte is mapped to one of 27 letters and digits. *)
Definition alphanums : string := "bcdfghjklmnpqrstvwxz2456789".
(** rand.SafeEncodeString, one byte (external; deployment_sync.go 297). *)
Definition safeChar (a : ascii) : ascii :=
  match String.get (nat_of_ascii a mod 27) alphanums with Some c => c | None => zero end.
(** rand.SafeEncodeString (external; deployment_sync.go 297). *)
Fixpoint safeEncode (s : string) : string :=
  match s with EmptyString => EmptyString | String a r => String (safeChar a) (safeEncode r) end.

(* deployment_sync.go 296-307: the name of a new MachineSet; the encoded hash is cut at five. *)
Definition setName (deployment : string) (hash : N) : string :=
  (deployment ++ "-" ++ substring 0 5 (safeEncode (decimal hash)))%string.

(* MachineDeployment: what creating a MachineSet reads (deployment_sync.go 285-325); the
   collision count is status.collisionCount, nil at first. *)
Record Deploy := mkD { d_uid : string; d_name : string; d_selector : Map; d_template : Template; d_collisions : option N }.

(* deployment_sync.go 290-326: the MachineSet sent to the API server. [hash] stands for
   ComputeHash (controller_utils.go 883-899), [n] for NewISNewReplicas, uid and time are given
   by the API server. *)
Definition newSet (hash : Template -> option N -> N) (d : Deploy) (n : Z) (uid : string) (now : Z) : TSet :=
  let h := hash (d_template d) (d_collisions d) in
  let t := d_template d in
  let labels := withLabel (t_labels t) hashKey (decimal h) in
  mkS uid (setName (d_name d) h) now (Some (d_uid d)) n labels (withLabel (d_selector d) hashKey (decimal h))
      (mkT labels (t_annotations t) (t_meta t) (t_group t) (t_kind t) (t_class t) (t_provider t) (t_node t) (t_conf t)).

(* How creating the MachineSet ends (deployment_sync.go 332-380). *)
Inductive CRes :=
| CCreated (s : TSet)
| CPassed (s : TSet)       (* a set of that name is taken for the new one (349-354) *)
| CCollision               (* counted, to be tried again (358-371) *)
| CError.                  (* another error, nothing counted *)

(* What the world does during one attempt: whether the name is taken and the create succeeds,
   what the lister has under that name, and whether the status update (366) goes through. *)
Record CEnv := mkC { c_exists : bool; c_fails : bool; c_lister : option TSet; c_status : bool }.

(* deployment_sync.go 285-380: one attempt. *)
Definition attempt (hash : Template -> option N -> N) (e : CEnv) (d : Deploy) (n : Z) (uid : string) (now : Z) : CRes * Deploy :=
  let s := newSet hash d n uid now in
  if c_exists e then
    match c_lister e with
    | None => (CError, d)
    | Some is =>
        if (match s_owner is with Some u => String.eqb u (d_uid d) | None => false end) && EqualIgnoreHash (d_template d) (s_template is)
        then (CPassed is, d)
        else (CCollision,
              if c_status e then mkD (d_uid d) (d_name d) (d_selector d) (d_template d)
                                     (Some (N.succ (match d_collisions d with Some c => c | None => 0%N end)))
              else d)
    end
  else if c_fails e then (CError, d) else (CCreated s, d).

(* Attempts with a store of MachineSets that the lister shows as it is, and status updates that
   go through: the attempts made until one does not end in a collision.
    deployment_sync.go 235-400, called again and again. *)
Fixpoint attempts (fuel : nat) (hash : Template -> option N -> N) (store : list TSet) (d : Deploy) (n : Z) (uid : string) (now : Z) : CRes * Deploy :=
  match fuel with
  | O => (CError, d)
  | S f =>
      let name := setName (d_name d) (hash (d_template d) (d_collisions d)) in
      let found := find (fun s => String.eqb (s_name s) name) store in
      match attempt hash (mkC (match found with Some _ => true | None => false end) false found true) d n uid now with
      | (CCollision, d') => attempts f hash store d' n uid now
      | r => r
      end
  end.
