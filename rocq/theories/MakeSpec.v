(** Making machines (C98): notions of the statements, apart from the model's helpers. *)
Require Import Coq.ZArith.ZArith Coq.Lists.List Coq.Strings.String Coq.Strings.Ascii Coq.Bool.Bool Coq.Arith.PeanoNat.
From Verif Require Import MetaModel TmplModel OwnModel MSetModel MakeModel.
Import ListNotations.
Open Scope string_scope.
Open Scope list_scope.

(* Two maps with the same entries. *)
Definition sameEntries (a b : Map) : Prop := forall k, get k a = get k b.

(* The machine is what the template of the set says, and the set is its only owner. *)
Definition fromTemplate (s : MkSet) (m : NewMach) : Prop :=
  sameEntries (n_labels m) (t_labels (k_tmpl s)) /\ sameEntries (n_annots m) (t_annotations (k_tmpl s)) /\ n_fins m = k_fins s /\
  n_group m = t_group (k_tmpl s) /\ n_kind m = t_kind (k_tmpl s) /\ n_class m = t_class (k_tmpl s) /\
  n_provider m = t_provider (k_tmpl s) /\ n_node m = t_node (k_tmpl s) /\ n_conf m = t_conf (k_tmpl s) /\
  exists r, n_owners m = [r] /\ r_kind r = "MachineSet" /\ r_name r = k_name s /\ r_uid r = k_uid s /\ r_ctrl r = Some true /\ r_block r = Some true.

(* What an expression of a selector asks of labels. *)
Definition holds (l : Map) (e : Expr) : Prop :=
  match e with
  | In_ k vs => exists v, get k l = Some v /\ In v vs
  | NotIn_ k vs => forall v, get k l = Some v -> ~ In v vs
  | Exists_ k => get k l <> None
  | DoesNotExist_ k => get k l = None
  end.

(* The template satisfies the selector. *)
Definition fits (s : MkSet) : Prop :=
  (forall k v, In (k, v) (k_labels s) -> get k (t_labels (k_tmpl s)) = Some v) /\ (forall e, In e (k_exprs s) -> holds (t_labels (k_tmpl s)) e).

(* The annotations with which a machine asks to be deleted. *)
Definition asksDeletion (a : Map) : Prop :=
  get "machinepriority.machine.sapcloud.io" a = Some "1" \/ get "node.machine.sapcloud.io/trigger-deletion-by-mcm" a = Some "true".

(* A DNS subdomain: labels of letters, digits and inner dashes, separated by dots. *)
Inductive alnum : ascii -> Prop :=
| a_low : forall c, (97 <= nat_of_ascii c <= 122)%nat -> alnum c
| a_num : forall c, (48 <= nat_of_ascii c <= 57)%nat -> alnum c.

(* What a text ends with: the beginning of a label, a letter or digit, or a dash. *)
Inductive At := Begin | Mid | Dash.
(* Texts that lead from one such place to another. *)
Inductive leads : At -> string -> At -> Prop :=
| l_nil : forall a, leads a EmptyString a
| l_char : forall a c s b, alnum c -> leads Mid s b -> leads a (String c s) b
| l_dash : forall a s b, a <> Begin -> leads Dash s b -> leads a (String "-" s) b
| l_dot : forall s b, leads Begin s b -> leads Mid (String "." s) b.
Definition subdomain (s : string) : Prop := leads Begin s Mid.
Definition suffix5 (s : string) : Prop := String.length s = 5%nat /\ forall i c, String.get i s = Some c -> alnum c.
