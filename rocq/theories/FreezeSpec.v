(** Vocabulary of the freeze properties. *)
Require Import Coq.ZArith.ZArith Coq.Lists.List Coq.Strings.String Coq.Bool.Bool.
From Verif Require Import Types FreezeModel OwnSpec.
Import ListNotations.
Open Scope string_scope.
Open Scope list_scope.
Open Scope Z_scope.

(** The elements of a list with a property are [n]. *)
Inductive counted {A} (P : A -> Prop) : list A -> Z -> Prop :=
| counted_nil : counted P [] 0
| counted_yes : forall a l n, P a -> counted P l n -> counted P (a :: l) (n + 1)
| counted_no : forall a l n, ~ P a -> counted P l n -> counted P (a :: l) n.

(** The machine counts for the set: it carries the labels of the set's template and
    an owner reference with the set's name. *)
Definition backs (s : FSet) (m : FMachine) : Prop := matches (f_tmpl s) (fm_labels m) /\ In (f_name s) (fm_owners m).

(** No machine refers to the same owner name twice. *)
Definition single_refs (l : list FMachine) : Prop := Forall (fun m => NoDup (fm_owners m)) l.

(** The set carries the label. *)
Definition labelled (s : FSet) (k v : string) : Prop :=
  match f_freeze s with
  | Some x => (k = "freeze" /\ v = x) \/ (k <> "freeze" /\ has_label (f_labels s) k v)
  | None => has_label (f_labels s) k v
  end.
Definition selects (d : FDep) (s : FSet) : Prop := d_sel d <> [] /\ forall k v, In (k, v) (d_sel d) -> labelled s k v.

(** The first deployment of the list selecting the set. *)
Definition parent (deps : list FDep) (s : FSet) (d : FDep) : Prop :=
  exists l1 l2, deps = l1 ++ d :: l2 /\ selects d s /\ forall d', In d' l1 -> ~ selects d' s.
Definition parentless (deps : list FDep) (s : FSet) : Prop := forall d, In d deps -> ~ selects d s.

(** maxSurge of a deployment of size [r], percentages rounded up. *)
Definition surge (x : IntOrString) (r n : Z) : Prop :=
  match x with
  | IOSInt z => n = z
  | IOSPercent p => 100 * (n - 1) < p * r <= 100 * n
  | IOSBad => False
  end.

(** The upper limit of a set: twice its size and the allowance, or, below a
    deployment, the size of the deployment, its surge and the allowance. *)
Definition upper (up : Z) (deps : list FDep) (s : FSet) (z : Z) : Prop :=
  (parentless deps s /\ z = 2 * f_replicas s + up) \/
  (exists d x n, parent deps s d /\ d_surge d = Some (Some x) /\ surge x (d_replicas d) n /\ z = d_replicas d + n + up).

Definition marked (o : option string) : Prop := o = Some "True".

(** Deployments do not select by the freeze label itself. *)
Definition label_free (deps : list FDep) : Prop := forall d v, In d deps -> ~ In ("freeze", v) (d_sel d).

(** The freeze state of the set is what the count asks for. *)
Definition settled (up down : Z) (deps : list FDep) (machines : list FMachine) (s : FSet) : Prop :=
  forall z n, upper up deps s z -> counted (backs s) machines n ->
    (z <= n -> marked (f_freeze s)) /\ (n <= z - down -> ~ marked (f_freeze s) /\ f_cond s = false).
