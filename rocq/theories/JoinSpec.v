(** Vocabulary of C109: passes of the machine queue over one machine, as LifeModel.v describes them. *)
Require Import Coq.ZArith.ZArith Coq.Lists.List Coq.Strings.String Coq.Bool.Bool.
From Verif Require Import CodesModel MachModel HealthModel LifeModel CreaSpec LiveSpec.
Import ListNotations.
Open Scope string_scope.
Open Scope list_scope.
Open Scope Z_scope.

(** A reconcile of the machine queue run to its end with these answers and no failing write. *)
Fixpoint execC (env : Call -> Reply) (p : prog) (w : World) : World :=
  match p with
  | Done | Panic => w
  | Do c k => let '(w', r) := perform w QC c (env c) Applied (w_vms w) in execC env (k r) w'
  end.
(** One pass at a given time, with a cache that shows what is stored. *)
Definition pass (cf : Cfg) (w : World) (r : Z * (Call -> Reply)) : World :=
  match w_obj w with
  | Some m => match mo_dt m with
              | None => execC (snd r) (reconcileMachine cf m) (onTime (fst r) w)
              | Some _ => onTime (fst r) w
              end
  | None => onTime (fst r) w
  end.
Definition passes (cf : Cfg) (w : World) (l : list (Z * (Call -> Reply))) : World := fold_left (pass cf) l w.

(** The answer of the node lister for a node with which a machine can work. *)
Definition joined (cf : Cfg) (a : NodeAns) : Prop :=
  exists conds, a = NodeIs conds false /\ isHealthy (cf_bad cf) conds = true.
(** A node has at most one condition of a type. *)
Definition clear (a : NodeAns) : Prop :=
  match a with NodeIs conds _ => NoDup (map nc_type conds) | _ => True end.

(** The answers when everything works: the controller is not frozen, class and secrets are fine, the
    provider finds the VM or makes one and initializes it, with a name for the node and an ID, no foreign
    node is in the way, and the node is there and sound. *)
Definition works (cf : Cfg) (r : Z * (Call -> Reply)) : Prop :=
  let env := snd r in
  forall c, match c with
  | CFrozen => env c = RBool false
  | CClass | CSecret _ | CSync _ => env c = RUnit
  | CNode _ => exists a, env c = RNode a /\ joined cf a /\ clear a
  | CGetStatus m =>
      (exists n p l, env c = POk n p l /\ n <> "" /\ p <> "") \/
      (exists t n p l, env c = PFail t (Some (n, p, l)) /\ n <> "" /\ p <> "" /\ failsWith (env c) cUninitialized) \/
      ((failsWith (env c) cNotFound \/ failsWith (env c) cUnimplemented) /\ (get "node" (mo_labels m) = None \/ recorded m))
  | CCreate m => exists n p l, env c = POk n p l /\ n <> "" /\ p <> "" /\
      (env (CStaleNode n) = RBool false \/ env (CStaleNode n) = RBool true /\ n = mo_name m)
  | CInit _ => (exists n p l, env c = POk n p l) \/ failsWith (env c) cUnimplemented
  | _ => True
  end.
(** The provider does not call the VM uninitialized any more. *)
Definition initialized (r : Z * (Call -> Reply)) : Prop := forall m, ~ failsWith (snd r (CGetStatus m)) cUninitialized.
(** There are [n] such passes. *)
Inductive telling : list (Z * (Call -> Reply)) -> nat -> Prop :=
| telling_nil : telling [] 0
| telling_hit r l n : initialized r -> telling l n -> telling (r :: l) (S n)
| telling_skip r l n : telling l n -> telling (r :: l) n.

(** A machine that is not to be deleted, and whose node is known or whose creation is not done. *)
Definition startable (m : MObj) : Prop :=
  mo_dt m = None /\ NoDup (map nc_type (ms_conds (mo_status m))) /\
  (nodeName m <> "" \/ (~ recorded m /\ (mo_pid m = "" \/ inCreation m))).

(** Only the parts of a pass up to the health check: the controller is not frozen, the class is fine, the
    lister answers [a]. *)
Definition shows (a : NodeAns) (r : Z * (Call -> Reply)) : Prop :=
  snd r CFrozen = RBool false /\ snd r CClass = RUnit /\ forall m, snd r (CNode m) = RNode a.

(** A step of the machine queue whose write, if any, is stored. *)
Definition appliedC (op : Op) : Prop := match op with OStep false _ Applied _ => True | _ => False end.

(** ** Histories and passes in which calls fail *)
(** Answers that are as they should be if they are given at all: a provider that found, made or half
    made the VM names its node and its ID; a node that is found by the provider ID has a name; a node has
    at most one condition of a type. Every call may still fail, with any error. *)
Definition fair (c : Call) (r : Reply) : Prop :=
  match c, r with
  | (CGetStatus _ | CCreate _), POk n p _ => n <> "" /\ p <> ""
  | CGetStatus _, PFail _ (Some (n, p, _)) => failsWith r cUninitialized -> n <> "" /\ p <> ""
  | CFindNode _, RStr n => n <> ""
  | CNode _, RNode a => clear a
  | _, _ => True
  end.
(** A Machine object that is created with a provider ID has the name of its node, too. *)
Definition sensible (op : Op) : Prop :=
  match op with OCreate labels _ _ pid => getS "node" labels <> "" \/ pid = "" | _ => True end.
(** All calls of a history were answered so. *)
Definition fairLog (l : list Event) : Prop := forall who c r, In (who, c, r) l -> fair c r.

(** A pass with its time, its answers, and the fates of its writes. *)
Definition Pass : Type := (Z * (Call -> Reply) * (Call -> Fate))%type.
Fixpoint execF (env : Call -> Reply) (fate : Call -> Fate) (p : prog) (w : World) : World :=
  match p with
  | Done | Panic => w
  | Do c k => let '(w', r) := perform w QC c (env c) (fate c) (w_vms w) in execF env fate (k r) w'
  end.
Definition passF (cf : Cfg) (w : World) (r : Pass) : World :=
  let '(t, env, fate) := r in
  match w_obj w with
  | Some m => match mo_dt m with
              | None => execF env fate (reconcileMachine cf m) (onTime t w)
              | Some _ => onTime t w
              end
  | None => onTime t w
  end.
Definition fairPass (r : Pass) : Prop := let '(_, env, _) := r in forall c, fair c (env c).
(** A pass in which everything works and no write fails. *)
Definition goodPass (cf : Cfg) (r : Pass) : Prop :=
  let '(t, env, fate) := r in works cf (t, env) /\ initialized (t, env) /\ forall c, fate c = Applied.

(** What happens between and beside such passes: a pass over an earlier version of the object, because
    the cache lags behind, with any answers and any fates; somebody else acts. *)
Inductive Item := IPass (r : Pass) | ILate (k : nat) (r : Pass) | IOther (op : Op).
Definition item (cf : Cfg) (w : World) (i : Item) : World :=
  match i with
  | IPass r => passF cf w r
  | ILate k (t, env, fate) =>
      match nth_error (w_vers w) k, w_obj w with
      | Some v, Some o => if Nat.eqb (mo_rv v) (mo_rv o) then w else
                          match mo_dt v with
                          | None => execF env fate (reconcileMachine cf v) (onTime t w)
                          | Some _ => w
                          end
      | _, _ => w
      end
  | IOther op => step cf w op
  end.
Definition items (cf : Cfg) (w : World) (l : list Item) : World := fold_left (item cf) l w.
(** Anybody else does anything, but does not delete the object. *)
Definition quiet (op : Op) : Prop := match op with ODelete | OStart _ | OStep _ _ _ _ => False | _ => True end.
Definition fairItem (i : Item) : Prop := match i with IPass r => fairPass r | ILate _ _ => True | IOther op => quiet op end.
(** There are [n] passes in which everything works. *)
Inductive goodOnes (cf : Cfg) : list Item -> nat -> Prop :=
| good_nil : goodOnes cf [] 0
| good_hit r l n : goodPass cf r -> goodOnes cf l n -> goodOnes cf (IPass r :: l) (S n)
| good_skip i l n : goodOnes cf l n -> goodOnes cf (i :: l) n.
