(** Vocabulary of the deletion of a whole tree. *)
Require Import Coq.Lists.List Coq.Strings.String Coq.Bool.Bool.
From Verif Require Import OwnModel OwnSpec CascModel.
Import ListNotations.
Open Scope string_scope.
Open Scope list_scope.

(** The finalizer of the controllers. *)
Definition ours : string := "machine.sapcloud.io/machine-controller-manager".
(** The deployment is there and has the finalizer; likewise for a set with a uid and a machine
    with a name. *)
Definition dep_held (w : Tree) : Prop := exists p, t_dep w = Some p /\ In ours (p_finalizers p).
Definition set_held (w : Tree) (u : nat) : Prop := exists s, In s (t_sets w) /\ o_uid (t_obj s) = u /\ In ours (t_fins s).
Definition mach_held (w : Tree) (n : nat) : Prop := exists m, In m (t_machs w) /\ o_name (m_obj m) = n /\ In ours (m_fins m).

(** The sets of the deployment, and the machines of these sets. *)
Definition its_set (me : nat) (w : Tree) (s : TSet) : Prop := In s (t_sets w) /\ owned (t_obj s) me.
Definition its_mach (me : nat) (w : Tree) (m : TMach) : Prop :=
  In m (t_machs w) /\ exists s, its_set me w s /\ owned (m_obj m) (o_uid (t_obj s)).

(** What others keep to: new names are fresh, what a set makes matches its selector, nobody else
    makes sets of this deployment or machines of a set, nobody else removes the controllers'
    finalizer; and the deployment's finalizer can be written when it is missing. *)
Definition regular (me : nat) (w : Tree) (op : TOp) : Prop :=
  let freshS n := ~ In n (map (fun s => o_name (t_obj s)) (t_sets w)) in
  let freshM n := ~ In n (map (fun m => o_name (m_obj m)) (t_machs w)) in
  match op with
  | TDep e _ shape news => NoDup news /\ (forall n, In n news -> freshS n /\ matches (fst (shape n)) (snd (shape n))) /\
      (e_final e = true \/ dep_held w)
  | TPass _ _ _ news => NoDup news /\ forall n, In n news -> freshM n
  | TDropFin _ x => x <> ours
  | TForeignSet s => freshS (o_name (t_obj s)) /\ o_uid (t_obj s) = o_name (t_obj s) /\ ~ owned (t_obj s) me /\ matches (t_sel s) (t_tmpl s)
  | TForeignMach m => freshM (o_name (m_obj m)) /\ orphan (m_obj m)
  | _ => True
  end.

(** Executions. *)
Inductive trun (me : nat) (dl : list (string * string)) : Tree -> list TOp -> Tree -> Prop :=
| trun_nil : forall w, trun me dl w [] w
| trun_cons : forall w op l w', regular me w op -> trun me dl (tstep dl w op) l w' -> trun me dl w (op :: l) w'.

(** A pass in which every call goes through. *)
Definition good (e : Env) : Prop := e_final e = true /\ forall n, e_delete e n = true.
(** No finalizers of others. *)
Definition bare (w : Tree) : Prop :=
  (forall p, t_dep w = Some p -> incl (p_finalizers p) [ours]) /\
  (forall s, In s (t_sets w) -> incl (t_fins s) [ours]) /\ (forall m, In m (t_machs w) -> incl (m_fins m) [ours]).
Definition no_added (op : TOp) : Prop :=
  match op with
  | TAddFin _ _ => False
  | TForeignSet s => incl (t_fins s) [ours]
  | TForeignMach m => incl (m_fins m) [ours]
  | _ => True
  end.

(** The beginning: the deployment, not being deleted, and nothing below. *)
Definition start (me : nat) (sel : list (string * string)) (w : Tree) : Prop :=
  (exists fins, t_dep w = Some (mkParent me false fins sel)) /\ t_sets w = [] /\ t_machs w = [] /\ t_vms w = [].
(** [a] happens and later [b]. *)
Definition before (a b : TOp) (l : list TOp) : Prop := exists l1 l2 l3, l = l1 ++ a :: l2 ++ b :: l3.
(** The deployment's own successful pass, and that of a set. *)
Definition dep_pass_in (l : list TOp) : Prop := exists e shape news, good e /\ In (TDep e true shape news) l.
Definition set_pass_in (n : nat) (l : list TOp) : Prop := exists e news, good e /\ In (TPass n e true news) l.
(** A machine of this name is made. *)
Definition made_anew (n : nat) (op : TOp) : Prop :=
  match op with TPass _ _ _ news => In n news | TForeignMach m => o_name (m_obj m) = n | _ => False end.
