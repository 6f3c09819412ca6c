(** A MachineDeployment ends where its last change says (C110): notions of the statements. *)
Require Import Coq.ZArith.ZArith Coq.Lists.List Coq.Strings.String Coq.Bool.Bool.
From Verif Require Import Types RolloutModel RolloutSpec WholeModel WholeSpec WishModel.
Import ListNotations.
Open Scope Z_scope.

(* The machines requested of a set; whether it is the one of the deployment's template. *)
Definition spec (t : TSet) : Z := ms_spec (x_set (t_x t)).
Definition of_template (w : Dep) (t : TSet) : Prop := t_tmpl t = p_tmpl w.
Definition name (t : TSet) : string := ms_name (x_set (t_x t)).

(* Sensible numbers, names that are unique, at most one set for a template, budgets that make sense. *)
Definition proper (w : Dep) : Prop :=
  NoDup (map name (p_sets w)) /\ NoDup (map t_tmpl (p_sets w)) /\ Forall (fun t => sane_set (t_x t)) (p_sets w) /\
  0 <= p_size w /\ good_budget (p_surge w) /\ good_budget (p_unavail w).

(* The share of every set that requests machines can be computed: it knows a total that is not zero, and the
   product does not exceed int32. Nothing is asked when no machine is wanted. *)
Definition shares_defined (w : Dep) : Prop :=
  forall surge, is_surge (p_surge w) (p_size w) surge -> 0 < p_size w ->
  Forall (fun t => 0 < spec t -> exists z, ms_max (x_set (t_x t)) = AnnInt z /\ 0 < z /\ spec t * (p_size w + surge) < 2147483648) (p_sets w).
(* Every set that requests machines and tells the deployment's size tells the present one. *)
Definition size_known (w : Dep) : Prop :=
  Forall (fun t => 0 < spec t -> forall n, ms_desired (x_set (t_x t)) = AnnInt n -> n = p_size w) (p_sets w).

(* What may happen. *)
Definition possible (w : Dep) (o : Op) : Prop :=
  match o with
  | Do _ => p_paused w = true \/ ~ size_known w -> shares_defined w
  | Change_ (SetSize n) => 0 <= n
  | Change_ (SetBudget s u) => good_budget s /\ good_budget u
  | Happens _ (CReport r a) => 0 <= r /\ 0 <= a
  | _ => True
  end.
Fixpoint always (P : Dep -> Op -> Prop) (w : Dep) (l : list Op) : Prop :=
  match l with [] => True | o :: l => P w o /\ always P (step w o) l end.
(* The user changes nothing. *)
Definition no_edit (o : Op) : Prop := match o with Change_ _ => False | _ => True end.

(* A reconcile all of whose calls succeed; a set it creates gets a name that is free. *)
Definition successful (w : Dep) (o : Op) : Prop :=
  match o with
  | Do a => api_new (a_roll a) = true /\ (forall s, api_clean (a_roll a) s = true) /\ (forall s, api_down (a_roll a) s = true) /\
      a_make a = true /\ a_dep a = true /\ (List.length (p_sets w) <= a_writes a)%nat /\ ~ In (a_name a) (map name (p_sets w))
  | _ => False
  end.
(* ... and that can make progress: every set is complete, the template's one is available too. *)
Definition helpful (w : Dep) (o : Op) : Prop :=
  successful w o /\
  Forall (fun t => ms_status (x_set (t_x t)) = spec t /\ ms_avail (x_set (t_x t)) <= spec t /\
                   (of_template w t -> ms_avail (x_set (t_x t)) = spec t)) (p_sets w).
(* At least [k] steps of the run are such. *)
Fixpoint count (P : Dep -> Op -> Prop) (k : nat) (w : Dep) (l : list Op) : Prop :=
  match k, l with
  | O, _ => True
  | S _, [] => False
  | S k', o :: l => (P w o /\ count P k' (step w o) l) \/ count P k (step w o) l
  end.

(* The controller has taken up the last change: nothing is asked for any more but to bring the machines over
   to the template's set. *)
Definition taken_up (w : Dep) : Prop :=
  p_paused w = false /\ p_back w = None /\ (exists t, In t (p_sets w) /\ of_template w t) /\ size_known w.
(* What the user wants is requested: all machines of the template's set, none of the others. *)
Definition fulfilled (w : Dep) : Prop :=
  (exists t, In t (p_sets w) /\ of_template w t) /\
  Forall (fun t => (of_template w t -> spec t = p_size w) /\ (~ of_template w t -> spec t = 0)) (p_sets w).
(* How many machines are to be requested or given up. *)
Definition todo (w : Dep) : Z :=
  sum (fun t => if t_tmpl t =? p_tmpl w then Z.abs (p_size w - spec t) else spec t) (p_sets w).
(* What the user wants: template, size, budgets. *)
Definition wish (w : Dep) : Z * Z * option IntOrString * option IntOrString := (p_tmpl w, p_size w, p_surge w, p_unavail w).

(* The ordinary course of things: reconciles whose calls succeed, the controllers' work, the template's machines become
   available, true statuses; no old machine becomes available, none fails. *)
Definition ordinary (w : Dep) (o : Op) : Prop :=
  match o with
  | Do _ => successful w o
  | Happens n (CReport r a) => exists t, In t (p_sets w) /\ name t = n /\ r = x_have (t_x t) /\ a = x_up (t_x t)
  | Happens _ (CWork _) => True
  | Happens n CReady => exists t, In t (p_sets w) /\ name t = n /\ of_template w t
  | _ => False
  end.

(* Nothing was ever asked for but at least one machine, and no number is so large that a product overflows. *)
Definition modest (w : Dep) (o : Op) : Prop :=
  match o with
  | Do _ => forall surge, is_surge (p_surge w) (p_size w) surge -> Forall (fun t => spec t * (p_size w + surge) < 2147483648) (p_sets w)
  | Change_ (SetSize n) => 0 < n
  | Change_ (SetBudget s u) => good_budget s /\ good_budget u
  | Happens _ (CReport r a) => 0 <= r /\ 0 <= a
  | _ => True
  end.
(* A deployment just made. *)
Definition fresh (w : Dep) : Prop := p_sets w = [] /\ 0 < p_size w /\ good_budget (p_surge w) /\ good_budget (p_unavail w).
(* The wanted size and the largest total it allows are numbers whose product int32 can hold. *)
Definition moderate (w : Dep) : Prop := forall surge, is_surge (p_surge w) (p_size w) surge -> p_size w * (p_size w + surge) < 2147483648.
