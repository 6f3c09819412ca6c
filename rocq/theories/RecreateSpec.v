(** Vocabulary of the Recreate property. *)
Require Import Coq.ZArith.ZArith Coq.Lists.List Coq.Strings.String Coq.Bool.Bool.
From Verif Require Import Types RecreateModel.
Import ListNotations.
Open Scope Z_scope.

(** A set that requests no machine and has none. *)
Definition idle (x : RSet) : Prop := ms_spec (r_ms x) = 0 /\ r_machines x = 0.

(** A deployment just created. *)
Definition fresh_world (w : World) : Prop := w_sets w = [] /\ 0 <= w_replicas w.

(** Every template the user switches to is one no existing MachineSet has. *)
Fixpoint new_templates_only (w : World) (l : list Event) : Prop :=
  match l with
  | [] => True
  | e :: r =>
      match e with
      | SetTemplate t => ~ In t (map r_template (w_sets w))
      | _ => True
      end /\ new_templates_only (step w e) r
  end.

(** The sets after every requested size was written, together with the two
    annotations recording the deployment's size. *)
Definition after_plan (d : MachineDeployment) (maxr : Z) (plan : list (MachineSet * Z)) (s : MachineSet) : MachineSet :=
  match find (fun p => String.eqb (ms_name (fst p)) (ms_name s)) plan with
  | Some p => set_size (md_replicas d) maxr s (snd p)
  | None => s
  end.

(** Every set requesting machines records the current size of the deployment,
    and some set requests machines if any are wanted. *)
Definition size_recorded (d : MachineDeployment) (all : list MachineSet) : Prop :=
  (forall s, In s all -> 0 < ms_spec s -> ms_desired s = AnnInt (md_replicas d)) /\
  (0 < md_replicas d -> exists s, In s all /\ 0 < ms_spec s).
