(** Vocabulary of the status properties. *)
Require Import Coq.ZArith.ZArith Coq.Lists.List Coq.Strings.String Coq.Bool.Bool.
From Verif Require Import Types RolloutSpec StatusModel.
Import ListNotations.
Open Scope string_scope.
Open Scope list_scope.
Open Scope Z_scope.

(** Conditions of a type; conditions of the other types, in order. *)
Definition of_type (ty : string) (l : list Cond) : list Cond := filter (fun c => String.eqb (c_type c) ty) l.
Definition others (ty : string) (l : list Cond) : list Cond := filter (fun c => negb (String.eqb (c_type c) ty)) l.

(** What API users do with the list: look up a condition by type. *)
Definition shows (l : list Cond) (ty : string) (c : Cond) : Prop := hd_error (of_type ty l) = Some c.
Definition shows_reason (d : SDep) (r : string) : Prop :=
  exists c, shows (ds_conds (sd_status d)) "Progressing" c /\ c_reason c = r.

(** Operations on a condition list. *)
Inductive COp := CSet (c : Cond) | CRemove (ty : string).
Definition crun_md (l : list Cond) (ops : list COp) : list Cond :=
  fold_left (fun l o => match o with CSet c => SetMachineDeploymentCondition l c | CRemove ty => RemoveMachineDeploymentCondition l ty end) ops l.
Definition crun_ms (l : list Cond) (ops : list COp) : list Cond :=
  fold_left (fun l o => match o with CSet c => SetCondition l c | CRemove ty => RemoveCondition l ty end) ops l.

(** The rollout moved forward between two statuses. *)
Definition progressed (o n : DStatus) : Prop :=
  ds_updated o < ds_updated n \/ ds_replicas n - ds_updated n < ds_replicas o - ds_updated o \/
  ds_ready o < ds_ready n \/ ds_avail o < ds_avail n.

(** All replicas updated and available, nothing else there, generation seen. *)
Definition all_done (d : SDep) (n : DStatus) : Prop :=
  ds_updated n = md_replicas (sd_md d) /\ ds_replicas n = md_replicas (sd_md d) /\
  ds_avail n = md_replicas (sd_md d) /\ sd_gen d <= ds_obs n.

(** Clock readings do not go back. *)
Fixpoint clocked (t0 : Z) (l : list (Z * POp)) (t1 : Z) : Prop :=
  match l with [] => t0 <= t1 | (t, _) :: r => t0 <= t /\ clocked t r t1 end.

Definition sumZ (l : list Z) : Z := fold_right Z.add 0 l.
Definition countb {A} (p : A -> bool) (l : list A) : Z := Z.of_nat (List.length (filter p l)).

(** The summary of one failed machine. *)
Definition summary_of (m : SMachine) (owner : string) : Summary :=
  mkSum (sm_name m) (sm_pid m) (sm_desc m) (sm_state m) owner.

(** [n] machines may be missing: none but in a rolling update. *)
Definition allows_unavailable (d : MachineDeployment) (n : Z) : Prop :=
  match md_strategy d with
  | RollingUpdate s u => good_budget s /\ good_budget u /\ 0 < md_replicas d /\ exists surge, is_budget s u (md_replicas d) surge n
  | _ => n = 0
  end.
