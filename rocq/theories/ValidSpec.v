(* What C46 claims, said without the functions of the model. *)
Require Import Coq.ZArith.ZArith Coq.Lists.List Coq.Strings.String Coq.Bool.Bool.
From Verif Require Import Types RolloutModel RecreateModel ScaleModel RolloutRun MetaModel TmplModel ValidModel.
Import ListNotations.
Open Scope string_scope.
Open Scope list_scope.
Open Scope Z_scope.

(* A budget that is a number or a percentage, and within 32 bits for that many replicas. *)
Definition Convertible (v : option IntOrString) (replicas : Z) : Prop :=
  match v with
  | Some (IOSInt z) => -2147483648 <= z <= 2147483647
  | Some (IOSPercent p) => exists x, p * replicas <= 100 * x /\ 100 * (x - 1) < p * replicas /\ -2147483648 <= x <= 2147483647
  | _ => False
  end.

(* An acceptable strategy. *)
Definition GoodStrategy (s : VStrategy) (replicas : Z) : Prop :=
  (vs_type s = "Recreate") \/
  (vs_type s = "RollingUpdate" /\ exists a b, vs_rolling s = Some (a, b) /\ Convertible a replicas /\ Convertible b replicas) \/
  (vs_type s = "InPlaceUpdate" /\ exists a b o, vs_inplace s = Some (a, b, o) /\ Convertible a replicas /\ Convertible b replicas /\
     (o = "Auto" \/ o = "Manual")).

(* One round of a Recreate rollout: a reconcile whose writes all succeed, then every set
   settles. The machine map counts the machines there are. *)
Definition applyResize (calls : list Call) (s : MachineSet) : MachineSet :=
  fold_left (fun s c => match c with
                        | Resize x n => if String.eqb (ms_name x) (ms_name s) then set_size (ms_spec s) (ms_spec s) s n else s
                        | _ => s end) calls s.
Definition rround (d : MachineDeployment) (st : MachineSet * list MachineSet) : MachineSet * list MachineSet :=
  let '(n, olds) := st in
  match rolloutRecreate false d (Some n) olds (map (fun s => (ms_name s, ms_status s)) (n :: olds)) with
  | Some calls => (settle (applyResize calls n), map (fun s => settle (applyResize calls s)) olds)
  | None => st
  end.
Fixpoint rrounds (k : nat) (d : MachineDeployment) (st : MachineSet * list MachineSet) :=
  match k with O => st | S k => rround d (rrounds k d st) end.
