(* What C39, C40, C41, C42 and C67 claim. *)
Require Import List String Bool Arith ZArith Permutation.
From Verif Require Import Sort AttModel AttSpec DrainModel.
Import ListNotations.
Open Scope string_scope.
Open Scope list_scope.
Open Scope nat_scope.

(* The first owner reference that is a controller is of this kind. *)
Definition Controls (p : Pod) (kind : string) : Prop :=
  exists a b, p_owners p = a ++ (kind, true) :: b /\ forall r, In r a -> snd r = false.

(* A pod the drain is about. *)
Definition Selected (node : string) (p : Pod) : Prop :=
  p_node p = node /\ p_mirror p = false /\ ~ Controls p "DaemonSet".

(* The options the machine controller uses (machine_util.go 1160-1183). *)
Definition mcmOpts (o : Opts) : Prop :=
  o_ignoreNoController o = true /\ o_ignoreDaemonsets o = true /\ o_deleteLocal o = true.

(* A pod on the node that stops a drain with other options. *)
Definition Fatal (o : Opts) (p : Pod) : Prop :=
  p_node p = o_node o /\
  ((exists v, In v (p_vols p) /\ v_emptyDir v = true) /\ o_deleteLocal o = false \/
   p_finished p = false /\ (forall r, In r (p_owners p) -> snd r = false) /\ o_ignoreNoController o = false \/
   Controls p "DaemonSet" /\ o_ignoreDaemonsets o = false).

(* A pod that uses a claim. *)
Definition UsesClaim (p : Pod) : Prop := exists v c, In v (p_vols p) /\ v_claim v = Some c.

(* The calls in a trace. *)
Definition called (t : list TEv) : list Pod :=
  flat_map (fun x => match x with TCall _ p _ => [p] | _ => [] end) t.

(* The goroutines all ended, with these traces. *)
Fixpoint ended (gs : list (option (list TEv))) : option (list (list TEv)) :=
  match gs with
  | [] => Some []
  | Some t :: r => match ended r with Some ts => Some (t :: ts) | None => None end
  | None :: _ => None
  end.

(* The drain's time does not run out, and the node stays, as far as the goroutine for
   pods with volumes can see. *)
Definition Undisturbed (env : nat -> Att) : Prop :=
  forall k, a_done (env k) = false /\ ~ In NGone (a_polls (env k)).

(* The pod was evicted or deleted, or was not there any more. *)
Definition Out_of_the_way (t : list TEv) (p : Pod) : Prop :=
  exists b, In (TCall b p ANotFound) t \/ In (TCall b p AOk) t.

(* How often a volume is mentioned. *)
Definition mentions (m : list (string * list string)) (v : string) : nat :=
  count_occ string_dec (List.concat (map snd m)) v.
