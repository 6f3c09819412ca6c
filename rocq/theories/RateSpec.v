(** Specification of the rate limit. *)
Require Import Coq.ZArith.ZArith Coq.Lists.List Coq.Strings.String Coq.Bool.Bool Coq.Arith.PeanoNat.
From Verif Require Import PermitModel PermitSpec RateModel.
Import ListNotations.
Open Scope string_scope.
Open Scope list_scope.
Open Scope nat_scope.

(** The machine was marked as Failed by the health check and has been Failed or Terminating
    in the store ever since. *)
Definition replaced (x : RM) : Prop :=
  1 <= rm_mark x /\ rm_mark x <= List.length (rm_hist x) /\
  forall v, rm_mark x <= v -> v <= List.length (rm_hist x) ->
    phaseAt x v = Some "Failed" \/ phaseAt x v = Some "Terminating".

(** Every machine of the MachineDeployment carries the label "name" with the value n. Nothing in
    the code sets this label; it has to be in the template. *)
Definition labelled (w : RW) (dep n : string) : Prop :=
  forall x, In x (r_ms w) -> rm_dep x = dep -> rm_name x = Some n.

(** What the theorem asks of the surroundings: the clean-up of the permits deletes a key only
    while nobody uses it; a write that goes through is acknowledged; and the cache sees it
    within the wait of [cacheUpdateTimeout] and the sleep of ten seconds. *)
Definition prompt (w : RW) (op : ROp) : Prop :=
  match op with
  | RClean => calm (r_p w) PClean
  | RWrite _ lands acked => lands = true -> acked = true
  | RTimedOut i => match worker w i with WWait m => rm_mark (mach w m) <= rm_seen (mach w m) | _ => True end
  | _ => True
  end.
Fixpoint prompt_run (stale : Z) (w : RW) (ops : list ROp) : Prop :=
  match ops with
  | [] => True
  | op :: r => prompt w op /\ prompt_run stale (rstep stale w op) r
  end.
