(** Words for the statements about the time a drain takes. *)
Require Import Coq.Lists.List Coq.ZArith.ZArith.
From Verif Require Import DrainModel ClockModel.
Import ListNotations.

(** No deletion that forces a pod off the node was accepted among these calls. *)
Definition neverForced (cs : list Call) : Prop :=
  forall c, In c cs -> c_evict c = false -> c_ans c = AOther.

(** The pod is protected by a working budget at every time. *)
Definition protected (p : TPod) : Prop := forall t, t_ans p t = ATooMany /\ t_broken p t = false.

(** Drain time-outs with which the retries of drainNode use up the whole time-out: at least as many
    are configured as fit, and they fit exactly. *)
Definition fillsUp (configured timeout : Z) : Prop :=
  (0 < timeout)%Z /\ (timeout mod 20 = 0)%Z /\ (timeout <= 20 * configured)%Z.

(** The longest that pods with volumes are waited for, one after the other: grace period, detach
    time-out and reattach time-out of each, and the rest of a poll. *)
Fixpoint longest (l : Limits) (pods : list TPod) : nat :=
  match pods with
  | [] => 0
  | p :: rest => (match t_grace p with Some g => g | None => 0 end) + l_detach l + l_reattach l + 4 + longest l rest
  end.
