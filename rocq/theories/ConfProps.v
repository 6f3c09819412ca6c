(** Properties of the effective settings: C47. *)
Require Import Coq.ZArith.ZArith Coq.Lists.List Coq.Strings.String Coq.Bool.Bool Coq.micromega.Lia.
Require Import Coq.micromega.ZifyBool.
From Verif Require Import ConfModel.
Open Scope string_scope.
Open Scope Z_scope.

(** What "the value given on the machine, else the global one" means. *)
Definition overrides {A : Type} (m : option MConf) (f : MConf -> option A) (g v : A) : Prop :=
  (exists c, m = Some c /\ f c = Some v) \/ ((m = None \/ exists c, m = Some c /\ f c = None) /\ v = g).

(** C47: each setting of the machine overrides the global one. *)
Theorem C47_override : forall g m,
  overrides m mc_drain (gc_drain g) (getEffectiveDrainTimeout g m) /\
  overrides m mc_retries (gc_retries g) (getEffectiveMaxEvictRetries g m) /\
  overrides m mc_health (gc_health g) (getEffectiveHealthTimeout g m) /\
  overrides m mc_creation (gc_creation g) (getEffectiveCreationTimeout g m) /\
  overrides m mc_conds (gc_conds g) (getEffectiveNodeConditions g m).
Proof.
  assert (H : forall A m (f : MConf -> option A) g, overrides m f g (orElse m f g)).
  { intros A [c|] f g; unfold overrides, orElse; [destruct (f c) eqn:E|]; eauto 7. }
  intros g m. repeat split; apply H.
Qed.
Print Assumptions C47_override.

Definition cf_g := mkGConf (7200 * 1000000000) 600 1200 (7200 / 20) "KernelDeadlock".

Example C47_override_case :
  let m := Some (mkMConf (Some 5) None (Some 0) None (Some "")) in
  getEffectiveDrainTimeout cf_g m = 5 /\ getEffectiveHealthTimeout cf_g m = 600 /\ getEffectiveCreationTimeout cf_g m = 0 /\
  getEffectiveNodeConditions cf_g m = "" /\ getEffectiveDrainTimeout cf_g None = 7200 * 1000000000.
Proof. repeat split. Qed.

(** C47: the number of eviction attempts never exceeds the configured one (when that is
    not negative), nor what fits into the drain timeout. *)
Theorem C47_retries_bounded : forall g m, 1 <= getEffectiveMaxEvictRetries g m ->
  drainRetries g m true <= getEffectiveMaxEvictRetries g m /\
  drainRetries g m false <= getEffectiveMaxEvictRetries g m /\
  (0 <= getEffectiveDrainTimeout g m -> drainRetries g m false * PodEvictionRetryInterval <= getEffectiveDrainTimeout g m).
Proof.
  intros g m H. unfold drainRetries, maxEvictRetries.
  set (r := getEffectiveMaxEvictRetries g m) in *. set (t := getEffectiveDrainTimeout g m).
  unfold PodEvictionRetryInterval.
  destruct (r * (20 * 1000000000) <=? t) eqn:E; [split; [lia | split; lia]|].
  pose proof (Z.quot_rem' t (20 * 1000000000)).
  split; [lia|]. destruct (Z_lt_le_dec t 0) as [N|P].
  - pose proof (Z.rem_nonpos t (20 * 1000000000) ltac:(lia) ltac:(lia)). split; [|lia].
    assert (Z.quot t (20 * 1000000000) <= 0) by (apply Z.quot_le_upper_bound; lia). lia.
  - pose proof (Z.rem_nonneg t (20 * 1000000000) ltac:(lia) P).
    assert (Z.quot t (20 * 1000000000) <= r) by (apply Z.quot_le_upper_bound; lia). split; lia.
Qed.
Print Assumptions C47_retries_bounded.

Example C47_retries_bounded_case : 1 <= getEffectiveMaxEvictRetries cf_g None /\ drainRetries cf_g None false = 360 /\
  drainRetries cf_g (Some (mkMConf (Some (60 * 1000000000)) None None None None)) false = 3.
Proof. repeat split; vm_compute; congruence. Qed.

(** C47: there is at least one attempt if the timeout covers one interval. Partial: see
    the counterexample below. *)
Theorem C47_at_least_one_partial : forall g m forced, 1 <= getEffectiveMaxEvictRetries g m ->
  PodEvictionRetryInterval <= getEffectiveDrainTimeout g m -> 1 <= drainRetries g m forced.
Proof.
  intros g m [|] H T; unfold drainRetries; [lia|]. unfold maxEvictRetries.
  set (r := getEffectiveMaxEvictRetries g m) in *. set (t := getEffectiveDrainTimeout g m) in *.
  unfold PodEvictionRetryInterval in *.
  destruct (r * (20 * 1000000000) <=? t) eqn:E; [lia|].
  apply Z.quot_le_lower_bound; lia.
Qed.
Print Assumptions C47_at_least_one_partial.

Example C47_at_least_one_case : PodEvictionRetryInterval <= getEffectiveDrainTimeout cf_g None /\ drainRetries cf_g None false = 360.
Proof. split; vm_compute; congruence. Qed.

(** C47 fails: a drain timeout below twenty seconds leaves no attempt at all. *)
Theorem C47_no_attempt_refuted : exists g m, 1 <= getEffectiveMaxEvictRetries g m /\ 0 < getEffectiveDrainTimeout g m /\
  drainRetries g m false = 0.
Proof. exists cf_g, (Some (mkMConf (Some (15 * 1000000000)) None None (Some 3) None)). repeat split. vm_compute; congruence. Qed.
Print Assumptions C47_no_attempt_refuted.
