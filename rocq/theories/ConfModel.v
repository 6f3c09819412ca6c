(** Effective settings of a machine.
    Models pkg/util/provider/machinecontroller/machine_util.go 1431-1484 and 1065.
    Durations are numbers of nanoseconds, as in Go. *)
Require Import Coq.ZArith.ZArith Coq.Lists.List Coq.Strings.String Coq.Bool.Bool.
Open Scope string_scope.
Open Scope Z_scope.

(** pkg/apis/machine/v1alpha1/shared_types.go 30-59: the per-machine settings; the
    pointer [None] when the inlined struct is absent. *)
Record MConf := mkMConf { mc_drain : option Z; mc_health : option Z; mc_creation : option Z; mc_retries : option Z; mc_conds : option string }.

(** pkg/util/provider/options/types.go 71-95: the global settings. *)
Record GConf := mkGConf { gc_drain : Z; gc_health : Z; gc_creation : Z; gc_retries : Z; gc_conds : string }.

(** A setting of the machine if given, else the global one: the shape shared by the five
    functions below. machine_util.go 1431-1484. *)
Definition orElse {A : Type} (m : option MConf) (f : MConf -> option A) (g : A) : A :=
  match m with
  | Some c => match f c with Some x => x | None => g end
  | None => g
  end.

(** machine_util.go 1432-1440. *)
Definition getEffectiveDrainTimeout (g : GConf) (m : option MConf) : Z := orElse m mc_drain (gc_drain g).
(** machine_util.go 1443-1451. *)
Definition getEffectiveMaxEvictRetries (g : GConf) (m : option MConf) : Z := orElse m mc_retries (gc_retries g).
(** machine_util.go 1454-1462. *)
Definition getEffectiveHealthTimeout (g : GConf) (m : option MConf) : Z := orElse m mc_health (gc_health g).
(** machine_util.go 1465-1473. *)
Definition getEffectiveCreationTimeout (g : GConf) (m : option MConf) : Z := orElse m mc_creation (gc_creation g).
(** machine_util.go 1476-1484. *)
Definition getEffectiveNodeConditions (g : GConf) (m : option MConf) : string := orElse m mc_conds (gc_conds g).

(** pkg/util/provider/drain/drain.go 143: PodEvictionRetryInterval. *)
Definition PodEvictionRetryInterval : Z := 20 * 1000000000.

(** machine_util.go 1065: int32(math.Min(retries, timeout/interval)); the conversion cuts
    off towards zero. No int32 overflow: a duration is below 2^63 nanoseconds. The two
    floating-point roundings are ignored. *)
Definition maxEvictRetries (g : GConf) (m : option MConf) : Z :=
  let r := getEffectiveMaxEvictRetries g m in
  let t := getEffectiveDrainTimeout g m in
  if r * PodEvictionRetryInterval <=? t then r else Z.quot t PodEvictionRetryInterval.

(** machine_util.go 1065 and 1110-1121: the budget handed to the drain: one retry when the
    deletion is forced by the label or by the time-out. *)
Definition drainRetries (g : GConf) (m : option MConf) (forced : bool) : Z :=
  if forced then 1 else maxEvictRetries g m.
