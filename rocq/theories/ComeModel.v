(** A creation in time: the machine queue of one machine (SoonModel) together with the stored
    machine object and a cache that lags behind it (as in GoneModel for the termination queue).
    Models the calls of pkg/util/provider/machinecontroller/machine.go 136-238, 446-697 and
    machine_util.go 545-575, 618-844 against an API server.
    Simplifications: nobody else writes the object; the API server answers every write. *)
Require Import Coq.ZArith.ZArith Coq.Lists.List Coq.Strings.String Coq.Bool.Bool Coq.Arith.PeanoNat.
From Verif Require Import CodesModel MachModel LevModel HealthModel LifeModel SoonModel GoneModel.
Import ListNotations.
Open Scope string_scope.
Open Scope list_scope.
Open Scope Z_scope.

(** One step: the API server answers the writes of the reconcile, [r] all other calls.
    machine.go 136-169. *)
Definition cstep (cf : Cfg) (w : GW) (op : GOp) : GW :=
  match op with
  | GTick d => onZ (zstep cf false (g_z w) (ZTick d)) w
  | GSee n => match nth_error (g_hist w) n with Some v => onZ (zstep cf false (g_z w) (ZSee v)) w | None => w end
  | GAdd => onZ (zstep cf false (g_z w) ZAdd) w
  | GStart => onZ (zstep cf false (g_z w) ZStart) w
  | GStep r lim =>
      let '(w', r') := match z_run (g_z w) with
                       | Some (RDo (WMeta x) _) => gWrite mergeMeta x w
                       | Some (RDo (WStatus x) _) => gWrite mergeStatus x w
                       | _ => (w, r)
                       end in
      onZ (zstep cf false (g_z w) (ZStep r' lim)) w'
  end.

(** The new machine [m] has just been seen: the add handler has put its key into the queue.
    machine.go 38-54. *)
Definition cinit (now : Z) (m : MObj) : GW := mkG (zinit now (Some m)) (Some m) [Some m] now (S (mo_rv m)).
