(** A deletion in time: the termination queue of one machine (SoonModel) together with the
    stored machine object and a cache that lags behind it.
    Models the calls of pkg/util/provider/machinecontroller/machine.go 240-290, 699-761 and
    machine_util.go 545-575, 846-947, 1711-1725 against an API server.
    Simplifications: nobody else writes the object; the API server answers every write. *)
Require Import Coq.ZArith.ZArith Coq.Lists.List Coq.Strings.String Coq.Bool.Bool Coq.Arith.PeanoNat.
From Verif Require Import CodesModel MachModel LevModel HealthModel LifeModel SoonModel.
Import ListNotations.
Open Scope string_scope.
Open Scope list_scope.
Open Scope Z_scope.

(** The key with its queue; the stored object, [None] once it is gone; all stored versions,
    the newest first; when the object changed last; the next resource version.
    machine.go 240-290 (external: API server and informer). *)
Record GW := mkG { g_z : ZW; g_obj : option MObj; g_hist : list (option MObj); g_chg : Z; g_next : nat }.

(** What happens next: as in SoonModel, but the cache can only show what was stored: the
    [n]th version, counted from the newest. machine.go 240-290. *)
Inductive GOp := GTick (d : Z) | GSee (n : nat) | GAdd | GStart | GStep (r : Reply) (lim : Z).

(** Another state of the queue. No counterpart: part of the state of machine.go 240-290. *)
Definition onZ (z : ZW) (w : GW) : GW := mkG z (g_obj w) (g_hist w) (g_chg w) (g_next w).

(** A write, as in LifeModel's apiWrite without failures: accepted if the object is the one
    that was read, stored if it changes anything, and an object that is being deleted goes
    away with its last finalizer. The error says conflict or not found.
    External: API server; the calls are at machine_util.go 563, 855, 939, 1717. *)
Definition gWrite (merge : MObj -> MObj -> MObj) (x : MObj) (w : GW) : GW * Reply :=
  match g_obj w with
  | None => (w, RErr "not found")
  | Some o =>
      if Nat.eqb (mo_rv o) (mo_rv x) && Nat.eqb (mo_uid o) (mo_uid x) then
        let n := merge o x in
        if MObj_eq_dec o n then (w, RObj o)
        else
          let n' := withRv (g_next w) n in
          let st := match mo_dt n', mo_fins n' with Some _, [] => None | _, _ => Some n' end in
          (mkG (g_z w) st (st :: g_hist w) (z_now (g_z w)) (S (g_next w)), RObj n')
      else (w, RErr "conflict")
  end.

(** One step: the API server answers the writes of the reconcile, [r] all other calls.
    machine.go 240-290. *)
Definition gstep (cf : Cfg) (w : GW) (op : GOp) : GW :=
  match op with
  | GTick d => onZ (zstep cf true (g_z w) (ZTick d)) w
  | GSee n => match nth_error (g_hist w) n with Some v => onZ (zstep cf true (g_z w) (ZSee v)) w | None => w end
  | GAdd => onZ (zstep cf true (g_z w) ZAdd) w
  | GStart => onZ (zstep cf true (g_z w) ZStart) w
  | GStep r lim =>
      let '(w', r') := match z_run (g_z w) with
                       | Some (RDo (WMeta x) _) => gWrite mergeMeta x w
                       | Some (RDo (WStatus x) _) => gWrite mergeStatus x w
                       | _ => (w, r)
                       end in
      onZ (zstep cf true (g_z w) (ZStep r' lim)) w'
  end.

(** The deletion of machine [m] has just been seen: its handler has put the key into the
    termination queue. machine.go 38-99. *)
Definition ginit (now : Z) (m : MObj) : GW := mkG (zinit now (Some m)) (Some m) [Some m] now (S (mo_rv m)).
