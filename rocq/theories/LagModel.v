(** A MachineSet whose controller reads a cache that runs behind: every execution.
    Uses the reconcile of MSetModel.v (pkg/controller/machineset.go 333-452,
    457-587). The gate that would make a reconcile wait until the cache shows the
    effects of the earlier ones is commented out (machineset.go 541-542). *)
Require Import Coq.ZArith.ZArith Coq.Lists.List Coq.Strings.String Coq.Bool.Bool.
From Verif Require Import MSetModel MSetSpec.
Import ListNotations.
Open Scope string_scope.
Open Scope list_scope.
Open Scope Z_scope.

(** A former state of the machines of the set: the machines, how many reconciles
    came before it, and how many machines had been lost and regained by outside
    events before it (see [lost], [regained] below). What the informer cache read at
    pkg/controller/machineset.go 511 can show. *)
Record Snap := mkSnap { s_ms : list Mach; s_done : nat; s_lost : nat; s_got : nat }.

(** The world of MSetModel.v with its past: [l_hist] all former states, newest
    first; [l_seen]: number of reconciles before the state the cache shows;
    [l_done]: number of reconciles so far; [l_lost], [l_got]: machines lost and
    regained by outside events so far. pkg/controller/machineset.go 457-587. *)
Record LW := mkLW { l_w : World; l_hist : list Snap; l_seen : nat; l_done : nat; l_lost : nat; l_got : nat }.

(** What can happen. [LSee i v]: the cache now shows the i-th newest former state,
    listed in the order [v] (pkg/controller/machineset.go 511: a lister gives its
    objects in no particular order). [LPhase], [LMark], [LDelete], [LGone]: others
    change the phase, the two annotations or delete the machine; a deleted machine
    disappears. [LScale], [LFreeze]: spec.replicas and the label freeze are
    edited. *)
Inductive LOp :=
| LReconcile (api : Api) (now : Z)
| LSee (i : nat) (v : list Mach)
| LScale (n : Z)
| LFreeze (b : bool)
| LPhase (id : nat) (phase : string)
| LMark (id : nat) (prio trigger : string)
| LDelete (id : nat)
| LGone (id : nat).

(** The effect of an outside event on one stored machine; the two annotations are
    read at pkg/util/provider/machineutils/utils.go 100-121. *)
Definition edit (o : LOp) (m : Mach) : Mach :=
  match o with
  | LPhase _ ph => mkMach (m_id m) (m_prio m) (m_trigger m) ph (m_ctime m) (m_deleting m)
  | LMark _ p t => mkMach (m_id m) p t (m_phase m) (m_ctime m) (m_deleting m)
  | LDelete _ => mkMach (m_id m) (m_prio m) (m_trigger m) (m_phase m) (m_ctime m) true
  | _ => m
  end.
(** The machine an outside event is about (names of pkg/controller/machineset.go 457-587). *)
Definition about (o : LOp) (m : Mach) : bool :=
  match o with LPhase i _ | LMark i _ _ | LDelete i => Nat.eqb (m_id m) i | _ => false end.
(** Outside events on the stored machines read at pkg/controller/machineset.go 511. *)
Definition edited (o : LOp) (l : list Mach) : list Mach := map (fun m => if about o m then edit o m else m) l.

(** A machine that serves and is not being deleted; a machine that is being deleted
    but is still counted (pkg/controller/machineset.go 341-347 does not look at the
    deletion timestamp). *)
Definition keptb (m : Mach) : bool := servingb m && negb (m_deleting m).
(** As above, pkg/controller/machineset.go 341-347. *)
Definition goingb (m : Mach) : bool := servingb m && m_deleting m.

(** Bookkeeping of outside events: a machine is lost if it no longer serves or is
    being deleted, or if one being deleted is shown as serving again; it is regained
    if it serves though it did not. Counted by the classification of
    pkg/controller/machineset.go 341-347. *)
Definition loses (o : LOp) (m : Mach) : bool :=
  about o m && ((keptb m && negb (keptb (edit o m))) || (negb (goingb m) && goingb (edit o m))).
(** As above, pkg/controller/machineset.go 341-347. *)
Definition regains (o : LOp) (m : Mach) : bool := about o m && negb (servingb m) && servingb (edit o m).
(** As above, pkg/controller/machineset.go 341-347. *)
Definition count (f : Mach -> bool) (l : list Mach) : nat := List.length (filter f l).

(** The world after an outside event, with [ms] the machines now
    (pkg/controller/machineset.go 457-587 reads them later). *)
Definition outside (l : LW) (w : World) (lost got : nat) : LW :=
  mkLW w (mkSnap (w_machines w) (l_done l) (l_lost l + lost) (l_got l + got) :: l_hist l) (l_seen l) (l_done l) (l_lost l + lost) (l_got l + got).

(** One event. pkg/controller/machineset.go 457-587 and its surroundings. *)
Definition lstep (l : LW) (o : LOp) : LW :=
  let w := l_w l in
  match o with
  | LReconcile api now =>
      let w' := reconcileMachineSet api now w in
      mkLW w' (mkSnap (w_machines w') (S (l_done l)) (l_lost l) (l_got l) :: l_hist l) (l_seen l) (S (l_done l)) (l_lost l) (l_got l)
  | LSee i v =>
      match nth_error (l_hist l) i with
      | Some s => mkLW (mkW (w_spec w) (w_frozen w) (w_machines w) v (w_next w)) (l_hist l) (s_done s) (l_done l) (l_lost l) (l_got l)
      | None => l
      end
  | LScale n => outside l (mkW n (w_frozen w) (w_machines w) (w_cache w) (w_next w)) 0 0
  | LFreeze b => outside l (mkW (w_spec w) b (w_machines w) (w_cache w) (w_next w)) 0 0
  | LGone id => outside l (step w (OGone id)) 0 0
  | _ => outside l (mkW (w_spec w) (w_frozen w) (edited o (w_machines w)) (w_cache w) (w_next w))
                 (count (loses o) (w_machines w)) (count (regains o) (w_machines w))
  end.
(** Any sequence of events, pkg/controller/machineset.go 457-587. *)
Definition lrun (l : LW) (os : list LOp) : LW := fold_left lstep os l.

(** A set at rest: the cache shows its machines, nothing counted yet
    (pkg/controller/machineset.go 457-587). *)
Definition begin (spec : Z) (frozen : bool) (ms : list Mach) (next : nat) : LW :=
  mkLW (mkW spec frozen ms ms next) [mkSnap ms 0 0 0] 0 0 0 0.
