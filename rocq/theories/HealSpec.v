(** Vocabulary of C107. *)
Require Import Coq.ZArith.ZArith Coq.Lists.List Coq.Strings.String Coq.Bool.Bool.
From Verif Require Import MachModel HealthModel HealthSpec MSetModel MSetSpec HealModel.
Import ListNotations.
Open Scope string_scope.
Open Scope list_scope.
Open Scope Z_scope.

(** The node is there and reports no problem; it is missing or reports one. *)
Definition sound (c : HConf) (a : NodeAns) : Prop :=
  match a with NodeIs conds _ => no_problem (c_bad c) conds | _ => False end.
Definition broken (c : HConf) (a : NodeAns) : Prop :=
  match a with NodeIs conds _ => ~ no_problem (c_bad c) conds | NodeMissing => True | NodeErr => False end.
(** A node reports each type of condition once. *)
Definition proper (a : NodeAns) : Prop := match a with NodeIs conds _ => NoDup (map nc_type conds) | _ => True end.
Definition proper_op (o : HOp) : Prop := match o with HNode _ a => proper a | _ => True end.

(** Machine [i] is there, and satisfies [P]. *)
Definition has (w : HW) (i : nat) (P : HM -> Prop) : Prop := exists m, In m (k_ms w) /\ h_id m = i /\ P m.

(** A world to begin with: different numbers; every machine is either new or Running with the
    conditions of its node recorded; none is being deleted. *)
Definition beginning (w : HW) : Prop :=
  NoDup (map h_id (k_ms w)) /\
  Forall (fun m => (h_id m < k_next w)%nat /\ h_del m = false /\ proper (h_node m) /\ NoDup (map nc_type (ms_conds (h_st m))) /\
                   (h_phase m = "" \/ h_phase m = "Running" /\ ms_conds (h_st m) <> [])) (k_ms w).

(** The phases of all machines; the machines as the MachineSet controller sees them. *)
Definition phases_of (w : HW) : list string := map h_phase (k_ms w).
Definition seen_now (w : HW) : list Mach :=
  map (fun m => mkMach (h_id m) "" (if h_marked m then "true" else "") (h_phase m) (h_ctime m) (h_del m)) (k_ms w).

(** Every event of the execution meets [P] in the state in which it happens. *)
Fixpoint hEach (c : HConf) (P : HW -> HOp -> Prop) (w : HW) (l : list HOp) : Prop :=
  match l with [] => True | o :: r => P w o /\ hEach c P (hstep c w o) r end.

(** Passes of the MachineSet controller see the machines as they are. *)
Definition truthful (w : HW) (o : HOp) : Prop := match o with HSet _ v => v = seen_now w | _ => True end.
(** Delete calls succeed. *)
Definition deletes (o : HOp) : Prop := match o with HSet api _ => forall i, a_delete api i = true | _ => True end.

(** Machines that are neither being deleted nor marked by the user. *)
Definition in_use (w : HW) : Z := Z.of_nat (List.length (filter (fun m => negb (h_del m) && negb (h_marked m)) (k_ms w))).

(** Where the replacement of a broken machine stands. *)
Inductive Stage := SRunning | SWaiting | SFailed | SDeleting | SNoVm | SGone.
Definition at_stage (x : nat) (s : Stage) (w : HW) : Prop :=
  match s with
  | SRunning => has w x (fun m => h_del m = false /\ h_phase m = "Running")
  | SWaiting => has w x (fun m => h_del m = false /\ (h_phase m = "Unknown" \/ h_phase m = "Pending"))
  | SFailed => has w x (fun m => h_del m = false /\ h_phase m = "Failed")
  | SDeleting => has w x (fun m => h_del m = true /\ h_vm m = true)
  | SNoVm => has w x (fun m => h_del m = true /\ h_vm m = false)
  | SGone => forall m, In m (k_ms w) -> h_id m <> x
  end.

(** The node of machine [x] stays broken; the MachineSet controller does not show [x] as
    terminating without having got it deleted. Everything else may happen. *)
Definition stays_broken (c : HConf) (x : nat) (o : HOp) : Prop :=
  match o with
  | HNode i a => i = x -> broken c a /\ proper a
  | HSet api _ => a_status api x = true -> a_delete api x = true
  | _ => True
  end.

(** The conditions recorded on the machine are those of its node. *)
Definition noted (m : HM) : Prop := match h_node m with NodeIs conds _ => agrees (ms_conds (h_st m)) conds | _ => True end.

(** A step that brings the replacement of [x] forward: the pass that notices, the pass after the
    timeout when the rate limit allows it, the pass of the MachineSet controller that sees it failed,
    the deletion of the VM, the removal of the object. *)
Definition forward (c : HConf) (x : nat) (w : HW) (o : HOp) : Prop :=
  match o with
  | HPass i seen permit ok => i = x /\ ok = true /\
      (at_stage x SRunning w \/
       (at_stage x SWaiting w /\ permit = true /\ (forall p, In p seen -> p = "Unknown" \/ p = "Running") /\
        has w x (fun m => noted m /\ (h_phase m = "Unknown" -> cs_time (ms_cur (h_st m)) + c_health c < k_now w) /\
                                        (h_phase m = "Pending" -> cs_time (ms_cur (h_st m)) + c_creation c < k_now w))))
  | HSet api view => at_stage x SFailed w /\ view = seen_now w /\ a_delete api x = true
  | HVm i => i = x /\ at_stage x SDeleting w
  | HGone i => i = x /\ at_stage x SNoVm w
  | _ => False
  end.
(** At least [k] steps of the run are of that kind. *)
Fixpoint forwarded (c : HConf) (x k : nat) (w : HW) (l : list HOp) : Prop :=
  match k, l with
  | O, _ => True
  | S _, [] => False
  | S k', o :: r => (forward c x w o /\ forwarded c x k' (hstep c w o) r) \/ forwarded c x k (hstep c w o) r
  end.

(** Nobody helps by hand, the node of [x] and that of [y] stay broken, all views are up to date and
    every further delete call succeeds. *)
Definition on_its_own (c : HConf) (x y : nat) (w : HW) (o : HOp) : Prop :=
  match o with
  | HNode i a => proper a /\ (i = x \/ i = y -> broken c a)
  | HSet api v => v = seen_now w /\ forall i, a_delete api i = true
  | HPass _ seen _ _ => seen = phases_of w
  | HMark _ => False
  | _ => True
  end.
