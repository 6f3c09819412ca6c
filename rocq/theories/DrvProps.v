(** C119: which answers of a driver bring the machine controller down. *)
Require Import Coq.ZArith.ZArith Coq.Lists.List Coq.Strings.String Coq.Bool.Bool Coq.NArith.NArith.
From Verif Require Import CodesModel MachModel LevModel HealthModel LifeModel DrvModel DrvSpec DrvProofs.
Import ListNotations.
Open Scope string_scope.
Open Scope list_scope.
Open Scope Z_scope.

(** C119: a reconcile of the machine queue panics exactly after a crashing answer of the driver:
    neither a response nor an error to GetMachineStatus, CreateMachine or InitializeMachine, or the
    error Uninitialized of GetMachineStatus without a response. No other answer of anybody does it. *)
Theorem C119_machine_queue : forall cf m h,
  path (reconcileMachine cf m) h Panic <->
  exists h' c a, h = h' ++ [(c, a)] /\ asks (reconcileMachine cf m) h' c /\ fits c a /\ crashing true c a.
Proof. exact machine_panics. Qed.
Print Assumptions C119_machine_queue.

(** C119: a reconcile of the termination queue panics exactly after neither a response nor an error to
    GetMachineStatus, or when it comes to the drain of a machine that is not to be deleted. *)
Theorem C119_termination_queue : forall cf m h,
  path (reconcileTermination cf m) h Panic <->
  (exists h' c a, h = h' ++ [(c, a)] /\ asks (reconcileTermination cf m) h' c /\ fits c a /\ crashing false c a) \/
  (mo_dt m = None /\ atDrain m /\ exists now, h = [(CClass, AOther RUnit); (CNow, AOther (RTime now))]).
Proof. exact termination_panics. Qed.
Print Assumptions C119_termination_queue.

(** C119: with a driver that gives a response with every success and with Uninitialized, no reconcile
    panics: of the machine queue for any machine, of the termination queue for a machine that is to be
    deleted. *)
Theorem C119_well_behaved : forall cf m h,
  (forall c d, In (c, ADrv d) h -> wellBehaved c d) ->
  ~ path (reconcileMachine cf m) h Panic /\ (mo_dt m <> None -> ~ path (reconcileTermination cf m) h Panic).
Proof.
  intros cf m h W. split.
  - intros P. apply machine_panics in P. destruct P as (h' & c & a & -> & _ & F & C). revert C. apply no_crash; [exact F|].
    intros d ->. apply W. apply in_or_app. right. left. reflexivity.
  - intros D P. apply termination_panics in P. destruct P as [(h' & c & a & -> & _ & F & C) | (T & _)]; [|contradiction].
    revert C. apply no_crash; [exact F|]. intros d ->. apply W. apply in_or_app. right. left. reflexivity.
Qed.
Print Assumptions C119_well_behaved.

(** C119: in no history of a machine name does the machine queue panic without an answer Uninitialized
    that comes without a response. *)
Theorem C119_histories : forall cf now ops, w_c (run cf (init now) ops) = Some Panic ->
  exists ops1 text f vms ops2, ops = ops1 ++ OStep false (PFail text None) f vms :: ops2 /\ says text cUninitialized.
Proof. exact panic_noted. Qed.
Print Assumptions C119_histories.

(** C119: the lists of VMs and volume IDs: no response and no error crashes the orphan collection
    and a drain, nothing else does. *)
Theorem C119_lists : forall err vms ids,
  (listed err vms = None <-> err = None /\ vms = None) /\ (volumeID err ids = None <-> err = None /\ ids = None).
Proof.
  intros err vms ids. split; unfold listed, volumeID; destruct err; [ | destruct vms | | destruct ids as [[|v l]|]];
    split; try discriminate; try (intros (X & Y); discriminate); auto.
Qed.
Print Assumptions C119_lists.

(** A machine with its finalizer, about to be created. *)
Definition dv_cf : Cfg := mkCfg 7200 1200 600 "" (mkShow (fun _ => "") (fun _ => "")).
Definition dv_m : MObj := mkMO "m" 1 1 1000 None [MCM] [] [] "" (mkMS [] (mkOp "" "" 0 "" "") (mkCur "" false 0) "").
Definition dv_text : string := errorText (mkStatus cUninitialized "not yet").
Definition dv_before : list (Call * Ans) := [(CFrozen, AOther (RBool false)); (CClass, AOther RUnit); (CSecret dv_m, AOther RUnit)].

(** The creation gets to GetMachineStatus. *)
Example C119_asks_case : asks (reconcileMachine dv_cf dv_m) dv_before (CGetStatus dv_m).
Proof. apply asks_computed; vm_compute; reflexivity. Qed.

(** A node to be drained, of a machine that is to be deleted and of one that is not. *)
Definition dv_drain (dt : option Z) : MObj :=
  mkMO "m" 1 1 1000 dt [MCM] [("node", "n1")] [] "vm-1" (mkMS [] (mkOp InitiateDrain "" 0 "Processing" "Delete") (mkCur "Terminating" false 0) "").

Example C119_at_drain_case : atDrain (dv_drain None) /\ atDrain (dv_drain (Some 1000)).
Proof.
  assert (H : forall dt, drains (dv_drain dt) = true) by reflexivity.
  split; apply drains_at; (split; [discriminate | apply H]).
Qed.

(** Answers of a well-behaved driver on the way to a new VM. *)
Example C119_well_behaved_case :
  let h := dv_before ++ [(CGetStatus dv_m, ADrv (mkRaw None (Some (errorText (mkStatus cNotFound ""))))); (CCreate dv_m, ADrv (mkRaw (Some (mkResp "n1" "vm-1" "")) None))] in
  (forall c d, In (c, ADrv d) h -> wellBehaved c d) /\ asks (reconcileMachine dv_cf dv_m) h (CStaleNode "n1").
Proof.
  cbv zeta. split.
  - intros c d I0. repeat (destruct I0 as [E|I0]; [try discriminate E; injection E as <- <-|]); try destruct I0.
    + split; [discriminate|]. intros _ t E S. injection E as <-. destruct S as (m & S). vm_compute in S. discriminate S.
    + split; [discriminate|]. intros (m & E). discriminate E.
  - apply asks_computed; vm_compute; reflexivity.
Qed.

(** C119 refuted: an answer of the driver brings the controller down; success without a response, or
    Uninitialized without one. *)
Theorem C119_answers_refuted :
  exists cf m h, path (reconcileMachine cf m) (h ++ [(CGetStatus m, ADrv (mkRaw None None))]) Panic /\
    path (reconcileMachine cf m) (h ++ [(CGetStatus m, ADrv (mkRaw None (Some (errorText (mkStatus cUninitialized "not yet")))))]) Panic.
Proof.
  exists dv_cf, dv_m, dv_before. split; apply C119_machine_queue; exists dv_before; do 2 eexists; (split; [reflexivity|]); (split; [exact C119_asks_case|]);
    (split; [eexists; reflexivity|]).
  - left. split; [reflexivity|]. left. eexists. reflexivity.
  - right. split; [reflexivity|]. do 2 eexists. split; [reflexivity|]. split; [reflexivity|]. exists "not yet". vm_compute. reflexivity.
Qed.
Print Assumptions C119_answers_refuted.

(** The world while the controller runs into the same answer again and again. *)
Definition dv_world (log : list Event) : World := mkW (Some dv_m) (Some dv_m) [] 2 1 1000 false None None [] [dv_m] log.
Definition dv_try : list Op :=
  [OStart false; OStep false (RBool false) Applied []; OStep false RUnit Applied []; OStep false RUnit Applied []; OStep false (PFail dv_text None) Applied []].

Definition dv_log : list Event :=
  [(QC, CGetStatus dv_m, PFail dv_text None); (QC, CSecret dv_m, RUnit); (QC, CClass, RUnit); (QC, CFrozen, RBool false)].

Lemma dv_once : forall cf log, run cf (dv_world log) (dv_try ++ [OStep false RUnit Applied []]) = dv_world (dv_log ++ log).
Proof. intros. vm_compute. reflexivity. Qed.
Lemma dv_panic : forall cf log, w_c (run cf (dv_world log) dv_try) = Some Panic.
Proof. intros. vm_compute. reflexivity. Qed.
Lemma dv_base : forall cf, run cf (init 1000) [OCreate [] [] [MCM] ""; OAdvance] = dv_world [].
Proof. intros. vm_compute. reflexivity. Qed.
Lemma run_app : forall cf w a b, run cf w (a ++ b) = run cf (run cf w a) b.
Proof. intros. apply fold_left_app. Qed.

Fixpoint dv_tries (n : nat) : list Op := match n with O => [] | S n => dv_tries n ++ dv_try ++ [OStep false RUnit Applied []] end.

(** C119 refuted: the crash repeats. A driver that goes on to answer so makes the controller panic at the
    same machine after every restart, any number of times; the machine stays as it is, nothing tells. *)
Theorem C119_crash_loop_refuted : forall cf n,
  let w := run cf (init 1000) ([OCreate [] [] [MCM] ""; OAdvance] ++ dv_tries n) in
  w_obj w = Some dv_m /\ w_vers w = [dv_m] /\ w_c (run cf w dv_try) = Some Panic /\ w_c (run cf w (dv_try ++ [OStep false RUnit Applied []])) = None.
Proof.
  intros cf n. cbv zeta. rewrite run_app, dv_base.
  assert (H : forall log, exists log', run cf (dv_world log) (dv_tries n) = dv_world log').
  { induction n as [|n IH]; intros log; [exists log; reflexivity|].
    destruct (IH log) as (log' & E). exists (dv_log ++ log'). cbn [dv_tries]. rewrite run_app, E. apply dv_once. }
  destruct (H []) as (log & ->). rewrite dv_once. split; [reflexivity|]. split; [reflexivity|]. split; [apply dv_panic | reflexivity].
Qed.
Print Assumptions C119_crash_loop_refuted.
