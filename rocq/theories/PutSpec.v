(* What a user expects of the status of a MachineSet (C96) and of the mark on a machine
   that is to be deleted (C97). *)
Require Import List String Bool ZArith.
From Verif Require Import Types StatusModel MachModel PutModel.
Import ListNotations.
Open Scope string_scope.
Open Scope list_scope.
Open Scope Z_scope.

(* The set as it is stored. *)
Definition stored (w : PW) (o : PSet) : Prop := exists v, w_set w = Some (v, o).

(* The set as it was stored at some point of the history. *)
Definition past (ops : list POp) (o : PSet) : Prop := exists pre post, ops = pre ++ post /\ stored (prun pinit pre) o.

(* The step is the controller's. *)
Definition controllers (op : POp) : Prop :=
  match op with OBegin | OCompute _ _ _ | OPut _ | OGet _ | OCrash => True | _ => False end.

(* The step is somebody else's and leaves the set in place. *)
Definition harmless (op : POp) : Prop := match op with ESpec _ _ | EMeta _ | EStatus _ => True | _ => False end.

(* No set is re-created under the name while a reconcile of the name runs. *)
Fixpoint calm (w : PW) (ops : list POp) : Prop :=
  match ops with
  | [] => True
  | op :: r => match op with ECreate _ _ _ => w_pc w = Idle | _ => True end /\ calm (pstep w op) r
  end.

(* Counts and failed machines of two statuses agree. *)
Definition sameCounts (a b : SStatus) : Prop :=
  st_replicas a = st_replicas b /\ st_labeled a = st_labeled b /\ st_ready a = st_ready b /\ st_avail a = st_avail b /\ st_failed a = st_failed b.

(* Only status and observed generation differ. *)
Definition onlyStatus (a b : PSet) : Prop :=
  p_uid a = p_uid b /\ p_gen a = p_gen b /\ p_replicas a = p_replicas b /\ p_tmpl a = p_tmpl b /\ p_meta a = p_meta b.

(* The status that belongs to a set read at some time, for the machines seen. *)
Definition computed (rd : PSet) (now : Z) (l : list SMachine) (err : option string) : SStatus :=
  calculateMachineSetStatus now (p_tmpl rd) (p_replicas rd) (p_status rd) l err.

(* A machine marked as being deleted: only operation and phase change. *)
Definition marks (op : LastOp) (cur : CurSt) (m x : MObj) : Prop :=
  mo_name x = mo_name m /\ mo_uid x = mo_uid m /\ mo_rv x = mo_rv m /\ mo_created x = mo_created m /\ mo_dt x = mo_dt m /\ mo_fins x = mo_fins m /\
  mo_labels x = mo_labels m /\ mo_annots x = mo_annots m /\ mo_pid x = mo_pid m /\
  ms_conds (mo_status x) = ms_conds (mo_status m) /\ ms_lks (mo_status x) = ms_lks (mo_status m) /\
  ms_op (mo_status x) = op /\ ms_cur (mo_status x) = cur.

(* The mark would say nothing new: same code, state, type, phase and time-out mark, all
   not older than half an hour. *)
Definition saysSame (now : Z) (op : LastOp) (cur : CurSt) (s : MStatus) : Prop :=
  lo_code op = lo_code (ms_op s) /\ lo_state op = lo_state (ms_op s) /\ lo_type op = lo_type (ms_op s) /\
  cs_phase cur = cs_phase (ms_cur s) /\ cs_timeoutActive cur = cs_timeoutActive (ms_cur s) /\
  now - 1800 <= lo_time op /\ now - 1800 <= lo_time (ms_op s) /\ now - 1800 <= cs_time cur /\ now - 1800 <= cs_time (ms_cur s).
