(** The Machine object as the machine controller sees it.
    Models pkg/apis/machine/v1alpha1/machine_types.go. Times are numbers of seconds. *)
Require Import Coq.ZArith.ZArith Coq.Lists.List Coq.Strings.String Coq.Bool.Bool.
Import ListNotations.
Open Scope string_scope.
Open Scope list_scope.
Open Scope Z_scope.

(** machine_types.go 111-127. *)
Record LastOp := mkOp { lo_desc : string; lo_code : string; lo_time : Z; lo_state : string; lo_type : string }.

(** machine_types.go 243-250. *)
Record CurSt := mkCur { cs_phase : string; cs_timeoutActive : bool; cs_time : Z }.

(** k8s.io/api/core/v1 NodeCondition: type, status, reason, message, last transition. *)
Record NCond := mkNCond { nc_type : string; nc_status : string; nc_reason : string; nc_msg : string; nc_trans : Z }.

(** machine_types.go 94-108. *)
Record MStatus := mkMS { ms_conds : list NCond; ms_op : LastOp; ms_cur : CurSt; ms_lks : string }.

(** The fields of a Machine object (machine_types.go 36-73 and its metadata) used here.
    [mo_rv] is the resource version, [mo_dt] the deletion timestamp. *)
Record MObj := mkMO {
  mo_name : string; mo_uid : nat; mo_rv : nat; mo_created : Z; mo_dt : option Z; mo_fins : list string;
  mo_labels : list (string * string); mo_annots : list (string * string); mo_pid : string; mo_status : MStatus }.

(** Indexing a Go map of strings: value and presence. As at machine_util.go 1703-1705. *)
Fixpoint get (k : string) (m : list (string * string)) : option string :=
  match m with
  | [] => None
  | (k', v) :: r => if String.eqb k k' then Some v else get k r
  end.
(** Indexing a Go map of strings: the zero value when absent. As at machine_util.go 1703-1705. *)
Definition getS (k : string) (m : list (string * string)) : string :=
  match get k m with Some v => v | None => "" end.
(** Assignment to a Go map. As at machine.go 633. *)
Fixpoint put (k v : string) (m : list (string * string)) : list (string * string) :=
  match m with
  | [] => [(k, v)]
  | (k', v') :: r => if String.eqb k k' then (k, v) :: r else (k', v') :: put k v r
  end.

(** Phase of a machine (machine_types.go 244). *)
Definition phase (m : MObj) : string := cs_phase (ms_cur (mo_status m)).
(** Description of the last operation (machine_types.go 112). *)
Definition desc (m : MObj) : string := lo_desc (ms_op (mo_status m)).
(** pkg/util/provider/machinecontroller/machine_util.go 1703-1705 and machine_types.go:
    the label "node". *)
Definition nodeName (m : MObj) : string := getS "node" (mo_labels m).

(** The same object with other labels. machine.go 625-653 writes it. *)
Definition withLabels (l : list (string * string)) (m : MObj) : MObj :=
  mkMO (mo_name m) (mo_uid m) (mo_rv m) (mo_created m) (mo_dt m) (mo_fins m) l (mo_annots m) (mo_pid m) (mo_status m).
(** The same object with other finalizers. machine_util.go 825-865 writes it. *)
Definition withFins (l : list string) (m : MObj) : MObj :=
  mkMO (mo_name m) (mo_uid m) (mo_rv m) (mo_created m) (mo_dt m) l (mo_labels m) (mo_annots m) (mo_pid m) (mo_status m).
(** The same object with another status. machine_util.go 545-575 writes it. *)
Definition withStatus (s : MStatus) (m : MObj) : MObj :=
  mkMO (mo_name m) (mo_uid m) (mo_rv m) (mo_created m) (mo_dt m) (mo_fins m) (mo_labels m) (mo_annots m) (mo_pid m) s.
