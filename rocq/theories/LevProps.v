(** Properties of the suppression of status writes: C36, C61. *)
Require Import Coq.ZArith.ZArith Coq.Lists.List Coq.Strings.String Coq.Strings.Ascii Coq.Bool.Bool Coq.micromega.Lia.
From Verif Require Import MachModel LevModel LevSpec LevProofs.
Import ListNotations.
Open Scope string_scope.
Open Scope list_scope.
Open Scope Z_scope.

(** C36: the number computed is the least number of edits. *)
Theorem C36_distance : forall s t, distance s t (Z.to_nat (Levenshtein s t)) /\ 0 <= Levenshtein s t.
Proof. exact Levenshtein_distance. Qed.
Print Assumptions C36_distance.

Example C36_distance_case : Levenshtein "kitten" "sitting" = 3 /\ Levenshtein "" "abc" = 3 /\ Levenshtein "abc" "" = 3.
Proof. repeat split. Qed.

(** C36: the distance is symmetric. *)
Theorem C36_symmetric : forall s t, Levenshtein s t = Levenshtein t s.
Proof. exact Levenshtein_sym. Qed.
Print Assumptions C36_symmetric.

Example C36_symmetric_case : Levenshtein "sitting" "kitten" = 3.
Proof. reflexivity. Qed.

(** C36: a write is skipped exactly if phase, time-out mark, error code, state and type
    are unchanged, both operations are at most 30 minutes old, and the descriptions are
    equal or their distance is below a quarter of their average length. *)
Theorem C36_skipped : forall now m op cur lks, machineStatusUpdate now m op cur lks = None <->
  (now - 1800 <= lo_time op /\ now - 1800 <= lo_time (ms_op (mo_status m))) /\
  (lo_desc op = lo_desc (ms_op (mo_status m)) \/
   forall n, distance (lo_desc op) (lo_desc (ms_op (mo_status m))) n ->
     8 * Z.of_nat n < Z.of_nat (String.length (lo_desc op)) + Z.of_nat (String.length (lo_desc (ms_op (mo_status m))))) /\
  lo_code op = lo_code (ms_op (mo_status m)) /\ lo_state op = lo_state (ms_op (mo_status m)) /\
  lo_type op = lo_type (ms_op (mo_status m)) /\ cs_phase cur = cs_phase (ms_cur (mo_status m)) /\
  cs_timeoutActive cur = cs_timeoutActive (ms_cur (mo_status m)).
Proof. exact skipped_iff. Qed.
Print Assumptions C36_skipped.

(** C36: and otherwise exactly the intended status is written. *)
Theorem C36_written : forall now m op cur lks s, machineStatusUpdate now m op cur lks = Some s ->
  ms_op s = op /\ ms_cur s = cur /\ ms_lks s = lks /\ ms_conds s = ms_conds (mo_status m).
Proof. exact written_status. Qed.
Print Assumptions C36_written.

Definition lv_m (d : string) (lks : string) : MObj :=
  mkMO "m" 1 1 0 (Some 5) [] [] [] "" (mkMS [] (mkOp d "Unavailable" 100 "Failed" "Delete") (mkCur "Terminating" false 90) lks).
Definition lv_op (d : string) : LastOp := mkOp d "Unavailable" 200 "Failed" "Delete".

Example C36_skipped_case :
  let m := lv_m "VM deletion failed, request 4711. Initiate VM deletion" "" in
  machineStatusUpdate 200 m (lv_op "VM deletion failed, request 4712. Initiate VM deletion") (mkCur "Terminating" false 90) "" = None /\
  machineStatusUpdate 2000 m (lv_op "VM deletion failed, request 4712. Initiate VM deletion") (mkCur "Terminating" false 90) "" <> None /\
  machineStatusUpdate 200 m (lv_op "Something else happened") (mkCur "Terminating" false 90) "" <> None.
Proof. repeat split; vm_compute; congruence. Qed.

(** C61: what the provider says about the state of the VM is written whenever something
    is written. Partial: it is lost when the write is skipped, see below. *)
Theorem C61_last_known_state_partial : forall now m op cur lks s, machineStatusUpdate now m op cur lks = Some s -> ms_lks s = lks.
Proof. exact (fun now m op cur lks s H => proj1 (proj2 (proj2 (written_status now m op cur lks s H)))). Qed.
Print Assumptions C61_last_known_state_partial.

Example C61_last_known_state_case :
  option_map ms_lks (machineStatusUpdate 2000 (lv_m "d" "old") (lv_op "d") (mkCur "Terminating" false 90) "new") = Some "new".
Proof. reflexivity. Qed.

(** C61 fails: a new state of the VM reported with an error similar to the last one is
    not stored. *)
Theorem C61_state_lost_refuted : exists now m op cur lks,
  ms_lks (mo_status m) <> lks /\ machineStatusUpdate now m op cur lks = None.
Proof.
  exists 200, (lv_m "VM deletion failed. Initiate VM deletion" "disk attached"),
    (lv_op "VM deletion failed. Initiate VM deletion"), (mkCur "Terminating" false 90), "disk detached".
  split; [discriminate | reflexivity].
Qed.
Print Assumptions C61_state_lost_refuted.
