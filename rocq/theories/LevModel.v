(** Edit distance and the suppression of status writes.
    Models pkg/util/strings/string.go and machine_util.go 545-598 of
    pkg/util/provider/machinecontroller.
    Simplification: the similarity ratio is a float64 in Go; [similar] compares the exact
    rational number. For texts shorter than 2^50 bytes rounding cannot change the outcome:
    changes/avgLen is either exactly 1/4, which is computed exactly, or further away from
    1/4 than the rounding errors. *)
Require Import Coq.ZArith.ZArith Coq.Lists.List Coq.Strings.String Coq.Strings.Ascii Coq.Bool.Bool.
From Verif Require Import MachModel.
Import ListNotations.
Open Scope string_scope.
Open Scope list_scope.
Open Scope Z_scope.

(** string.go 44-55. *)
Definition minimum (a b c : Z) : Z :=
  if a <? b then (if a <? c then a else c) else (if b <? c then b else c).

(** string.go 23-25: the first column, from [y] on. *)
Fixpoint firstColumn (y : Z) (s1 : list ascii) : list Z :=
  match s1 with
  | [] => []
  | _ :: r => y :: firstColumn (y + 1) r
  end.

(** string.go 29-38: the inner loop; [col] are the entries still to be updated,
    [left] is column[y-1] after its update. *)
Fixpoint inner (c2 : ascii) (s1 : list ascii) (col : list Z) (left lastkey : Z) : list Z :=
  match s1, col with
  | c1 :: s1', oldkey :: col' =>
      let incr := if Ascii.eqb c1 c2 then 0 else 1 in
      let new := minimum (oldkey + 1) (left + 1) (lastkey + incr) in
      new :: inner c2 s1' col' new oldkey
  | _, _ => []
  end.

(** string.go 26-39: the outer loop; [col] is column[1..]. *)
Fixpoint outer (x : Z) (s2 s1 : list ascii) (col : list Z) : list Z :=
  match s2 with
  | [] => col
  | c2 :: s2' => outer (x + 1) s2' s1 (inner c2 s1 col x (x - 1))
  end.

(** string.go 18-41; column[s1len], where column[0] is the number of the last round. *)
Definition Levenshtein (str1 str2 : string) : Z :=
  let s1 := list_ascii_of_string str1 in
  let s2 := list_ascii_of_string str2 in
  last (outer 1 s2 s1 (firstColumn 1 s1)) (Z.of_nat (List.length s2)).

(** Length of a text in bytes. string.go 11, 19, 20. *)
Definition len (s : string) : Z := Z.of_nat (String.length s).

(** string.go 10-14 and machine_util.go 588: StringSimilarityRatio(s1, s2) > 0.75, that
    is changes / ((len1 + len2) / 2) < 1/4. Two empty texts give NaN and false. *)
Definition similar (s1 s2 : string) : bool := 8 * Levenshtein s1 s2 <? len s1 + len s2.

(** machine_util.go 578-598: [s1] is the new status, [s2] the old one. *)
Definition isMachineStatusSimilar (now : Z) (s1 s2 : MStatus) : bool :=
  let o1 := ms_op s1 in
  let o2 := ms_op s2 in
  if (lo_time o1 <? now - 1800) || (lo_time o2 <? now - 1800) then false else
  (similar (lo_desc o1) (lo_desc o2) || String.eqb (lo_desc o1) (lo_desc o2)) &&
  String.eqb (lo_code o1) (lo_code o2) && String.eqb (lo_state o1) (lo_state o2) &&
  String.eqb (lo_type o1) (lo_type o2) &&
  String.eqb (cs_phase (ms_cur s1)) (cs_phase (ms_cur s2)) &&
  Bool.eqb (cs_timeoutActive (ms_cur s1)) (cs_timeoutActive (ms_cur s2)).

(** machine_util.go 545-562: the status that is sent to the API server, if any. *)
Definition machineStatusUpdate (now : Z) (m : MObj) (op : LastOp) (cur : CurSt) (lks : string) : option MStatus :=
  let s := mkMS (ms_conds (mo_status m)) op cur lks in
  if isMachineStatusSimilar now s (mo_status m) then None else Some s.
