(** The health check of machines.
    Models pkg/util/provider/machinecontroller/machine_util.go 186-217, 616-806 and 871-911.
    The texts of durations and of condition lists are inputs ([show]). *)
Require Import Coq.ZArith.ZArith Coq.Lists.List Coq.Strings.String Coq.Strings.Ascii Coq.Bool.Bool.
From Verif Require Import MachModel.
Import ListNotations.
Open Scope string_scope.
Open Scope list_scope.
Open Scope Z_scope.

(** strings.Split(s, ","), machine_util.go 885. *)
Fixpoint splitComma (acc s : string) : list string :=
  match s with
  | EmptyString => [acc]
  | String a r => if Ascii.eqb a ","%char then acc :: splitComma "" r else splitComma (acc ++ String a "")%string r
  end.

(** machine_util.go 871-894: [conds] are the conditions on the machine object, [bad] the
    effective list of condition types that make it unhealthy. *)
Definition isHealthy (bad : string) (conds : list NCond) : bool :=
  match conds with
  | [] => false
  | _ => forallb (fun c =>
           negb (String.eqb (nc_type c) "Ready" && negb (String.eqb (nc_status c) "True")) &&
           forallb (fun b => negb (String.eqb (nc_type c) b && negb (String.eqb (nc_status c) "False"))) (splitComma "" bad)) conds
  end.

(** machine_util.go 196-201: the map from type to condition, the last one wins. *)
Definition byType (t : string) (l : list NCond) : option NCond :=
  find (fun c => String.eqb (nc_type c) t) (rev l).

(** machine_util.go 188-219. *)
Definition nodeConditionsHaveChanged (old new : list NCond) : bool :=
  existsb (fun c => match byType (nc_type c) old with
                    | None => true
                    | Some o => negb (String.eqb (nc_status o) (nc_status c))
                    end) new ||
  existsb (fun c => match byType (nc_type c) new with None => true | Some _ => false end) old.

(** What the node lister answers (machine_util.go 626-631): an error, no such node, or
    the conditions of the node and whether it has the taint for critical components
    (machine_util.go 896-903). *)
Inductive NodeAns := NodeErr | NodeMissing | NodeIs (conds : list NCond) (critical : bool).

(** Outcome of a health check: the lookup failed; a status is written; the machine is to
    be marked failed under the rate limit (with this description); it is looked at again
    later; nothing. machine_util.go 618-806. *)
Inductive HOut := HErr | HWrite (s : MStatus) | HTryFail (description : string) (s : MStatus) | HWait | HNone.

(** The texts put into descriptions.
    fmt and String methods used in machine_util.go 618-806 and 808-818 (external). *)
Record Show := mkShow { sh_conds : list NCond -> string; sh_dur : Z -> string }.

(** machine_util.go 618-806; [creation] and [health] are the effective timeouts, [bad] the
    effective condition list. *)
Definition reconcileMachineHealth (sh : Show) (creation health : Z) (bad : string) (now : Z) (node : NodeAns) (m : MObj) : HOut :=
  let st := mo_status m in
  let fin (dirty : bool) (clone : MStatus) :=
    if dirty then HWrite clone else
    if String.eqb (phase m) "Pending" || String.eqb (phase m) "Unknown" then
      let isPending := String.eqb (phase m) "Pending" in
      let timeOutDuration := if isPending then creation else health in
      if 0 <? (now - timeOutDuration) - cs_time (ms_cur st) then
        if isPending then
          HWrite (mkMS (ms_conds clone)
                    (mkOp ("Machine " ++ mo_name m ++ " failed to join the cluster in " ++ sh_dur sh timeOutDuration ++ " minutes.")%string
                       "" now "Failed" (lo_type (ms_op st)))
                    (mkCur "Failed" false now) (ms_lks clone))
        else HTryFail ("Machine " ++ mo_name m ++ " health checks failing since last " ++ sh_dur sh timeOutDuration ++
                       " minutes. Updating machine phase to Failed. Node Conditions: " ++ sh_conds sh (ms_conds st))%string clone
      else HWait
    else HNone in
  match node with
  | NodeErr => HErr
  | NodeMissing =>
      if negb (match ms_conds st with [] => true | _ => false end) && String.eqb (phase m) "Running" then
        fin true (mkMS (ms_conds st)
                    (mkOp ("Node object went missing. Machine " ++ mo_name m ++ " is unhealthy - changing MachinePhase to Unknown")%string
                       "" now "Processing" "HealthCheck")
                    (mkCur "Unknown" false now) (ms_lks st))
      else fin false st
  | NodeIs conds critical =>
      let changed := nodeConditionsHaveChanged (ms_conds st) conds in
      let cs := if changed then conds else ms_conds st in
      if isHealthy bad cs then
        if negb (String.eqb (phase m) "Running") && negb (String.eqb (phase m) "Pending" && critical) then
          let created := String.eqb (lo_type (ms_op st)) "Create" && negb (String.eqb (lo_state (ms_op st)) "Successful") in
          fin true (mkMS cs
                      (mkOp (if created then ("Machine " ++ mo_name m ++ " successfully joined the cluster")%string
                             else ("Machine " ++ mo_name m ++ " successfully re-joined the cluster")%string)
                         "" now "Successful" (if created then "Create" else "HealthCheck"))
                      (mkCur "Running" false now) (ms_lks st))
        else fin changed (mkMS cs (ms_op st) (ms_cur st) (ms_lks st))
      else
        if String.eqb (phase m) "Running" then
          fin true (mkMS cs
                      (mkOp ("Machine " ++ mo_name m ++ " is unhealthy - changing MachinePhase to Unknown. Node conditions: " ++ sh_conds sh cs)%string
                         "" now "Processing" "HealthCheck")
                      (mkCur "Unknown" false now) (ms_lks st))
        else fin changed (mkMS cs (ms_op st) (ms_cur st) (ms_lks st))
  end.

(** machine_util.go 1526-1551, the status written when the machine may be marked failed. *)
Definition failedStatus (now : Z) (description : string) (m : MObj) (clone : MStatus) : MStatus :=
  mkMS (ms_conds clone) (mkOp description "" now "Failed" (lo_type (ms_op (mo_status m)))) (mkCur "Failed" false now) (ms_lks clone).
