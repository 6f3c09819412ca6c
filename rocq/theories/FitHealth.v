(** The repository's own tests of the health check, of the rate limit, of the status comparison and of the
    copying of the node template, run on [MetaModel], [LevModel], [HealthModel] and
    [RateModel]. Evidence that the models are the code; no claim rests on this file. Tests in
    pkg/util/provider/machinecontroller: machine_util_test.go 36-1977 and 2087-2711, machine_test.go
    78-107. *)
Require Import Coq.ZArith.ZArith Coq.Lists.List Coq.Strings.String Coq.Strings.Ascii Coq.Bool.Bool.
From Verif Require MetaModel RateModel.
From Verif Require Import MachModel LevModel HealthModel.
Import ListNotations.
Open Scope string_scope.
Open Scope list_scope.
Open Scope Z_scope.

(** ** Labels, annotations and taints *)

(** machine_util_test.go 465, 519, 573, 629, 684, 738, 794: the template's labels, those applied last, those
    of the node. *)
Example labels_table :
  let sync := MetaModel.syncMap in
  sync [("key1", "value1")] [("key1", "value1")] [("key1", "value1")] = ([("key1", "value1")], false) /\
  sync [("key1", "valueChanged")] [("key1", "value1")] [("key1", "value1")] = ([("key1", "valueChanged")], true) /\
  sync [("key1", "value1"); ("key2", "value2")] [("key1", "value1")] [("key1", "value1")]
    = ([("key2", "value2"); ("key1", "value1")], true) /\
  sync [("key1", "value1")] [("key1", "value1"); ("key2", "value2")] [("key1", "value1"); ("key2", "value2")]
    = ([("key1", "value1")], true) /\
  sync [("key1", "value1")] [("key1", "value1")] [("key1", "value2")] = ([("key1", "value1")], true) /\
  sync [("key1", "value1")] [("key1", "value1")] [("key1", "value1"); ("keyNew", "valueNew")]
    = ([("key1", "value1"); ("keyNew", "valueNew")], false) /\
  sync [("key1", "value1"); ("key2", "value2")] [("key1", "value1")] []
    = ([("key2", "value2"); ("key1", "value1")], true).
Proof. repeat split. Qed.

(** machine_util_test.go 898, 950, 1002, 1056, 1105, 1157, 1211: the same for annotations. *)
Example annotations_table :
  let sync := MetaModel.syncMap in
  sync [("anno1", "anno1")] [("anno1", "anno1")] [("anno1", "anno1")] = ([("anno1", "anno1")], false) /\
  sync [("anno1", "annoChanged")] [("anno1", "anno1")] [("anno1", "anno1")] = ([("anno1", "annoChanged")], true) /\
  sync [("anno1", "anno1"); ("anno2", "anno2")] [("anno1", "anno1")] [("anno1", "anno1")]
    = ([("anno2", "anno2"); ("anno1", "anno1")], true) /\
  sync [("anno1", "anno1")] [("anno1", "anno1"); ("anno2", "anno2")] [("anno1", "anno1"); ("anno2", "anno2")]
    = ([("anno1", "anno1")], true) /\
  sync [("anno1", "anno1")] [("anno1", "anno1")] [("anno1", "anno2")] = ([("anno1", "anno1")], true) /\
  sync [("anno1", "anno1")] [("anno1", "anno1")] [("anno1", "anno1"); ("annoNew", "annoNew")]
    = ([("anno1", "anno1"); ("annoNew", "annoNew")], false) /\
  sync [("anno1", "anno1"); ("anno2", "anno2")] [("anno1", "anno1")] [] = ([("anno2", "anno2"); ("anno1", "anno1")], true).
Proof. repeat split. Qed.

(** A taint without a time. machine_util_test.go 1312-1330. *)
Definition taint (k v e : string) : MetaModel.Taint := MetaModel.mkTaint k v e None.
(** machine_util_test.go 1312, 1382, 1452, 1532, 1607, 1687, 1767 (the order of the taints does
    not matter there either, ConsistOf). *)
Example taints_table :
  let sync := MetaModel.syncTaints in
  let t1 := taint "Key1" "Value1" "NoSchedule" in
  let t2 := taint "Key2" "Value2" "NoSchedule" in
  sync [t1] [t1] [t1] = ([t1], false) /\
  sync [taint "Key1" "NewValue" "NoSchedule"] [taint "Key1" "OldValue" "NoSchedule"] [taint "Key1" "OldValue" "NoSchedule"]
    = ([taint "Key1" "NewValue" "NoSchedule"], true) /\
  sync [t1; t2] [t1] [t1] = ([t2; t1], true) /\
  sync [t1] [t1; t2] [t1; t2] = ([t1], true) /\
  sync [t1; taint "Key1" "Value1" "NoExecute"] [t1] [taint "Key1" "Value2" "NoSchedule"]
    = ([t1; taint "Key1" "Value1" "NoExecute"], true) /\
  sync [t1] [t1] [t1; taint "KeyNew" "ValueNew" "NoSchedule"] = ([t1; taint "KeyNew" "ValueNew" "NoSchedule"], false) /\
  sync [t1; t2] [t1] [] = ([t1; t2], true).
Proof. repeat split. Qed.

(** JSON of the templates that occur as records here; the encoding itself is not modelled. *)
Definition encoded (tp : MetaModel.Template) : string :=
  match MetaModel.tpTaints tp with
  | [_; _] => "two taints"
  | _ => match MetaModel.tpLabels tp with [] => "empty" | _ => "full" end
  end.
(** The node template of machine_util_test.go 190; that of 95 has the record itself among its
    annotations. *)
Definition fullTemplate (more : MetaModel.Map) : MetaModel.Template :=
  MetaModel.mkTemplate (("anno1", "anno1") :: more) [("key1", "value1")] [taint "key1" "value1" "NoSchedule"].
(** machine_util_test.go 317. *)
Definition twoTaints : MetaModel.Template :=
  MetaModel.mkTemplate [] [] [taint "key1" "value1" "NoExecute"; taint "key1" "value1" "NoSchedule"].
Definition decoded (s : string) : option MetaModel.Template :=
  if String.eqb s "two taints" then Some twoTaints else if String.eqb s "full" then Some (fullTemplate [])
  else if String.eqb s "empty" then Some MetaModel.noTemplate else None.
(** machine_util_test.go 95, 190, 317: in the end exactly what the template says is on the node; 190
    starts from a node without annotations; in 317 two taints differ in their effect only. *)
Example templates_table :
  let sync := MetaModel.syncNode encoded decoded in
  let full := MetaModel.mkNode (Some [(MetaModel.LastApplied, "full"); ("anno1", "anno1")]) [("key1", "value1")] [taint "key1" "value1" "NoSchedule"] in
  sync (fullTemplate [(MetaModel.LastApplied, "a record")])
      (MetaModel.mkNode (Some [("anno1", "anno1")]) [("key1", "value1")] [taint "key1" "value1" "NoSchedule"]) = MetaModel.Write full /\
  sync (fullTemplate []) (MetaModel.mkNode None [] []) = MetaModel.Write full /\
  sync twoTaints (MetaModel.mkNode (Some [(MetaModel.LastApplied, "empty")]) [] [])
    = MetaModel.Write (MetaModel.mkNode (Some [(MetaModel.LastApplied, "two taints")]) [] [taint "key1" "value1" "NoExecute"; taint "key1" "value1" "NoSchedule"]).
Proof. repeat split. Qed.

(** ** Similar statuses *)

Definition newline : string := String (ascii_of_nat 10) (String (ascii_of_nat 9) "").
(** A status with this description, written [ago] seconds before 100000. *)
Definition described (ago : Z) (d : string) : MStatus := mkMS [] (mkOp d "" (100000 - ago) "" "") (mkCur "" false 0) "".
(** The descriptions of machine_util_test.go 1862-1940. *)
Definition long (id : string) : string :=
  ("Error occurred with decoding machine error status while getting VM status, aborting without retry. gRPC code: AuthFailure: AWS was not able to validate the provided access credentials"
   ++ newline ++ "status code: 401, request id: " ++ id ++ " Set machine status to termination. Now, getting VM Status")%string.
Definition short (id : string) : string :=
  ("AWS was not able to validate the provided access credentials" ++ newline ++ "status code: 401, request id: " ++ id)%string.
(** machine_util_test.go 1862, 1881, 1900, 1919, 1938, 1957 (texts of utils.go there). *)
Example similar_table :
  let similar a da b db := isMachineStatusSimilar 100000 (described a da) (described b db) in
  let id := "fbc513f0-ca27-4a42-a203-42048d5773a2" in
  similar 0 (long id) 0 (long id) = true /\
  similar 0 (long id) 3600 (long id) = false /\
  similar 0 (long id) 60 (long id) = true /\
  similar 0 (long id) 0 (long "dsfddsfd-dsfdfd-dsfdsfds-dsfdkjljl32") = true /\
  similar 0 (short id) 0 (short "23423424-342f-sdff-45cs-3242sdfsdfd") = true /\
  similar 0 "Initiate node object deletion" 0 "Initiate machine object finalizer removal" = false.
Proof. vm_compute. repeat split. Qed.

(** ** Health *)

Definition cond (t s : string) : NCond := mkNCond t s "" "" 0.
(** The conditions of machine_test.go 55-76, one of them replaced, with the list of the test's
    options (controller_suite_test.go 585). *)
Definition healthyWith (t s : string) : bool :=
  isHealthy "ReadonlyFilesystem,KernelDeadlock,DiskPressure,NetworkUnavailable"
    (map (fun c => if String.eqb (nc_type c) t then cond t s else c)
       [cond "DiskPressure" "False"; cond "MemoryPressure" "False"; cond "NetworkUnavailable" "False"; cond "Ready" "True"]).
(** machine_test.go 89-107. *)
Example healthy_table :
  map (healthyWith "Ready") ["True"; "False"; "Unknown"] = [true; false; false] /\
  map (healthyWith "DiskPressure") ["True"; "False"; "Unknown"] = [false; true; false] /\
  map (healthyWith "MemoryPressure") ["True"; "False"; "Unknown"] = [true; true; true] /\
  map (healthyWith "NetworkUnavailable") ["True"; "False"; "Unknown"] = [false; true; false].
Proof. vm_compute. repeat split. Qed.

(** nodeConditions of controller_suite_test.go: Ready, and four conditions that make a machine
    unhealthy when true. *)
Definition nodeConditions (ready readonly : bool) : list NCond :=
  let b (x : bool) := if x then "True" else "False" in
  [cond "Ready" (b ready); cond "KernelDeadlock" "False"; cond "ReadonlyFilesystem" (b readonly); cond "DiskPressure" "False";
   cond "NetworkUnavailable" "False"].
(** One health check: the phase of the machine, the minutes since its last update, its conditions,
    and the answer for its node. The timeouts are 20 and 10 minutes. *)
Definition health (phase : string) (minutes : Z) (conds : list NCond) (node : NodeAns) : HOut :=
  reconcileMachineHealth (mkShow (fun _ => "") (fun _ => "")) 1200 600 "KernelDeadlock,ReadonlyFilesystem,DiskPressure,NetworkUnavailable"
    100000 node
    (mkMO "machineset-0" 1 1 0 None ["machine.sapcloud.io/machine-controller-manager"] [("node", "node-0")] [] ""
       (mkMS conds (mkOp "" "" 0 "" "") (mkCur phase false (100000 - 60 * minutes)) "")).
(** The phase that the test finds afterwards; [may]: the rate limit allows the marking. *)
Definition phaseAfter (may : bool) (phase : string) (o : HOut) : string :=
  match o with
  | HWrite s => cs_phase (ms_cur s)
  | HTryFail _ _ => if may then "Failed" else phase
  | _ => phase
  end.
(** machine_util_test.go 2155, 2171, 2190, 2209, 2228, 2244, 2263, 2279, 2298, 2330, 2357, 2386. *)
Example health_table :
  let good := nodeConditions true false in
  let bad := nodeConditions false false in
  let t p m c n := phaseAfter true p (health p m c n) in
  t "Pending" 25 [] NodeMissing = "Failed" /\
  t "Unknown" 0 bad (NodeIs good false) = "Running" /\
  t "Running" 0 good (NodeIs bad false) = "Unknown" /\
  t "Running" 0 good (NodeIs (nodeConditions true true) false) = "Unknown" /\
  t "Running" 0 good NodeMissing = "Unknown" /\
  t "Unknown" 15 bad (NodeIs bad false) = "Failed" /\
  t "Unknown" 15 bad NodeMissing = "Failed" /\
  t "Pending" 15 good NodeMissing = "Pending" /\
  t "Pending" 0 good (NodeIs good true) = "Pending" /\
  t "Pending" 0 good (NodeIs good false) = "Running" /\
  t "Unknown" 0 good (NodeIs good false) = "Running" /\
  t "Unknown" 0 good (NodeIs good true) = "Running".
Proof. vm_compute. repeat split. Qed.
(** The same tests expect another look soon (ShortRetry) also where nothing was written:
    machine_util_test.go 2279, 2298. *)
Example health_waits :
  health "Pending" 15 (nodeConditions true false) NodeMissing = HWait /\
  health "Pending" 0 (nodeConditions true false) (NodeIs (nodeConditions true false) true) = HWait.
Proof. split; vm_compute; reflexivity. Qed.

(** ** Rate limit *)

(** A machine as the cache shows it. *)
Definition shown (dep : string) (label : option string) (phase : string) : RateModel.RM :=
  RateModel.mkRM dep label [Some phase] 1 0.
(** What happens to the first machine, Unknown for 15 minutes. *)
Definition meltdown (ms : list RateModel.RM) : string :=
  phaseAfter (RateModel.canMarkMachineFailed (RateModel.rm_md (hd RateModel.noRM ms)) ms) "Unknown"
    (health "Unknown" 15 (nodeConditions false false) (NodeIs (nodeConditions false false) false)).
(** machine_util_test.go 2476, 2500, 2524, whose machines have no label "name", and 2541, 2566, 2591,
    2616, 2641, 2666, whose machines have it. *)
Example meltdown_table :
  let d1 := "machinedeployment-1" in
  let d2 := "machinedeployment-2" in
  let l := Some d1 in
  meltdown [shown d1 None "Unknown"; shown d2 None "Unknown"] = "Failed" /\
  meltdown [shown d1 None "Unknown"; shown d2 None "Failed"] = "Failed" /\
  meltdown [shown d1 None "Unknown"; shown d1 None "Unknown"] = "Failed" /\
  meltdown [shown d1 l "Unknown"; shown d1 l "Failed"] = "Unknown" /\
  meltdown [shown d1 l "Unknown"; shown d1 l "Terminating"] = "Unknown" /\
  meltdown [shown d1 l "Unknown"; shown d1 l ""] = "Unknown" /\
  meltdown [shown d1 l "Unknown"; shown d1 l "Pending"] = "Unknown" /\
  meltdown [shown d1 l "Unknown"; shown d1 l "CrashLoopBackOff"] = "Unknown" /\
  meltdown [shown d1 l "Unknown"; shown d1 l "Pending"] = "Unknown".
Proof. vm_compute. repeat split. Qed.
(** machine_util_test.go 2691: somebody else holds the permit, waiting for it times out, and the
    machine stays Unknown. Worker 1 is the holder. *)
Example lock_held :
  let w := RateModel.rrun 3600 (RateModel.rinit 0 2)
    [RateModel.RNew "d" (Some "d"); RateModel.REnv 0 (Some "Unknown"); RateModel.RSee 0;
     RateModel.RStart 1 0; RateModel.RRegister 1; RateModel.RTry 1; RateModel.RSend 1;
     RateModel.RStart 0 0; RateModel.RRegister 0; RateModel.RTry 0; RateModel.RSend 0; RateModel.RList 0; RateModel.RWrite 0 true true;
     RateModel.RGiveUp 0] in
  RateModel.worker w 0 = RateModel.WIdle /\ RateModel.cachedPhase (RateModel.mach w 0) = Some "Unknown" /\
  RateModel.rm_mark (RateModel.mach w 0) = 0%nat.
Proof. vm_compute. repeat split. Qed.
