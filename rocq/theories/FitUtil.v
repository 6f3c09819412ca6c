(** The tables of the repository's own tests, run on the model: annotations, taints, permits and
    validation. Source of the cases: pkg/util/annotations/annotations_test.go,
    pkg/util/taints/taints_test.go, pkg/util/permits/permits_test.go,
    pkg/apis/machine/validation/machinedeployment_test.go. *)
Require Import Coq.ZArith.ZArith Coq.Lists.List Coq.Strings.String Coq.Bool.Bool.
From Verif Require Import Types MetaModel TaintModel AnnoModel PermitModel ValidModel.
Import ListNotations.
Open Scope string_scope.
Open Scope list_scope.

(* ---- annotations_test.go 59-119: AddOrUpdateAnnotation ---- *)

(** Two maps with the same entries (gomega's Equal on maps). annotations_test.go 56, 161. *)
Definition same (a b : Map) : bool :=
  forallb (fun kv => match get (fst kv) b with Some v => String.eqb v (snd kv) | None => false end) a &&
  forallb (fun kv => match get (fst kv) a with Some v => String.eqb v (snd kv) | None => false end) b.

(** The result and the flag are as expected. annotations_test.go 56-57, 161-162. *)
Definition gives (r : AMap * bool) (m : Map) (updated : bool) : bool :=
  match r with
  | (Some a, u) => same a m && Bool.eqb u updated
  | (None, _) => false
  end.

(** "Add the given annotation", annotations_test.go 59. *)
Example fit_add :
  gives (AddOrUpdateAnnotation (Some [("anno1", "anno1")]) [("anno2", "anno2")])
        [("anno1", "anno1"); ("anno2", "anno2")] true = true.
Proof. vm_compute. reflexivity. Qed.
(** "Update the given annotation", annotations_test.go 79. *)
Example fit_update :
  gives (AddOrUpdateAnnotation (Some [("anno1", "anno1"); ("anno2", "annoDummy")]) [("anno2", "anno2")])
        [("anno1", "anno1"); ("anno2", "anno2")] true = true.
Proof. vm_compute. reflexivity. Qed.
(** "Add annotations when there are none in node", annotations_test.go 100. *)
Example fit_add_none :
  gives (AddOrUpdateAnnotation (Some []) [("anno2", "anno2"); ("anno1", "anno1")])
        [("anno1", "anno1"); ("anno2", "anno2")] true = true.
Proof. vm_compute. reflexivity. Qed.

(** "Remove the given annotation when it already exists", annotations_test.go 164. *)
Example fit_remove :
  gives (RemoveAnnotation (Some [("anno1", "anno1"); ("anno2", "anno2")]) (Some [("anno2", "anno2")]))
        [("anno1", "anno1")] true = true.
Proof. vm_compute. reflexivity. Qed.
(** "... when it exists but modified value", annotations_test.go 184. *)
Example fit_remove_modified :
  gives (RemoveAnnotation (Some [("anno1", "anno1"); ("anno2", "annoDummy")]) (Some [("anno2", "anno2")]))
        [("anno1", "anno1")] true = true.
Proof. vm_compute. reflexivity. Qed.
(** "When the annotation doesnt exist in the node", annotations_test.go 204. *)
Example fit_remove_none :
  gives (RemoveAnnotation (Some []) (Some [("anno2", "anno2")])) [] false = true.
Proof. vm_compute. reflexivity. Qed.

(* ---- taints_test.go ---- *)

(** The value of the flag, keys and values being valid. taints_test.go 34-81; the parts of a line
    without the flag are not parsed (the first case). *)
Definition flag (s : string) : Read (list Taint) := VarSet (fun _ => true) (fun _ => true) s.

(** taints_test.go 44. *)
Example fit_flag_one : flag "foo=bar:NoSchedule" = ROk [mkTaint "foo" "bar" "NoSchedule" None].
Proof. vm_compute. reflexivity. Qed.
(** taints_test.go 48. *)
Example fit_flag_two :
  flag "foo=bar:NoSchedule,bing=bang:PreferNoSchedule"
  = ROk [mkTaint "foo" "bar" "NoSchedule" None; mkTaint "bing" "bang" "PreferNoSchedule" None].
Proof. vm_compute. reflexivity. Qed.
(** taints_test.go 55. *)
Example fit_flag_dash : flag "dedicated-for=user1:NoExecute" = ROk [mkTaint "dedicated-for" "user1" "NoExecute" None].
Proof. vm_compute. reflexivity. Qed.

(** "Add New Taint", "Update Taint" and "Add Duplicate Taint", taints_test.go 104-116. The node of
    the second case is still the one without taints. *)
Example fit_taint_new :
  AddOrUpdateTaint [] (mkTaint "foo" "bar" "NoSchedule" None) = ([mkTaint "foo" "bar" "NoSchedule" None], true) /\
  AddOrUpdateTaint [] (mkTaint "foo" "bar_1" "NoSchedule" None) = ([mkTaint "foo" "bar_1" "NoSchedule" None], true) /\
  AddOrUpdateTaint [mkTaint "foo" "bar_1" "NoSchedule" None] (mkTaint "foo" "bar_1" "NoSchedule" None)
  = ([mkTaint "foo" "bar_1" "NoSchedule" None], false).
Proof. repeat split; vm_compute; reflexivity. Qed.

(* ---- permits_test.go ---- *)

Open Scope Z_scope.

(** A giver that forgets keys after five seconds (permits_test.go 25) after these steps. *)
Definition giver (l : list POp) : PW := prun 5 (pinit 0 2) l.
(** isPermitAllocated (permits.go 138-144). *)
Definition allocated (k : string) (w : PW) : bool :=
  if p_stop w then false else match lookup k (p_map w) with Some _ => true | None => false end.
(** isPermitAcquired (permits.go 146-156). *)
Definition acquired (k : string) (w : PW) : bool :=
  match lookup k (p_map w) with Some (ch, _) => negb (Nat.eqb (c_len (chan w ch)) 0) | None => false end.
(** The result of TryPermit by goroutine 0 (permits.go 85-109): it holds the permit. *)
Definition got (w : PW) : bool := match thread w 0 with Holding _ _ => true | _ => false end.

(** "should register permit for given key", permits_test.go 35. *)
Example fit_register : allocated "key1" (giver []) = false /\ allocated "key1" (giver [PRegister "key1" 1]) = true.
Proof. split; vm_compute; reflexivity. Qed.
(** "Should not register if the pg is closed", permits_test.go 40. *)
Example fit_register_closed : allocated "key1" (giver [PClose; PRegister "key1" 1]) = false /\ p_map (giver [PClose; PRegister "key1" 1]) = [].
Proof. split; vm_compute; reflexivity. Qed.
(** "should not register if already registered", permits_test.go 46: the capacity stays. *)
Example fit_register_again :
  let w := giver [PRegister "key1" 1; PRegister "key1" 2] in
  allocated "key1" w = true /\ option_map (fun e => c_cap (chan w (fst e))) (lookup "key1" (p_map w)) = Some 1%nat.
Proof. split; vm_compute; reflexivity. Qed.
(** "should delete permit if there is a permit related to that key", permits_test.go 69. *)
Example fit_delete : allocated "key1" (giver [PRegister "key1" 1; PDelete 0 "key1"; PDeleteClose 0; PRemove 0]) = false.
Proof. vm_compute. reflexivity. Qed.
(** "nothing changes if permit is not there already", permits_test.go 74. *)
Example fit_delete_none :
  giver [PRegister "key1" 1; PDelete 0 "key2"; PDeleteClose 0; PRemove 0] = giver [PRegister "key1" 1].
Proof. vm_compute. reflexivity. Qed.
(** "do nothing if already closed", permits_test.go 79. *)
Example fit_delete_closed :
  let w := giver [PRegister "key1" 1; PClose; PDelete 0 "key1"; PDeleteClose 0; PRemove 0] in
  allocated "key1" w = false /\ p_panic w = false.
Proof. split; vm_compute; reflexivity. Qed.
(** "should return false if permitGiver is closed", permits_test.go 92. *)
Example fit_try_closed : got (giver [PRegister "key1" 1; PClose; PTry 0 "key1"; PSend 0; PTimeout 0]) = false.
Proof. vm_compute. reflexivity. Qed.
(** "should return false if there is no permit for that key", permits_test.go 96. *)
Example fit_try_none : got (giver [PRegister "key1" 1; PTry 0 "key2"; PSend 0; PTimeout 0]) = false.
Proof. vm_compute. reflexivity. Qed.
(** "should return true if permit is available", permits_test.go 99. *)
Example fit_try : got (giver [PRegister "key1" 1; PTry 0 "key1"; PSend 0; PTimeout 0]) = true.
Proof. vm_compute. reflexivity. Qed.
(** "should release the key1 permit", permits_test.go 115. *)
Example fit_release :
  let l := [PRegister "key1" 1; PTry 0 "key1"; PSend 0] in
  acquired "key1" (giver l) = true /\ acquired "key1" (giver (l ++ [PRelease 0; PRecv 0])) = false.
Proof. split; vm_compute; reflexivity. Qed.
(** "return true if closed" and "return false if not closed", permits_test.go 132, 136, 147. *)
Example fit_closed : p_stop (giver [PClose]) = true /\ p_stop (giver []) = false.
Proof. split; vm_compute; reflexivity. Qed.
(** "should cleanup if permit stale for more than 5 sec" and "... should not cleanup ...",
    permits_test.go 162, 169: the clean-up runs every second. *)
Example fit_cleanup :
  let l := [PRegister "key1" 1; PTry 0 "key1"; PSend 0; PRelease 0; PRecv 0] in
  let second := [PTick 1; PCheck "key1"; PClean] in
  allocated "key1" (giver (l ++ List.concat (repeat second 7))) = false /\
  allocated "key1" (giver (l ++ List.concat (repeat second 4))) = true.
Proof. split; vm_compute; reflexivity. Qed.

(* ---- machinedeployment_test.go ---- *)

(** The deployment of machinedeployment_test.go 25-57 with changes. *)
Definition vdep (strategy : VStrategy) (sel : Map) (kind class : string) : VSpec :=
  mkV 0 strategy (Some sel) [("key", "value")] kind class.
(** machinedeployment_test.go 46-54. *)
Definition rolling (surge unavailable : option IntOrString) : VStrategy :=
  mkVS "RollingUpdate" (Some (surge, unavailable)) None.
(** machinedeployment_test.go 134-145. *)
Definition inplace (surge unavailable : option IntOrString) (orch : string) : VStrategy :=
  mkVS "InPlaceUpdate" None (Some (surge, unavailable, orch)).
(** machinedeployment_test.go 46-54. *)
Definition one : option IntOrString := Some (IOSInt 1).
(** ContainElement: the error is among those found (machinedeployment_test.go 70). *)
Definition reports (v : VSpec) (e : VErr) : Prop := exists l, validateMachineDeployment v = Some l /\ In e l.

(** machinedeployment_test.go 60, 108. *)
Example fit_valid : validateMachineDeployment (vdep (rolling one one) [("key", "value")] "test" "test") = Some [].
Proof. vm_compute. reflexivity. Qed.
(** machinedeployment_test.go 64. *)
Example fit_selector : reports (vdep (rolling one one) [("key", "value1")] "test" "test") ESelector.
Proof. eexists. split; [vm_compute; reflexivity|]. simpl. tauto. Qed.
(** machinedeployment_test.go 76. *)
Example fit_kind : reports (vdep (rolling one one) [("key", "value")] "" "test") EKind.
Proof. eexists. split; [vm_compute; reflexivity|]. simpl. tauto. Qed.
(** machinedeployment_test.go 86. *)
Example fit_class : reports (vdep (rolling one one) [("key", "value")] "test" "") EClass.
Proof. eexists. split; [vm_compute; reflexivity|]. simpl. tauto. Qed.
(** machinedeployment_test.go 97. *)
Example fit_type : reports (vdep (mkVS "invalid" (Some (one, one)) None) [("key", "value")] "test" "test") EType.
Proof. eexists. split; [vm_compute; reflexivity|]. simpl. tauto. Qed.
(** machinedeployment_test.go 112. *)
Example fit_rolling_unavailable : reports (vdep (rolling one None) [("key", "value")] "test" "test") EUnavailable.
Proof. eexists. split; [vm_compute; reflexivity|]. simpl. tauto. Qed.
(** machinedeployment_test.go 122. *)
Example fit_rolling_surge : reports (vdep (rolling None one) [("key", "value")] "test" "test") ESurge.
Proof. eexists. split; [vm_compute; reflexivity|]. simpl. tauto. Qed.
(** machinedeployment_test.go 147. *)
Example fit_inplace_valid : validateMachineDeployment (vdep (inplace one one "Auto") [("key", "value")] "test" "test") = Some [].
Proof. vm_compute. reflexivity. Qed.
(** machinedeployment_test.go 151. *)
Example fit_inplace_unavailable : reports (vdep (inplace one None "Auto") [("key", "value")] "test" "test") EUnavailable.
Proof. eexists. split; [vm_compute; reflexivity|]. simpl. tauto. Qed.
(** machinedeployment_test.go 161. *)
Example fit_inplace_surge : reports (vdep (inplace None one "Auto") [("key", "value")] "test" "test") ESurge.
Proof. eexists. split; [vm_compute; reflexivity|]. simpl. tauto. Qed.
(** machinedeployment_test.go 171. *)
Example fit_inplace_orchestration : reports (vdep (inplace one one "invalid") [("key", "value")] "test" "test") EOrch.
Proof. eexists. split; [vm_compute; reflexivity|]. simpl. tauto. Qed.
