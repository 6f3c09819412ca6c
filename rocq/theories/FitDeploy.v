(** The repository's own tests of a whole deployment reconcile and of the copying to a
    MachineSet, run on [RolloutModel], [ScaleModel], [RecreateModel], [RevisionModel],
    [PickModel] and [CopyModel]. Evidence that the models are the code; no claim rests on this
    file. Tests: pkg/controller/deployment_test.go 1389-1800, deployment_util_test.go
    83-326. Without a counterpart here: the entries of deployment_test.go 1589 (nothing is
    checked) and 1655 (it passes whatever the strategy does). *)
Require Import Coq.ZArith.ZArith Coq.Lists.List Coq.Strings.String Coq.Bool.Bool.
From Verif Require RevisionModel PickModel MSetModel MetaModel TmplModel CopyModel.
From Verif Require Import Types RolloutModel ScaleModel RecreateModel.
Import ListNotations.
Open Scope string_scope.
Open Scope list_scope.
Open Scope Z_scope.

(** The deployment of deployment_test.go 1399-1461, by strategy. *)
Definition dep (s : Strategy) : MachineDeployment := mkMD 5 s None 5.
(** Its strategy, deployment_test.go 1429-1437. *)
Definition rolling : Strategy := RollingUpdate (Some (IOSInt 1)) (Some (IOSInt 1)).
(** The MachineSet of deployment_test.go 1463-1503, by size and reported machines. *)
Definition oldSet (spec have : Z) : MachineSet := mkMS "MachineSet-test" 0 false 5 5 spec have have have AnnMissing AnnMissing.
(** All API calls of deployment_test.go 1563-1580 succeed. *)
Definition fine : Api := mkApi true (fun _ => true) (fun _ => true).

(** deployment_test.go 1595: without a set, one is created. *)
Example creates_set : exists s, rolloutRollingFull fine (dep rolling) "new" 0 None [] = Some (s, []) /\ ms_spec s = 5.
Proof. eexists. split; [vm_compute; reflexivity | vm_compute; reflexivity]. Qed.

(** deployment_test.go 1632: with an unknown strategy no set gets a size (deployment_util.go
    1109: an error), so none is created. *)
Example unknown_strategy : NewISNewReplicas (dep (OtherStrategy "Dummy")) [] 0 = None.
Proof. vm_compute. reflexivity. Qed.

(** deployment_test.go 1649: Recreate without a set creates one. *)
Example recreate_creates : reconcileRecreate false (dep Recreate) None [] [] = Some [CreateSet 5].
Proof. vm_compute. reflexivity. Qed.

(** deployment_test.go 1666: Recreate scales the old set to zero. *)
Example recreate_scales_down :
  reconcileRecreate false (dep Recreate) None [oldSet 5 5] [("MachineSet-test", 1)] = Some [Resize (oldSet 5 5) 0].
Proof. vm_compute. reflexivity. Qed.

(** deployment_test.go 1681: with the old set at zero and no machine left, the new set gets the
    full size. *)
Example recreate_scales_up : reconcileRecreate false (dep Recreate) None [oldSet 0 0] [("MachineSet-test", 0)] = Some [CreateSet 5].
Proof. vm_compute. reflexivity. Qed.

(** deployment_test.go 1710 and 1722: the first reconcile after a template change creates a set;
    it wants 2 machines afterwards and the old one 5, one more than 5 + maxSurge. The comment
    there says so. *)
Example rolling_first_pass :
  option_map (fun p => (ms_spec (fst p), map ms_spec (snd p))) (rolloutRollingFull fine (dep rolling) "new" 1 None [oldSet 5 5]) = Some (2, [5]).
Proof. vm_compute. reflexivity. Qed.

(** deployment_test.go 1750: a rollback to revision 1 gives the deployment its old template (1
    here) back and clears the request. *)
Example rolls_back :
  let w := RevisionModel.rollback (RevisionModel.mkSync false false false 0 true) true
             (RevisionModel.mkVW 2 (Some 1) [RevisionModel.mkV 7 0 1 (RevisionModel.RevInt 1) []] 8) in
  RevisionModel.vw_rollback w = None /\ RevisionModel.vw_template w = 1%nat.
Proof. vm_compute. split; reflexivity. Qed.

(** deployment_test.go 1773: while paused, a new template creates no set, and the old one keeps
    its 5 machines (it is written for its annotations only). *)
Example paused : syncPaused (dep rolling) None [oldSet 5 5] = Some [Resize (oldSet 5 5) 5].
Proof. vm_compute. reflexivity. Qed.

(** deployment_test.go 1792: a machine named in the annotation gets priority 1. *)
Example marks_named :
  fst (fst (PickModel.markNamed (fun _ => false) [1%nat] [MSetModel.mkMach 1 "" "" "" 0 false])) = [MSetModel.mkMach 1 "1" "" "" 0 false].
Proof. vm_compute. reflexivity. Qed.

(** The template of deployment_util_test.go 33-60, by node template. *)
Definition tmpl (node : string) : TmplModel.Template :=
  TmplModel.mkT [("test-label", "test-label")] [] "" "" "AWSMachineClass" "test-machine-class" "" node "".

(** deployment_util_test.go 84-145: the node template differs; it is copied and revision "2"
    is set. *)
Example node_template_changed :
  let '(t, ch) := CopyModel.copyNode (tmpl "value1") (tmpl "value1-dummy") in
  let '(a, changed) := CopyModel.setRevision ch "2" None [] in
  t = tmpl "value1" /\ changed = true /\ MetaModel.get "deployment.kubernetes.io/revision" a = Some "2".
Proof. vm_compute. repeat split; reflexivity. Qed.

(** deployment_util_test.go 147-206: an equal node template and revision "0" change nothing. *)
Example node_template_same :
  let '(t, ch) := CopyModel.copyNode (tmpl "value1") (tmpl "value1") in
  t = tmpl "value1" /\ snd (CopyModel.setRevision ch "0" None []) = false.
Proof. vm_compute. split; reflexivity. Qed.

(** deployment_util_test.go 210-266 and 268-324. *)
Example copy_node_table :
  CopyModel.copyNode (tmpl "value1") (tmpl "value1-dummy") = (tmpl "value1", true) /\
  CopyModel.copyNode (tmpl "value1") (tmpl "value1") = (tmpl "value1", false).
Proof. vm_compute. split; reflexivity. Qed.
