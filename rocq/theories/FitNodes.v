(** The tables of the repository's own tests, run on the model: nodes during a rollout.
    Source of the cases: pkg/controller/controller_utils_test.go, deployment_rolling_test.go,
    deployment_rollback_test.go. *)
Require Import Coq.Lists.List Coq.Strings.String Coq.Bool.Bool.
From Verif Require Import Types MetaModel TaintModel AnnoModel NodeModel FitUtil.
Import ListNotations.
Open Scope string_scope.
Open Scope list_scope.

(** A node with these annotations. controller_utils_test.go 253-262. *)
Definition node (m : Map) : Hist := [Some (mkNObj (Some m) [] 0)].
(** A call that meets no difficulty (fake clients): controller_utils_test.go 260; up to five
    attempts (controller_utils.go 99-103). *)
Definition smooth : list Round := repeat (mkRound (inl 0) [] None) 5.
(** No error, and these annotations on the node. controller_utils_test.go 264-281. *)
Definition annotated (r : Hist * option ApiError) (m : Map) : bool :=
  match r with
  | (h, None) => match current h with Some o => match nAnn o with Some a => same a m | None => false end | None => false end
  | (_, Some _) => false
  end.

(** controller_utils_test.go 285, 310, 332, 356: the four cases with the node there. *)
Example fit_annotate :
  annotated (AddOrUpdateAnnotationOnNode (Some [("anno0", "anno0")]) smooth (node [("anno1", "anno1")]))
            [("anno0", "anno0"); ("anno1", "anno1")] = true /\
  annotated (AddOrUpdateAnnotationOnNode (Some [("anno0", "anno0")]) smooth (node [])) [("anno0", "anno0")] = true /\
  annotated (AddOrUpdateAnnotationOnNode (Some [("anno0", "anno0")]) smooth (node [("anno0", "anno0")])) [("anno0", "anno0")] = true /\
  annotated (AddOrUpdateAnnotationOnNode (Some [("anno0", "anno0")]) smooth (node [("anno0", "annoDummy")])) [("anno0", "anno0")] = true.
Proof. repeat split; vm_compute; reflexivity. Qed.
(** "Error should not be thrown when the node doesnt exist", controller_utils_test.go 380, and
    "... when there is no node-object", 530. *)
Example fit_annotate_gone :
  AddOrUpdateAnnotationOnNode (Some [("anno0", "anno0")]) smooth [] = ([], None) /\
  RemoveAnnotationsOffNode "node-dummy" (Some [("anno0", "anno0")]) smooth [] = ([], None).
Proof. split; vm_compute; reflexivity. Qed.
(** controller_utils_test.go 460, 485, 505. *)
Example fit_unannotate :
  annotated (RemoveAnnotationsOffNode "node-0" (Some [("anno0", "anno0")]) smooth (node [("anno1", "anno1"); ("anno0", "anno0")]))
            [("anno1", "anno1")] = true /\
  annotated (RemoveAnnotationsOffNode "node-0" (Some [("anno0", "anno0")]) smooth (node [])) [] = true /\
  annotated (RemoveAnnotationsOffNode "node-0" (Some [("anno0", "anno0")]) smooth (node [("anno0", "annodummy"); ("anno1", "anno1")]))
            [("anno1", "anno1")] = true.
Proof. repeat split; vm_compute; reflexivity. Qed.

(* ---- deployment_rolling_test.go ---- *)

(** One set with one machine on node-0 (deployment_rolling_test.go 274-300, 570-600). *)
Definition backed : list (option ASet) := [Some (Some ["node-0"])].
(** The only node of the target cluster. deployment_rolling_test.go 245-253. *)
Definition only (m : Map) : NodeModel.Nodes := fun n => if String.eqb n "node-0" then node m else [].
(** The two annotations of a rollout. deployment_rolling_test.go 612-615. *)
Definition two : Map := scaleDownAnnotations.
(** No error and the annotations of node-0. deployment_rolling_test.go 262-272. *)
Definition atNode (r : NodeModel.Nodes * bool) (m : Map) : bool := annotated (fst r "node-0", None) m && negb (snd r).

(** deployment_rolling_test.go 274, 326, 377: the annotations are added; other annotations stay,
    other values are replaced. *)
Example fit_rolling_annotate :
  atNode (annotateNodes (fun _ => smooth) backed (only [("anno1", "value1")])) (("anno1", "value1") :: two) = true /\
  atNode (annotateNodes (fun _ => smooth) backed (only [])) two = true /\
  atNode (annotateNodes (fun _ => smooth) backed (only (map (fun kv => (fst kv, "dummy")) two))) two = true.
Proof. repeat split; vm_compute; reflexivity. Qed.
(** "when there are no nodes backiing the machinesets", deployment_rolling_test.go 428. *)
Example fit_rolling_none :
  atNode (annotateNodes (fun _ => smooth) [Some (Some [])] (only [("anno1", "value1")])) [("anno1", "value1")] = true.
Proof. vm_compute. reflexivity. Qed.
(** "remove autoscaler annotation when by-mcm annotation is present", deployment_rolling_test.go 570. *)
Example fit_unannotate_own :
  atNode (unannotateNodes (fun _ => None) (fun _ => smooth) [Some ["node-0"]] (only (("anno1", "value1") :: two)))
         [("anno1", "value1")] = true.
Proof. vm_compute. reflexivity. Qed.
(** "do not remove autoscaler annotation when by-mcm annotation is not present",
    deployment_rolling_test.go 624. *)
Example fit_unannotate_others :
  let m := [("anno1", "value1"); (ScaleDownDisabled, "true")] in
  atNode (unannotateNodes (fun _ => None) (fun _ => smooth) [Some ["node-0"]] (only m)) m = true.
Proof. vm_compute. reflexivity. Qed.
(** "when there are no autoscaler annotations present", deployment_rolling_test.go 678. *)
Example fit_unannotate_none :
  atNode (unannotateNodes (fun _ => None) (fun _ => smooth) [Some ["node-0"]] (only [("anno1", "value1")])) [("anno1", "value1")] = true.
Proof. vm_compute. reflexivity. Qed.

(** The taint of deployment_rolling_test.go 87-91 and deployment_rollback_test.go. *)
Definition prefer : Taint := mkTaint "deployment.machine.sapcloud.io/prefer-no-schedule" "True" "PreferNoSchedule" None.
(** A call that meets no difficulty. deployment_rolling_test.go 84. *)
Definition plain : list Around := repeat (mkAround (fun o => inl o) (fun o => o) None) 5.
(** "taints on nodes backing machineSet", deployment_rolling_test.go 111: the taint and the mark. *)
Example fit_taint :
  let '(s, ns) := taintSet prefer (fun _ => plain) true (mkTSet false ["node-0"]) (fun _ => mkObj 0 [] 0) in
  tsMarked s = true /\ oTaints (ns "node-0") = [prefer].
Proof. split; vm_compute; reflexivity. Qed.
(** deployment_rollback_test.go 66-190: taint and mark are removed. *)
Example fit_untaint :
  let old := fun _ : string => mkObj 0 [prefer] 0 in
  let '(s, ns) := untaintSet prefer (fun n => Some (old n)) (fun _ => plain) true (mkTSet true ["node-0"]) old in
  tsMarked s = false /\ oTaints (ns "node-0") = [].
Proof. split; vm_compute; reflexivity. Qed.
