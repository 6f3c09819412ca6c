(** What a MachineSet takes over from its MachineDeployment, and what a rollback takes back.
    Models pkg/controller/deployment_util.go 234-246, 280-551, 600-620 and the branch of
    getNewMachineSet for an existing set, deployment_sync.go 238-283.
    Simplifications: a nil map is an empty one (both are absent from the stored object); node
    template and configuration are texts, equal as texts when Semantic.DeepEqual says so. *)
Require Import Coq.ZArith.ZArith Coq.Lists.List Coq.Strings.String Coq.Strings.Ascii Coq.Bool.Bool.
Require Import Coq.Numbers.DecimalString.
From Verif Require RevisionModel.
From Verif Require Import MetaModel TmplModel.
Import ListNotations.
Open Scope string_scope.
Open Scope list_scope.
Open Scope Z_scope.

(** deployment_util.go 100. *)
Notation RevisionAnnotation := "deployment.kubernetes.io/revision" (only parsing).
(** deployment_util.go 102. *)
Notation RevisionHistoryAnnotation := "deployment.kubernetes.io/revision-history" (only parsing).
(** deployment_util.go 106. *)
Notation DesiredReplicasAnnotation := "deployment.kubernetes.io/desired-replicas" (only parsing).
(** deployment_util.go 110. *)
Notation MaxReplicasAnnotation := "deployment.kubernetes.io/max-replicas" (only parsing).

(** deployment_util.go 452-460; the first is v1.LastAppliedConfigAnnotation (external), the
    last two are at 113 and machine_safety.go 29. *)
Definition annotationsToSkip : list string :=
  ["kubectl.kubernetes.io/last-applied-configuration"; RevisionAnnotation; RevisionHistoryAnnotation; DesiredReplicasAnnotation;
   MaxReplicasAnnotation; "deployment.machine.sapcloud.io/prefer-no-schedule"; "safety.machine.sapcloud.io/unfreeze"].

(** skipCopyAnnotation, deployment_util.go 466-468. *)
Definition skipCopyAnnotation (k : string) : bool := existsb (String.eqb k) annotationsToSkip.

(** m[k] of a Go map: a missing key reads as the empty text. deployment_util.go 482. *)
Definition at_ (k : string) (m : Map) : string := match MetaModel.get k m with Some v => v | None => "" end.

(** copyMachineDeploymentAnnotationsToMachineSet, deployment_util.go 473-489; first the
    annotations of the deployment. *)
Fixpoint copyAnnotations (d is : Map) : Map * bool :=
  match d with
  | [] => (is, false)
  | (k, v) :: r =>
      if skipCopyAnnotation k || String.eqb (at_ k is) v then copyAnnotations r is
      else (fst (copyAnnotations r (MetaModel.put k v is)), true)
  end.

(** strconv.ParseInt(s, 10, 64) (external; deployment_util.go 289, 309): an optional sign and
    decimal digits in the range of int64. *)
Definition ParseInt (s : string) : option Z :=
  let body := match s with String "+" r => match r with String "-" _ => None | _ => Some r end | _ => Some s end in
  match body with
  | None => None
  | Some b => match NilZero.int_of_string b with
              | None => None
              | Some i => let z := Z.of_int i in
                          if (-9223372036854775808 <=? z) && (z <=? 9223372036854775807) then Some z else None
              end
  end.
(** strconv.FormatInt(z, 10) (external; deployment_sync.go 242) and fmt.Sprintf("%d", …)
    (deployment_util.go 606). *)
Definition FormatInt (z : Z) : string := NilZero.string_of_int (Z.to_int z).

(** strings.Split(h, ",")[0] is empty: no text, or it starts with a comma. deployment_util.go
    333-335. *)
Definition noHistory (h : string) : bool := match h with EmptyString => true | String c _ => Ascii.eqb c "," end.

(** SetReplicasAnnotations, deployment_util.go 600-620. *)
Definition SetReplicasAnnotations (desired max : Z) (a : Map) : Map * bool :=
  let '(a1, c1) := if String.eqb (at_ DesiredReplicasAnnotation a) (FormatInt desired) then (a, false)
                   else (MetaModel.put DesiredReplicasAnnotation (FormatInt desired) a, true) in
  if String.eqb (at_ MaxReplicasAnnotation a1) (FormatInt max) then (a1, c1)
  else (MetaModel.put MaxReplicasAnnotation (FormatInt max) a1, true).

(** The part that SetNewMachineSetAnnotations (deployment_util.go 299-341),
    SetNewMachineSetNodeTemplate (350-387) and SetNewMachineSetConfig (397-434) share:
    [changed] by the copying; [replicas] only for a set to be created. *)
Definition setRevision (changed : bool) (newRevision : string) (replicas : option (Z * Z)) (a : Map) : Map * bool :=
  let old := at_ RevisionAnnotation a in
  match (match ParseInt old with Some z => Some z | None => if String.eqb old "" then Some 0 else None end), ParseInt newRevision with
  | Some o, Some n =>
      let changed' := changed || (o <? n) in
      let a1 := if o <? n then MetaModel.put RevisionAnnotation newRevision a else a in
      let a2 := if (match MetaModel.get RevisionAnnotation a with Some _ => true | None => false end) && changed'
                then let h := at_ RevisionHistoryAnnotation a1 in
                     MetaModel.put RevisionHistoryAnnotation (if noHistory h then old else (h ++ "," ++ old)%string) a1
                else a1 in
      match replicas with
      | None => (a2, changed')
      | Some (d, m) => let '(a3, c) := SetReplicasAnnotations d m a2 in (a3, changed' || c)
      end
  | _, _ => (a, false)
  end.

(** A MachineDeployment or MachineSet as far as it is copied: annotations, minReadySeconds and
    the template. deployment_sync.go 250-260. *)
Record CObj := mkC { c_annots : Map; c_min : Z; c_tmpl : Template }.

(** The template with a new node template, configuration or class kind; deployment_util.go
    499, 513, 524. *)
Definition withNode (t : Template) (v : string) : Template :=
  mkT (t_labels t) (t_annotations t) (t_meta t) (t_group t) (t_kind t) (t_class t) (t_provider t) v (t_conf t).
(** deployment_util.go 513. *)
Definition withConf (t : Template) (v : string) : Template :=
  mkT (t_labels t) (t_annotations t) (t_meta t) (t_group t) (t_kind t) (t_class t) (t_provider t) (t_node t) v.
(** deployment_util.go 524. *)
Definition withKind (t : Template) (v : string) : Template :=
  mkT (t_labels t) (t_annotations t) (t_meta t) (t_group t) v (t_class t) (t_provider t) (t_node t) (t_conf t).

(** copyMachineDeploymentNodeTemplatesToMachineSet, deployment_util.go 494-502. *)
Definition copyNode (d is : Template) : Template * bool :=
  if String.eqb (t_node d) (t_node is) then (is, false) else (withNode is (t_node d), true).
(** copyMachineDeploymentConfigToMachineSet, deployment_util.go 507-516. *)
Definition copyConf (d is : Template) : Template * bool :=
  if String.eqb (t_conf d) (t_conf is) then (is, false) else (withConf is (t_conf d), true).
(** copyMachineDeploymentClassKindToMachineSet, deployment_util.go 521-529. *)
Definition copyKind (d is : Template) : Template * bool :=
  if String.eqb (t_kind d) (t_kind is) then (is, false) else (withKind is (t_kind d), true).

(** getNewMachineSet for an existing set, deployment_sync.go 249-264: the set after the copying
    and whether it is written. [maxOld]: the highest revision of the old sets. *)
Definition takeOver (d : CObj) (maxOld : Z) (is : CObj) : CObj * bool :=
  let newRevision := FormatInt (RevisionModel.wrap64 (maxOld + 1)) in
  let '(a0, ch0) := copyAnnotations (c_annots d) (c_annots is) in
  let '(a1, annotationsUpdated) := setRevision ch0 newRevision None a0 in
  let minReadySecondsNeedsUpdate := negb (c_min is =? c_min d) in
  let '(t1, ch1) := copyNode (c_tmpl d) (c_tmpl is) in
  let '(a2, nodeTemplateUpdated) := setRevision ch1 newRevision None a1 in
  let '(t2, ch2) := copyConf (c_tmpl d) t1 in
  let '(a3, machineConfigUpdated) := setRevision ch2 newRevision None a2 in
  let '(t3, updateMachineSetClassKind) := copyKind (c_tmpl d) t2 in
  if annotationsUpdated || minReadySecondsNeedsUpdate || nodeTemplateUpdated || machineConfigUpdated || updateMachineSetClassKind
  then (mkC a3 (c_min d) t3, true)
  else (mkC a3 (c_min is) t3, false).

(** The stored set after such a pass; [ok]: the update goes through. The copy of a set that is
    not written is dropped. deployment_sync.go 249-264. *)
Definition stored (d : CObj) (maxOld : Z) (ok : bool) (is : CObj) : CObj :=
  let '(is', written) := takeOver d maxOld is in if written && ok then is' else is.

(** The annotations of a set to be created, deployment_sync.go 326-328 with deployment_util.go
    294-342. *)
Definition firstAnnotations (d : CObj) (maxOld desired max : Z) : Map :=
  let '(a, ch) := copyAnnotations (c_annots d) [] in
  fst (setRevision ch (FormatInt (RevisionModel.wrap64 (maxOld + 1))) (Some (desired, max)) a).

(** SetMachineDeploymentRevision, deployment_util.go 234-246, as called at deployment_sync.go
    267: the annotations of the deployment and whether they changed. *)
Definition SetMachineDeploymentRevision (revision : string) (d : Map) : Map * bool :=
  if String.eqb (at_ RevisionAnnotation d) revision then (d, false) else (MetaModel.put RevisionAnnotation revision d, true).

(** getSkippedAnnotations, deployment_util.go 543-551. *)
Definition getSkippedAnnotations (a : Map) : Map := filter (fun p => skipCopyAnnotation (fst p)) a.

(** SetMachineDeploymentAnnotationsTo, deployment_util.go 534-541, called at
    deployment_rollback.go 114. *)
Definition SetMachineDeploymentAnnotationsTo (d is : Map) : Map :=
  fold_left (fun a p => if skipCopyAnnotation (fst p) then a else MetaModel.put (fst p) (snd p) a) is (getSkippedAnnotations d).
