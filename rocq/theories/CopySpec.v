(** Vocabulary for what a MachineSet takes over from its MachineDeployment. *)
Require Import Coq.ZArith.ZArith Coq.Lists.List Coq.Strings.String Coq.Bool.Bool.
From Verif Require Import MetaModel MetaSpec TmplModel CopyModel.
Import ListNotations.
Open Scope string_scope.
Open Scope list_scope.

(** Annotations that each object has for itself. *)
Definition ownKeys : list string :=
  ["kubectl.kubernetes.io/last-applied-configuration"; "deployment.kubernetes.io/revision"; "deployment.kubernetes.io/revision-history";
   "deployment.kubernetes.io/desired-replicas"; "deployment.kubernetes.io/max-replicas";
   "deployment.machine.sapcloud.io/prefer-no-schedule"; "safety.machine.sapcloud.io/unfreeze"].
Definition shared (k : string) : Prop := ~ In k ownKeys.

Definition revisionKey : string := "deployment.kubernetes.io/revision".
Definition historyKey : string := "deployment.kubernetes.io/revision-history".

(** The revision of an object is missing, empty or an integer. *)
Definition goodRevision (a : Map) : Prop :=
  match get revisionKey a with None => True | Some v => v = "" \/ exists z, ParseInt v = Some z end.

(** The settings of the template that are changed without a new MachineSet. *)
Definition sameSettings (d is : CObj) : Prop :=
  t_node (c_tmpl is) = t_node (c_tmpl d) /\ t_conf (c_tmpl is) = t_conf (c_tmpl d) /\ t_kind (c_tmpl is) = t_kind (c_tmpl d) /\
  c_min is = c_min d.
(** The remaining template. *)
Definition sameRest (a b : Template) : Prop :=
  t_labels a = t_labels b /\ t_annotations a = t_annotations b /\ t_meta a = t_meta b /\ t_group a = t_group b /\
  t_class a = t_class b /\ t_provider a = t_provider b.
