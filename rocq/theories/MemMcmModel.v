(* C115: the memory accesses of the machine-controller-manager process
   (pkg/controller): the reconcile functions of its three queues, the handlers
   of its informers and its metrics collector, in the language of MemModel.v.
   Files without a path are in pkg/controller.

   The expectations of the MachineSet controller and the counter of stale
   machines (metrics.go:18-36) have a mutex of their own and are not part of
   the memory here.  The goroutines that create or prepare for deletion the
   machines of one MachineSet (machineset.go:375-452, 713-737) are run one
   after the other. *)
Require Import List String.
From Verif Require Import MemModel MemMcModel.
Import ListNotations.
Open Scope string_scope.
Arguments cons {A}%type_scope & _ _.

(* sort.Sort(..) on a slice of pointers (e.g. deployment_util.go:865, 882;
   deployment_rolling.go:218; controller_utils.go:799): the slice is written,
   what it points to is read. *)
Definition sort_list (l : string) : Prog :=
  loop [Elem "so.t" l; Send "so.t"; Put l "*" "so.t"].

(* SetMachineDeploymentCondition, RemoveMachineDeploymentCondition
   (deployment_util.go:190-218) and their kind for sets
   (deployment_machineset_util.go:184-208): a new slice with copies of the
   conditions kept, and possibly a new one. *)
Definition set_condition (y : string) : Prog :=
  block [ Get "sc.old" y "Status.Conditions"; New "sc.list";
          loop [Elem "sc.t" "sc.old"; DeepCopy "sc.c" "sc.t"; Append "sc.list" "sc.list" "sc.c"];
          when [New "sc.c"; Append "sc.list" "sc.list" "sc.c"];
          Put y "Status.Conditions" "sc.list" ].

(* machineset.go:589-604 claimMachines, controller_ref_manager.go:75-131,
   185-269: adopting and releasing are patches sent to the API server, the
   claimed machines are a new slice of pointers into the cache.  400-411
   RecheckDeletionTimestamp fetches the owner once more. *)
Definition claim (owner all out : string) : Prog :=
  block [ Make 7 out;
          loop [Elem "cl.t" all; Send "cl.t"; Send owner; when [New "cl.fresh"; Send "cl.fresh"];
                Append out out "cl.t"] ].

(* ---- the deployment controller ---- *)

(* deployment.go:350-376 getMachineSetsForMachineDeployment. *)
Definition get_sets (d out : string) : Prog :=
  block [ list_cached "ge.all" "ge.t"; Send d; claim d "ge.all" out ].

(* deployment.go:382-410 getMachineMapForMachineDeployment: Items holds copies of
   the machines, whose maps and pointers are still those of the cache. *)
Definition machine_map (d sets out : string) : Prog :=
  block [ Send d; list_cached "mm.all" "mm.t"; Make 2 out;
          loop [Elem "mm.is" sets; Send "mm.is"; Make 1 "mm.list"; Put out "*" "mm.list"];
          loop [Elem "mm.t" "mm.all"; Send "mm.t"; Make 0 "mm.copy"; Fields "mm.copy" "" "mm.t" "";
                Get "mm.list" out "*"; Get "mm.items" "mm.list" "Items";
                Append "mm.items" "mm.items" "mm.copy"; Put "mm.list" "Items" "mm.items"] ].

(* deployment.go:580-613, the finalizers of a deployment. *)
Definition deployment_finalizers (d : string) : Prog :=
  block [ DeepCopy "df.clone" d; Send "df.clone"; New "df.list";
          Put "df.clone" "Meta.Finalizers" "df.list";
          loop [ New "df.dep"; DeepCopy "df.copy" "df.dep"; Get "df.list" "df.clone" "Meta.Finalizers";
                 Put "df.copy" "Meta.Finalizers" "df.list"; Send "df.copy" ] ].

(* deployment.go:553-573 terminateMachineSets. *)
Definition terminate_sets (sets d : string) : Prog :=
  loop [Elem "ts.t" sets; Send "ts.t"; Send d].

(* deployment.go:615-671 setMachinePriorityAnnotationAndUpdateTriggeredForDeletion. *)
Definition set_priority (d : string) : Prog :=
  block [ Send d;
          loop [ Cached "pr.mc"; Send "pr.mc"; DeepCopy "pr.adjust" "pr.mc";
                 set_entry "pr.adjust" "Meta.Annotations" "pr.t"; Send "pr.adjust" ];
          DeepCopy "pr.d" d; Get "pr.t" "pr.d" "Meta.Annotations";
          Alt (Data "pr.t" "machine.sapcloud.io/trigger-deletion-by-mcm") (Drop "pr.t" "machine.sapcloud.io/trigger-deletion-by-mcm");
          Send "pr.d" ].

(* deployment_sync.go:81-106 checkPausedConditions. *)
Definition check_paused (d : string) : Prog :=
  block [ Send d; when [set_condition d]; Send d ].

(* deployment_util.go:840-861 EqualIgnoreHash: writes its copies only. *)
Definition equal_ignore_hash (a b : string) : Prog :=
  block [ DeepCopy "eq.1" a; DeepCopy "eq.2" b;
          Get "eq.l" "eq.1" "Spec.Template.Meta.Labels"; Drop "eq.l" "machine-template-hash";
          Get "eq.l" "eq.2" "Spec.Template.Meta.Labels"; Drop "eq.l" "machine-template-hash";
          Send "eq.1"; Send "eq.2" ].

(* deployment_util.go:864-877 FindNewMachineSet. *)
Definition find_new (d list out : string) : Prog :=
  block [ New out; sort_list list;
          loop [Elem "fn.t" list; equal_ignore_hash "fn.t" d; when [Let out "fn.t"]] ].

(* deployment_util.go:881-896 FindOldMachineSets. *)
Definition find_old (d list out : string) : Prog :=
  block [ Make 0 "fo.required"; Make 0 out; find_new d list "fo.new";
          loop [Elem "fo.t" list; Send "fo.t"; Append out out "fo.t";
                when [Append "fo.required" "fo.required" "fo.t"]] ].

(* machineset_util.go:50-75 UpdateISWithRetries, 848-874 of machineset.go
   UpdateMachineWithRetries: the cached object is copied, the copy changed by
   the function given and sent; the result is that of the API server. *)
Definition update_with_retries (change : string -> Prog) (out : string) : Prog :=
  block [ New out;
          loop [ Cached "up.t"; DeepCopy out "up.t"; change out; Send out; New out ] ].

(* deployment_sync.go:161-228 addHashKeyToISAndMachines, deployment_util.go:899-946,
   machineset_util.go:78-82 GetMachineSetHash. *)
Definition add_hash_key (is items out : string) : Prog :=
  block [ DeepCopy "ah.obj" is;
          Let out is;
          when [ DeepCopy "ah.tmpl" is; Send "ah.tmpl";
                 update_with_retries (fun x => set_entry x "Spec.Template.Meta.Labels" "ah.t") "ah.updated";
                 loop [Cached "ah.is"; Send "ah.is"];
                 Get "ah.list" items "*"; Send "ah.list";
                 loop [ Elem "ah.m" "ah.list"; Send "ah.m";
                        update_with_retries (fun x => set_entry x "Meta.Labels" "ah.t") "ah.machine" ];
                 loop [Cached "ah.is"; Send "ah.is"];
                 update_with_retries
                   (fun x => block [set_entry x "Meta.Labels" "ah.t"; Get "ah.sel" x "Spec.Selector";
                                    set_entry "ah.sel" "MatchLabels" "ah.t"]) "ah.updated";
                 Let out "ah.updated"; Send out ] ].

(* deployment_sync.go:142-155 isAndMachinesWithHashKeySynced. *)
Definition with_hash_keys (sets map out : string) : Prog :=
  block [ Make 0 out;
          loop [Elem "wh.t" sets; Send "wh.t"; add_hash_key "wh.t" map "wh.synced";
                Append out out "wh.synced"] ].

(* deployment_util.go:294-343 SetNewMachineSetAnnotations, 473-489, 600-618. *)
Definition set_annotations (d is : string) : Prog :=
  block [ Send d; loop [set_entry is "Meta.Annotations" "sa.t"] ].

(* deployment_util.go:347-393 SetNewMachineSetNodeTemplate, 397-443
   SetNewMachineSetConfig, 447-450 UpdateMachineSetClassKind, with 494-529: the
   template and the configuration of the deployment are copied. *)
Definition set_template (d is : string) : Prog :=
  block [ when [set_entry is "Meta.Annotations" "sp.t"];
          when [ DeepCopy "sp.d" d;
                 Fields is "Spec.Template.Spec.NodeTemplateSpec." "sp.d" "Spec.Template.Spec.NodeTemplateSpec." ];
          when [ DeepCopy "sp.d" d; Get "sp.c" "sp.d" "Spec.Template.Spec.MachineConfiguration";
                 Put is "Spec.Template.Spec.MachineConfiguration" "sp.c" ];
          when [ Send d; Data is "Spec.Template.Spec.Class.Kind" ] ].

(* deployment_util.go:234-246 SetMachineDeploymentRevision. *)
Definition set_revision (d : string) : Prog := set_entry d "Meta.Annotations" "rv.t".

(* deployment_sync.go:235-400 getNewMachineSet.  newStatus (267) is not a
   variable of its own: the status of the deployment as it was is copied at
   272, and nothing changes it in between. *)
Definition get_new_set (d list old out : string) : Prog :=
  block [ New out; find_new d list "gn.existing"; Send old;
    Alt
      (block [ DeepCopy "gn.copy" "gn.existing"; set_annotations d "gn.copy"; Send d;
               set_template d "gn.copy";
               Alt (block [Data "gn.copy" "Spec.MinReadySeconds"; Send "gn.copy"; New out])
                   (block [ Send "gn.copy"; set_revision d; when [set_condition d];
                            when [ Send d; New "gn.d"; DeepCopy "gn.dCopy" "gn.d";
                                   Fields "gn.dCopy" "Status." d "Status."; Send "gn.dCopy" ];
                            Let out "gn.copy" ]) ])
      (block [ DeepCopy "gn.tmpl" d; Get "gn.cc" d "Status.CollisionCount"; Send "gn.tmpl"; Send "gn.cc";
               Send d; New "gn.labels"; Put "gn.tmpl" "Spec.Template.Meta.Labels" "gn.labels";
               New "gn.sel"; New "gn.owners"; New "gn.newIS";
               Put "gn.newIS" "Meta.OwnerReferences" "gn.owners"; Put "gn.newIS" "Meta.Labels" "gn.labels";
               Put "gn.newIS" "Spec.Selector" "gn.sel";
               Fields "gn.newIS" "Spec.Template." "gn.tmpl" "Spec.Template.";
               Append "gn.all" old "gn.newIS"; Send "gn.all"; Send d;
               Data "gn.newIS" "Spec.Replicas"; set_annotations d "gn.newIS"; Send "gn.newIS";
               New "gn.created";
               when [ Cached "gn.is"; equal_ignore_hash "gn.is" d;
                      Alt (Let "gn.created" "gn.is")
                          (block [ when [New "gn.t"; Put d "Status.CollisionCount" "gn.t"];
                                   Get "gn.t" d "Status.CollisionCount"; Data "gn.t" "*"; Send d ]) ];
               when [ set_condition d; Send d ];
               Send "gn.created"; set_revision d; when [set_condition d]; Send d;
               Let out "gn.created" ]) ].

(* deployment_sync.go:120-135 getAllMachineSetsAndSyncRevision. *)
Definition all_sets (d sets map new old : string) : Prog :=
  block [ with_hash_keys sets map "as.list"; find_old d "as.list" old;
          get_new_set d "as.list" old new ].

(* deployment_sync.go:530-565 scaleMachineSetAndRecordEvent, scaleMachineSet: the
   set given, or the one the API server returned. *)
Definition scale_set (is d out : string) : Prog :=
  block [ Send is; Send d; Let out is;
          when [ DeepCopy "sl.copy" is; loop [set_entry "sl.copy" "Meta.Annotations" "sl.t"];
                 Data "sl.copy" "Spec.Replicas"; Send "sl.copy"; New out ];
          Send out ].

(* controller_utils.go:847-865 FilterActiveMachineSets, FilterMachineSets. *)
Definition filter_sets (l out : string) : Prog :=
  block [ Make 0 out; loop [Elem "ft.t" l; Send "ft.t"; Append out out "ft.t"] ].

(* deployment_sync.go:402-528 scale and its helpers, deployment_util.go:555-575
   FindActiveOrLatest. *)
Definition scale (d new old : string) : Prog :=
  block [ Send new; sort_list old; filter_sets old "sk.active";
          Append "sk.active" "sk.active" new; Send "sk.active";
          Alt (block [Elem "sk.t" "sk.active"; scale_set "sk.t" d "sk.out"])
         (Alt (block [ filter_sets old "sk.l"; loop [Elem "sk.t" "sk.l"; scale_set "sk.t" d "sk.out"] ])
              (block [ Append "sk.l" old new; filter_sets "sk.l" "sk.all"; Send "sk.all"; Make 0 "sk.size";
                       loop [Elem "sk.t" "sk.all"; Send "sk.t"; Data "sk.size" "*"];
                       sort_list "sk.all";
                       loop [Elem "sk.t" "sk.all"; Data "sk.size" "*"; scale_set "sk.t" d "sk.out"] ])) ].

(* deployment_sync.go:570-604 cleanupMachineDeployment. *)
Definition cleanup (old d : string) : Prog :=
  block [ Send d; filter_sets old "cu.l"; sort_list "cu.l"; loop [Elem "cu.t" "cu.l"; Send "cu.t"] ].

(* deployment_sync.go:621-665 calculateDeploymentStatus: the status points to the
   summaries of failed machines in the sets and to the deployment's collision
   count; the conditions are copied. *)
Definition calculate_status (all new d st : string) : Prog :=
  block [ Send all; Send d; Send new; Make 0 st;
          Get "cs.cc" d "Status.CollisionCount"; Put st "Status.CollisionCount" "cs.cc";
          Make 0 "cs.failed";
          loop [ Elem "cs.is" all; Get "cs.fm" "cs.is" "Status.FailedMachines"; Elem "cs.t" "cs.fm";
                 Append "cs.failed" "cs.failed" "cs.t" ];
          Put st "Status.FailedMachines" "cs.failed";
          Get "cs.old" d "Status.Conditions"; New "cs.conds";
          loop [Elem "cs.t" "cs.old"; DeepCopy "cs.c" "cs.t"; Append "cs.conds" "cs.conds" "cs.c"];
          Put st "Status.Conditions" "cs.conds";
          set_condition st ].

(* deployment_sync.go:607-618 syncMachineDeploymentStatus. *)
Definition sync_status (all new d : string) : Prog :=
  block [ calculate_status all new d "sy.st"; Send "sy.st"; Send d;
          Fields d "Status." "sy.st" "Status."; Send d ].

(* deployment_progress.go:40-118 syncRolloutStatus, 122-152, 161-200. *)
Definition sync_rollout (all new d : string) : Prog :=
  block [ calculate_status all new d "sr.st"; Send d; Send "sr.st"; Send new;
          when [loop [set_condition "sr.st"]];
          Make 0 "sr.conds";
          loop [ Elem "sr.is" all; Get "sr.cs" "sr.is" "Status.Conditions"; Elem "sr.t" "sr.cs"; Send "sr.t";
                 New "sr.c"; Append "sr.conds" "sr.conds" "sr.c" ];
          set_condition "sr.st"; Send "sr.st"; Send d;
          Fields d "Status." "sr.st" "Status."; Send d ].

(* pkg/util/nodeops/taints.go:33-167 and controller_utils.go:902-1002 with
   pkg/util/annotations/annotations.go:18-74: the node comes from the API
   server and is copied twice. *)
Definition write_node : Prog :=
  loop [ New "wn.old"; DeepCopy "wn.new" "wn.old";
         when [New "wn.t"; Put "wn.new" "Spec.Taints" "wn.t"];
         when [set_entry "wn.new" "Meta.Annotations" "wn.t"];
         when [New "wn.t"; Put "wn.new" "Meta.Annotations" "wn.t"];
         DeepCopy "wn.clone" "wn.old";
         when [Get "wn.t" "wn.new" "Spec.Taints"; Put "wn.clone" "Spec.Taints" "wn.t"];
         when [Get "wn.t" "wn.new" "Meta.Annotations"; Put "wn.clone" "Meta.Annotations" "wn.t"];
         Send "wn.old"; Send "wn.clone" ].

(* The annotation of a set in deployment_rolling.go:337-371 and
   deployment_rollback.go:194-228: the set is fetched and copied. *)
Definition annotate_set : Prog :=
  loop [ New "an.is"; DeepCopy "an.copy" "an.is"; set_entry "an.copy" "Meta.Annotations" "an.t";
         Get "an.t" "an.copy" "Meta.Annotations"; when [Drop "an.t" "*"]; Send "an.copy" ].

(* deployment_rolling.go:294-375 taintNodesBackingMachineSets, 378-422
   annotateNodesBackingMachineSets, 434-489 removeAutoscalerAnnotationsIfRequired. *)
Definition nodes_of (sets : string) : Prog :=
  loop [ Elem "no.is" sets; Send "no.is"; list_cached "no.all" "no.t"; claim "no.is" "no.all" "no.l";
         loop [ Elem "no.t" "no.l"; Send "no.t"; when [New "no.node"; Send "no.node"]; write_node ];
         when [annotate_set] ].

(* deployment_rollback.go:144-231 removeTaintNodesBackingMachineSet. *)
Definition untaint (is : string) : Prog :=
  block [ Send is; list_cached "ut.all" "ut.t"; claim is "ut.all" "ut.l";
          loop [Elem "ut.t" "ut.l"; Send "ut.t"; write_node]; annotate_set ].

(* deployment_rolling.go:144-291 reconcileOldMachineSets,
   cleanupUnhealthyReplicas, scaleDownOldMachineSetsForRollingUpdate. *)
Definition reconcile_old (all old new d : string) : Prog :=
  block [ Send all; Send new; Send d; sort_list old;
          loop [ Elem "ro.t" old; scale_set "ro.t" d "ro.out"; Put old "*" "ro.out" ];
          Append "ro.all" old new; Send "ro.all"; sort_list old;
          loop [ Elem "ro.t" old; scale_set "ro.t" d "ro.out" ] ].

(* deployment_rolling.go:48-142 rolloutRolling, reconcileNewMachineSet. *)
Definition rolling (d sets map : string) : Prog :=
  block [ all_sets d sets map "rl.new" "rl.old"; Append "rl.all" "rl.old" "rl.new";
          nodes_of "rl.old"; when [nodes_of "rl.all"];
          scale_set "rl.new" d "rl.out";
          Alt (sync_rollout "rl.all" "rl.new" d)
              (block [ filter_sets "rl.old" "rl.active"; reconcile_old "rl.all" "rl.active" "rl.new" d;
                       Alt (sync_rollout "rl.all" "rl.new" d)
                           (block [ when [nodes_of "rl.all"; cleanup "rl.old" d];
                                    sync_rollout "rl.all" "rl.new" d ]) ]) ].

(* deployment_recreate.go:112-130 scaleDownOldMachineSetsForRecreate. *)
Definition recreate_down (old d : string) : Prog :=
  loop [ Elem "rd.t" old; scale_set "rd.t" d "rd.out"; Put old "*" "rd.out" ].

(* deployment_recreate.go:35-109, 133-153 rolloutRecreate. *)
Definition recreate (d sets map : string) : Prog :=
  block [ all_sets d sets map "rc.new" "rc.old"; Append "rc.all" "rc.old" "rc.new";
          filter_sets "rc.old" "rc.active"; when [nodes_of "rc.all"];
          recreate_down "rc.active" d; Send map;
          Alt (sync_rollout "rc.all" "rc.new" d)
              (block [ when [ all_sets d sets map "rc.new" "rc.old"; Append "rc.all" "rc.old" "rc.new" ];
                       scale_set "rc.new" d "rc.out";
                       when [nodes_of "rc.all"; cleanup "rc.old" d];
                       sync_rollout "rc.all" "rc.new" d ]) ].

(* deployment_sync.go:44-52 syncStatusOnly. *)
Definition sync_status_only (d sets map : string) : Prog :=
  block [ all_sets d sets map "so.new" "so.old"; Append "so.all" "so.old" "so.new";
          sync_status "so.all" "so.new" d ].

(* deployment_sync.go:56-76 sync. *)
Definition sync (d sets map : string) : Prog :=
  block [ all_sets d sets map "sn.new" "sn.old"; scale d "sn.new" "sn.old"; when [cleanup "sn.old" d];
          Append "sn.all" "sn.old" "sn.new"; sync_status "sn.all" "sn.new" d ].

(* deployment_util.go:949-956 SetFromMachineSetTemplate: the deployment now
   points into the set, which may be the cached one; the labels are a clone
   (pkg/util/labels/labels.go:46-58). *)
Definition set_from_template (d is : string) : Prog :=
  block [ Fields d "Spec.Template." is "Spec.Template."; New "sf.labels";
          Put d "Spec.Template.Meta.Labels" "sf.labels" ].

(* deployment_util.go:534-551 SetMachineDeploymentAnnotationsTo: a new map. *)
Definition set_annotations_to (d is : string) : Prog :=
  block [ Send d; New "at.ann"; Put d "Meta.Annotations" "at.ann"; Send is; loop [Data "at.ann" "*"] ].

(* deployment_rollback.go:136-141 updateMachineDeploymentAndClearRollbackTo. *)
Definition clear_rollback (d : string) : Prog :=
  block [ Send d; Drop d "Spec.RollbackTo"; Send d ].

(* deployment_rollback.go:40-123 rollback, rollbackToTemplate. *)
Definition rollback (d sets map : string) : Prog :=
  block [ all_sets d sets map "rb.new" "rb.old"; Append "rb.all" "rb.old" "rb.new";
          Get "rb.to" d "Spec.RollbackTo"; when [Send "rb.all"; Data "rb.to" "Revision"];
          Alt (clear_rollback d)
              (block [ Elem "rb.is" "rb.all"; Send "rb.is"; untaint "rb.is"; equal_ignore_hash "rb.is" d;
                       when [ set_from_template d "rb.is"; set_annotations_to d "rb.is" ];
                       clear_rollback d ]) ].

(* deployment_sync.go:673-698 isScalingEvent. *)
Definition is_scaling (d sets map : string) : Prog :=
  block [ Send d; all_sets d sets map "ig.new" "ig.old"; Append "ig.all" "ig.old" "ig.new";
          filter_sets "ig.all" "ig.l"; Send "ig.l" ].

(* deployment.go:414-551 reconcileClusterMachineDeployment.  The internal
   version made for the validation shares the memory of the deployment
   (pkg/apis/machine/v1alpha1/zz_generated.conversion.go:840-852). *)
Definition reconcile_deployment : Prog :=
  block [ New "deployment"; Send "deployment"; Make 0 "internal"; Fields "internal" "" "deployment" "";
          Send "internal"; DeepCopy "d" "deployment"; when [deployment_finalizers "d"];
          Alt (block [ Send "d"; Data "d" "Status.ObservedGeneration"; Send "d" ])
              (block [ get_sets "d" "sets"; machine_map "d" "sets" "map";
                 Alt (block [ Send "d"; Alt (deployment_finalizers "d")
                                            (block [terminate_sets "sets" "d"; sync_status_only "d" "sets" "map"]) ])
                     (block [ check_paused "d"; set_priority "d";
                        Alt (sync "d" "sets" "map")
                       (Alt (rollback "d" "sets" "map")
                            (block [ is_scaling "d" "sets" "map";
                                     Alt (sync "d" "sets" "map")
                                    (Alt (recreate "d" "sets" "map") (rolling "d" "sets" "map")) ])) ]) ]);
          Send "deployment" ].

(* ---- the MachineSet controller ---- *)

(* machineset.go:744-793, the finalizers of a set. *)
Definition set_finalizers (is : string) : Prog :=
  block [ Send is; DeepCopy "sz.clone" is; New "sz.list"; Put "sz.clone" "Meta.Finalizers" "sz.list";
          New "sz.is"; DeepCopy "sz.copy" "sz.is"; Put "sz.copy" "Meta.Finalizers" "sz.list"; Send "sz.copy" ].

(* machineset_util.go:138-148 copyMachineSetNodeTemplatesToMachines: [machine] is
   the cached one. *)
Definition copy_node_template (set machine : string) : Prog :=
  block [ DeepCopy "cn.1" set; DeepCopy "cn.2" machine; Send "cn.1"; Send "cn.2";
          when [Fields machine "Spec.NodeTemplateSpec." set "Spec.Template.Spec.NodeTemplateSpec."] ].

(* machineset_util.go:181-193 copyMachineSetConfigToMachines. *)
Definition copy_config (set machine : string) : Prog :=
  block [ DeepCopy "cf.1" set; DeepCopy "cf.2" machine; Send "cf.1"; Send "cf.2";
          when [ Get "cf.c" set "Spec.Template.Spec.MachineConfiguration";
                 Put machine "Spec.MachineConfiguration" "cf.c" ] ].

(* machineset_util.go:197-204 copyMachineSetClassKindToMachines. *)
Definition copy_kind (set machine : string) : Prog :=
  block [ Send set; Send machine; when [Data machine "Spec.Class.Kind"] ].

(* The three statements above that write to a cached machine
   (machineset_util.go:145, 190, 199), with the variable sync_machines holds
   the machine in.  This is a description for the theorems of MemProps.v,
   nothing is run with it. *)
Definition copy_statement (p : Prim) : bool :=
  match p with
  | Fields y f _ _ => (String.eqb y "sx.m" && String.eqb f "Spec.NodeTemplateSpec.")%bool
  | Put y f _ => (String.eqb y "sx.m" && String.eqb f "Spec.MachineConfiguration")%bool
  | Data y f => (String.eqb y "sx.m" && String.eqb f "Spec.Class.Kind")%bool
  | _ => false
  end.

(* machineset_util.go:85-133, 151-176: syncMachinesNodeTemplates,
   syncMachinesClassKind, syncMachinesConfig are this loop around one of the
   three copies above. *)
Definition sync_machines (copy : string -> string -> Prog) (machines set : string) : Prog :=
  loop [ Elem "sx.m" machines; Send "sx.m"; copy set "sx.m";
         update_with_retries (fun _ => Skip) "sx.out" ].

(* controller_utils.go:495-571 GetMachineFromTemplate and creation: labels,
   annotations, finalizers and the owner reference are new, the spec is
   copied. *)
Definition create_machine (set : string) : Prog :=
  block [ Send set; New "cx.ref"; DeepCopy "cx.tmpl" set; New "cx.labels"; New "cx.ann"; New "cx.fin";
          New "cx.m"; Put "cx.m" "Meta.Labels" "cx.labels"; Put "cx.m" "Meta.Annotations" "cx.ann";
          Put "cx.m" "Meta.Finalizers" "cx.fin"; New "cx.refs"; Append "cx.refs" "cx.refs" "cx.ref";
          Put "cx.m" "Meta.OwnerReferences" "cx.refs";
          Fields "cx.m" "Spec." "cx.tmpl" "Spec.Template.Spec."; Send "cx.m"; New "cx.new"; Send "cx.new" ].

(* machineset.go:665-711 prepareMachineForDeletion, 795-841 updateMachineStatus,
   isMachineStatusEqual. *)
Definition prepare_deletion (machine set : string) : Prog :=
  block [ Send machine; Send set;
          New "pd.m"; DeepCopy "pd.clone" "pd.m"; Data "pd.clone" "Status.LastOperation";
          Data "pd.clone" "Status.CurrentStatus";
          DeepCopy "pd.1" "pd.clone"; DeepCopy "pd.2" "pd.m";
          Data "pd.1" "Status.LastOperation.LastUpdateTime"; Data "pd.2" "Status.LastOperation.LastUpdateTime";
          Data "pd.1" "Status.CurrentStatus.LastUpdateTime"; Data "pd.2" "Status.CurrentStatus.LastUpdateTime";
          Send "pd.1"; Send "pd.2"; Send "pd.clone" ].

(* machineset.go:713-737 terminateMachines. *)
Definition terminate_machines (machines set : string) : Prog :=
  loop [Elem "tm.t" machines; prepare_deletion "tm.t" set].

(* machineset.go:333-452 manageReplicas, 645-663. *)
Definition manage_replicas (machines set : string) : Prog :=
  block [ Send set; Make 0 "mr.active"; Make 0 "mr.stale";
          loop [ Elem "mr.t" machines; Send "mr.t";
                 Alt (Append "mr.stale" "mr.stale" "mr.t") (Append "mr.active" "mr.active" "mr.t") ];
          when [terminate_machines "mr.stale" set];
          Alt (loop [create_machine set])
              (block [ sort_list "mr.active"; Send "mr.active"; terminate_machines "mr.active" set ]) ].

(* deployment_machineset_util.go:92-159 calculateMachineSetStatus and 39-90
   updateMachineSetStatus, on the deep copy made at machineset.go:566. *)
Definition set_status (set machines : string) : Prog :=
  block [ New "ss.failed";
          loop [ Elem "ss.t" machines; Send "ss.t"; when [New "ss.s"; Append "ss.failed" "ss.failed" "ss.s"] ];
          Send set; Put set "Status.FailedMachines" "ss.failed"; when [set_condition set];
          Data set "Status.Replicas"; Send set;
          loop [ New "ss.is"; Fields "ss.is" "Status." set "Status."; Send "ss.is" ] ].

(* machineset.go:457-587 reconcileClusterMachineSet, with the three copies as
   parameters. *)
Definition reconcile_set_with (templates config kind : string -> string -> Prog) : Prog :=
  block [ New "set"; Send "set"; Make 0 "internal"; Fields "internal" "" "set" ""; Send "internal";
          when [set_finalizers "set"];
          list_cached "all" "t"; claim "set" "all" "machines";
          sync_machines templates "machines" "set";
          sync_machines config "machines" "set";
          sync_machines kind "machines" "set";
          Alt (manage_replicas "machines" "set")
              (Alt (set_finalizers "set") (when [Send "set"; terminate_machines "machines" "set"]));
          DeepCopy "copy" "set"; set_status "copy" "machines"; Send "copy" ].
(* machineset.go:457-587 as it is. *)
Definition reconcile_set : Prog :=
  reconcile_set_with copy_node_template copy_config copy_kind.

(* ---- the safety controller ---- *)

(* deployment_util.go:67-96, deployment.go:123-139: the deployments of a set, a
   slice of pointers into the cache. *)
Definition deployments_of (is out : string) : Prog :=
  block [ Send is; list_cached "do.all" "do.t"; filter_sets "do.all" out ].

(* machine_safety.go:413-445 freezeMachineDeployment, 448-491
   unfreezeMachineDeployment, 293-321 and 366-410 the same for a set: the
   object is fetched and copied, twice.  newStatus is the status of the clone
   and goes back into it, so it is not a variable of its own. *)
Definition freeze_object (x : string) : Prog :=
  block [ Send x; New "fz.x"; DeepCopy "fz.clone" "fz.x"; set_condition "fz.clone"; Send "fz.clone";
          New "fz.x"; DeepCopy "fz.clone2" "fz.x";
          when [New "fz.t"; Put "fz.clone2" "Meta.Annotations" "fz.t"];
          Get "fz.t" "fz.clone2" "Meta.Annotations"; Drop "fz.t" "*";
          when [New "fz.t"; Put "fz.clone2" "Meta.Labels" "fz.t"];
          Get "fz.t" "fz.clone2" "Meta.Labels"; Alt (Data "fz.t" "freeze") (Drop "fz.t" "freeze");
          Send "fz.clone2" ].

(* machine_safety.go:199-279, 293-363 checkAndFreezeORUnfreezeMachineSets. *)
Definition check_and_freeze : Prog :=
  block [ list_cached "ck.sets" "ck.t";
          loop [ Elem "ck.is" "ck.sets"; Send "ck.is"; list_cached "ck.machines" "ck.t"; Send "ck.machines";
                 deployments_of "ck.is" "ck.deps"; Send "ck.deps";
                 when [ freeze_object "ck.is"; deployments_of "ck.is" "ck.deps";
                        when [Elem "ck.d" "ck.deps"; freeze_object "ck.d"]; freeze_object "ck.is" ] ] ].

(* machine_safety.go:144-195 syncMachineDeploymentFreezeState. *)
Definition sync_freeze : Prog :=
  block [ list_cached "sq.deps" "sq.t";
          loop [ Elem "sq.d" "sq.deps"; Send "sq.d"; get_sets "sq.d" "sq.sets"; Send "sq.sets";
                 when [freeze_object "sq.d"] ] ].

(* machine_safety.go:76-141 unfreezeMachineDeploymentsWithUnfreezeAnnotation,
   unfreezeMachineSetsWithUnfreezeAnnotation. *)
Definition unfreeze_annotated : Prog :=
  block [ list_cached "uf.deps" "uf.t";
          loop [ Elem "uf.d" "uf.deps"; Send "uf.d"; freeze_object "uf.d"; get_sets "uf.d" "uf.sets";
                 loop [ Elem "uf.t" "uf.sets"; Send "uf.t"; New "uf.is"; DeepCopy "uf.clone" "uf.is";
                        set_entry "uf.clone" "Meta.Annotations" "uf.e"; Send "uf.clone" ] ];
          list_cached "uf.sets" "uf.t";
          loop [ Elem "uf.t" "uf.sets"; Send "uf.t"; freeze_object "uf.t" ] ].

(* machine_safety.go:38-73 reconcileClusterMachineSafetyOvershooting. *)
Definition reconcile_overshooting : Prog :=
  block [ check_and_freeze; sync_freeze; unfreeze_annotated ].

(* ---- handlers and metrics ---- *)

(* The event handlers registered in controller.go:106-143
   (deployment.go:56-224, machineset.go:77-328, machine_safety.go:282-290):
   objects from the cache are read, sets and deployments listed, owners
   fetched, keys queued. *)
Definition mcm_handler : Prog :=
  block [ Cached "old"; Cached "cur"; Send "old"; Send "cur";
          loop [ Alt (block [New "o"; Send "o"])
                     (block [list_cached "l" "t"; filter_sets "l" "m"; Send "m"]) ] ].

(* metrics.go:45-297: sets and deployments are listed, their meta data and spec
   copied and read. *)
Definition mcm_collect : Prog :=
  block [ list_cached "l" "t";
          loop [ Elem "o" "l"; Make 0 "meta"; Fields "meta" "Meta." "o" "Meta."; Make 0 "spec";
                 Fields "spec" "Spec." "o" "Spec."; Send "o"; Send "meta"; Send "spec" ] ].

(* What runs in the process (controller.go:106-143, 215-224). *)
Definition mcm_programs : list Prog :=
  [ reconcile_set; reconcile_deployment; reconcile_overshooting; mcm_handler; mcm_collect ].
