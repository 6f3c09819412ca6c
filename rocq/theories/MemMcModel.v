(* C115: the memory accesses of the machine controller process
   (pkg/util/provider): the reconcile functions of its seven queues, the
   handlers of its informers and its metrics collector, in the language of
   MemModel.v.  A struct is one cell, so reading any of its fields is reading
   the cell; where a function only reads, Send stands for all its reads. *)
Require Import List String.
From Verif Require Import MemModel.
Import ListNotations.
Open Scope string_scope.
Arguments cons {A}%type_scope & _ _.

(* x := lister.List(..): a new slice of pointers into the cache
   (client-go's ListAll appends the cached pointers to a slice of its own;
   used e.g. in pkg/util/provider/machinecontroller/machine.go:408). *)
Definition list_cached (x t : string) : Prog :=
  block [Make 7 x; loop [Cached t; Append x x t]].

(* if y.f == nil { y.f = make(map[string]string) }; y.f[..] = .., as in
   machine_util.go:251-254, 1714-1717 and machine.go:630-640. *)
Definition set_entry (y f t : string) : Prog :=
  block [when [New t; Put y f t]; Get t y f; Data t "*"].

(* machine_util.go:189-220 nodeConditionsHaveChanged: four collections of its
   own that hold copies of the conditions. *)
Definition conditions_changed (old new : string) : Prog :=
  block [ Make 0 "cc.old"; Make 0 "cc.new"; Make 0 "cc.added"; Make 0 "cc.removed";
          loop [Elem "cc.c" old; Make 0 "cc.o"; Fields "cc.o" "" "cc.c" ""; Put "cc.old" "*" "cc.o"];
          loop [Elem "cc.c" new; Make 0 "cc.o"; Fields "cc.o" "" "cc.c" ""; Put "cc.new" "*" "cc.o"];
          loop [Elem "cc.c" new; Send "cc.old"; Make 0 "cc.o"; Fields "cc.o" "" "cc.c" ""; Append "cc.added" "cc.added" "cc.o"];
          loop [Elem "cc.c" old; Send "cc.new"; Make 0 "cc.o"; Fields "cc.o" "" "cc.c" ""; Append "cc.removed" "cc.removed" "cc.o"];
          Send "cc.added"; Send "cc.removed" ].

(* machine_util.go:222-232 mergeDataMaps: the []byte values are shared with the
   maps merged. *)
Definition merge_data (out a b : string) : Prog :=
  block [ Make 0 "md.out";
          loop [Elem "md.v" a; Put "md.out" "*" "md.v"];
          loop [Elem "md.v" b; Put "md.out" "*" "md.v"];
          Let out "md.out" ].

(* machine_util.go:120-140 getSecretData, 171-186 getSecret: secretData starts as
   the nil map. *)
Definition get_secret_data (class data : string) : Prog :=
  block [ Make 0 data;
          loop [ Send class; Cached "gs.secret"; Get "gs.data" "gs.secret" "Data";
                 merge_data data data "gs.data" ] ].

(* machine_util.go:76-118 ValidateMachineClass, 143-168 validateNodeTemplate. *)
Definition validate_class (machine class data : string) : Prog :=
  block [ Send machine; Cached class; Send class; get_secret_data class data; Send class ].

(* machine_util.go:578-598 isMachineStatusSimilar, called with the status of the
   clone and of the machine: compares copies. *)
Definition status_similar (s1 s2 : string) : Prog :=
  block [ DeepCopy "ss.1" s1; DeepCopy "ss.2" s2; Send s1; Send s2;
          when [Data "ss.1" "Status.LastOperation.Description"; Data "ss.2" "Status.LastOperation.Description"];
          Data "ss.1" "Status.LastOperation.LastUpdateTime"; Data "ss.2" "Status.LastOperation.LastUpdateTime";
          Data "ss.1" "Status.CurrentStatus.LastUpdateTime"; Data "ss.2" "Status.CurrentStatus.LastUpdateTime";
          Send "ss.1"; Send "ss.2" ].

(* machine_util.go:545-575 machineStatusUpdate. *)
Definition status_update (machine : string) : Prog :=
  block [ DeepCopy "su.clone" machine;
          Data "su.clone" "Status.LastOperation";
          Data "su.clone" "Status.CurrentStatus";
          Data "su.clone" "Status.LastKnownState";
          status_similar "su.clone" machine;
          Send "su.clone"; Send machine ].

(* machine_util.go:825-845 addMachineFinalizers. *)
Definition add_finalizers (machine : string) : Prog :=
  block [ Send machine; New "fi.list"; DeepCopy "fi.clone" machine;
          Put "fi.clone" "Meta.Finalizers" "fi.list"; Send "fi.clone"; Send machine ].

(* machine_util.go:847-865 deleteMachineFinalizers. *)
Definition delete_finalizers (machine : string) : Prog :=
  block [ Send machine; New "fi.list"; DeepCopy "fi.clone" machine;
          Put "fi.clone" "Meta.Finalizers" "fi.list"; Send "fi.clone"; Send machine ].

(* machine_util.go:236-266 syncMachineNameToNode. *)
Definition sync_name (machine : string) : Prog :=
  block [ Send machine; Cached "sn.node"; Send "sn.node"; DeepCopy "sn.copy" "sn.node";
          set_entry "sn.copy" "Meta.Labels" "sn.labels"; Send machine; Send "sn.copy" ].

(* machine_util.go:351-386 SyncMachineAnnotations and 390-425 SyncMachineLabels:
   the machine's map, or the package's empty map in its place (366, 405), is
   read, the node's is written. *)
Definition sync_map (machine node last mf nf : string) : Prog :=
  block [ Get "sm.m" machine mf; Get "sm.n" node nf;
          when [New "sm.n"; Put node nf "sm.n"];
          when [Global "sm.m" 1];
          loop [Elem "sm.t" last; Get "sm.t" "sm.m" "*"; when [Drop "sm.n" "*"]];
          loop [Elem "sm.t" "sm.m"; Get "sm.t" "sm.n" "*"; when [Data "sm.n" "*"]] ].

(* machine_util.go:436-499 SyncMachineTaints: the two maps hold pointers into the
   slices of the machine and of the node; the new slice holds copies of the
   taints, whose TimeAdded pointers are still those of the machine. *)
Definition sync_taints (machine node last : string) : Prog :=
  block [ Get "st.m" machine "Spec.NodeTemplateSpec.Spec.Taints"; Get "st.n" node "Spec.Taints";
          Make 0 "st.mm"; Make 0 "st.nm";
          loop [Elem "st.t" "st.m"; Send "st.t"; Put "st.mm" "*" "st.t"];
          loop [Elem "st.t" "st.n"; Send "st.t"; Put "st.nm" "*" "st.t"];
          loop [Elem "st.t" last; Send "st.t"; Send "st.mm"; when [Drop "st.nm" "*"]];
          loop [Elem "st.t" "st.mm"; Send "st.nm"; when [Put "st.nm" "*" "st.t"]];
          when [ Make 0 "st.new";
                 loop [Elem "st.t" "st.nm"; Make 0 "st.c"; Fields "st.c" "" "st.t" "";
                       Put "st.new" "*" "st.c"];
                 Put node "Spec.Taints" "st.new" ] ].

(* machine_util.go:271-347 syncMachineNodeTemplates.  The last applied template
   is decoded from text, so it is new memory.  nodeCopy.Annotations is taken
   once, in front of the taints, instead of again at line 329: nothing in
   between replaces the map, which was made sure to be there at 291-294. *)
Definition sync_templates (machine : string) : Prog :=
  block [ Send machine; Cached "nt.node"; DeepCopy "nt.copy" "nt.node";
          when [New "nt.ann"; Put "nt.copy" "Meta.Annotations" "nt.ann"];
          Send "nt.node"; New "nt.last"; Get "nt.lastA" "nt.last" "Meta.Annotations";
          Get "nt.lastL" "nt.last" "Meta.Labels"; Get "nt.lastT" "nt.last" "Spec.Taints";
          sync_map machine "nt.copy" "nt.lastA" "Spec.NodeTemplateSpec.Meta.Annotations" "Meta.Annotations";
          sync_map machine "nt.copy" "nt.lastL" "Spec.NodeTemplateSpec.Meta.Labels" "Meta.Labels";
          Get "nt.ann" "nt.copy" "Meta.Annotations";
          sync_taints machine "nt.copy" "nt.lastT";
          Send machine; Data "nt.ann" "machine.sapcloud.io/last-applied-anno-labels-taints";
          Send "nt.copy" ].

(* machine_util.go:1554-1602 canMarkMachineFailed. *)
Definition can_mark : Prog :=
  block [ list_cached "cm.list" "cm.t"; loop [Elem "cm.t" "cm.list"; Send "cm.t"] ].

(* machine_util.go:1525-1552 updateMachineToFailedState. *)
Definition to_failed (machine clone : string) : Prog :=
  block [ Send machine; Data clone "Status.LastOperation"; Data clone "Status.CurrentStatus";
          Send clone; Send machine ].

(* machine_util.go:1640-1669 tryMarkingMachineFailed with 1604-1628
   waitForFailedMachineCacheUpdate.  The permit giver is not part of the
   memory here (it is a sync.Map of its own, C40). *)
Definition try_failed (machine clone : string) : Prog :=
  block [ Send machine; can_mark; to_failed machine clone;
          loop [Send machine; Cached "tf.m"; Send "tf.m"]; Send machine ].

(* machine_util.go:618-806 reconcileMachineHealth with 871-911 isHealthy and the
   taint test.  Line 660: the clone takes over the conditions of the cached
   node. *)
Definition machine_health (machine : string) : Prog :=
  block [ DeepCopy "mh.clone" machine; Send machine; Cached "mh.node";
          Alt (when [Send machine; Data "mh.clone" "Status.CurrentStatus"; Data "mh.clone" "Status.LastOperation"])
              (block [ Get "mh.mc" machine "Status.Conditions"; Get "mh.nc" "mh.node" "Status.Conditions";
                       conditions_changed "mh.mc" "mh.nc";
                       when [Put "mh.clone" "Status.Conditions" "mh.nc"; Send machine];
                       Send "mh.clone"; Send "mh.node";
                       when [Data "mh.clone" "Status.LastOperation"; Data "mh.clone" "Status.CurrentStatus"] ]);
          Send machine;
          when [ Alt (try_failed machine "mh.clone")
                     (block [Send machine; Data "mh.clone" "Status.LastOperation"; Data "mh.clone" "Status.CurrentStatus"]) ];
          when [ Send "mh.clone"; Send machine ] ].

(* userdata.go:41-77 addBootstrapTokenToUserData with 107-142, and 79-105
   addMachineNameToUserData: both replace the entry userData of the secret they
   are given. *)
Definition user_data (machine secret : string) : Prog :=
  block [ Get "ud.data" secret "Data"; Send "ud.data"; Send machine;
          New "ud.token"; Send "ud.token"; New "ud.new"; Put "ud.data" "userData" "ud.new";
          Send "ud.data"; Send machine; New "ud.new"; Put "ud.data" "userData" "ud.new" ].

(* machine.go:625-653 updateLabels. *)
Definition update_labels (machine clone : string) : Prog :=
  block [ Send machine; DeepCopy clone machine;
          when [ set_entry clone "Meta.Labels" "ul.t"; set_entry clone "Meta.Annotations" "ul.t";
                 Data clone "Spec.ProviderID"; Send clone;
                 Alt (DeepCopy clone machine) (New clone); Send clone ] ].

(* machine.go:229-233, 269-273, 469-473, 656-660: the requests are structs of pointers. *)
Definition request (r machine class secret : string) : Prog :=
  block [ Make 0 r; Put r "Machine" machine; Put r "MachineClass" class; Put r "Secret" secret ].

(* machine.go:655-697 initializeMachine. *)
Definition initialize (machine class secret : string) : Prog :=
  block [ request "im.req" machine class secret; Send "im.req"; when [Send machine; status_update machine] ].

(* machine.go:446-623 triggerCreationFlow; machine_util.go:503-543
   machineCreateErrorHandler and 601-614 getCreateFailurePhase are reads and a
   status update.  Line 458: the secret is copied before it is written. *)
Definition creation_flow (req : string) : Prog :=
  block [ Get "cf.machine" req "Machine"; Get "cf.class" req "MachineClass"; Get "cf.secret" req "Secret";
          DeepCopy "cf.copy" "cf.secret"; user_data "cf.machine" "cf.copy";
          Put req "Secret" "cf.copy";
          request "cf.status" "cf.machine" "cf.class" "cf.copy"; Send "cf.status"; New "cf.resp";
          Alt (block [ Send "cf.machine"; Send req;
                       Alt (status_update "cf.machine")
                           (when [ Cached "cf.node"; Send "cf.node";
                                   Make 0 "cf.stale"; Fields "cf.stale" "Meta." "cf.machine" "Meta.";
                                   Data "cf.stale" "Spec.ProviderID";
                                   request "cf.del" "cf.stale" "cf.class" "cf.copy"; Send "cf.del";
                                   status_update "cf.machine" ]) ])
              Skip;
          update_labels "cf.machine" "cf.clone";
          when [ initialize "cf.clone" "cf.class" "cf.copy" ];
          when [ DeepCopy "cf.clone" "cf.machine"; Data "cf.clone" "Status.LastOperation";
                 Data "cf.clone" "Status.CurrentStatus"; Send "cf.clone" ] ].

(* machine.go:136-169 reconcileClusterMachineKey, 171-238 reconcileClusterMachine.
   Line 175: the flag of the safety controller is read without a lock. *)
Definition reconcile_machine : Prog :=
  block [ Cached "machine"; Send "machine";
          block [ Global "safety" 0; Get "frozen" "safety" "MachineControllerFrozen";
                  Send "machine"; validate_class "machine" "class" "data";
                  add_finalizers "machine";
                  when [ machine_health "machine"; sync_name "machine"; sync_templates "machine" ];
                  when [ Make 0 "secret"; Put "secret" "Data" "data";
                         request "create" "machine" "class" "secret"; creation_flow "create" ] ];
          Send "machine" ].

(* machine_util.go:919-947 setMachineTerminationStatus. *)
Definition termination_status (machine : string) : Prog :=
  block [ DeepCopy "ts.clone" machine; Data "ts.clone" "Status.LastOperation";
          Data "ts.clone" "Status.CurrentStatus"; Send "ts.clone"; Send machine ].

(* machine_util.go:1711-1725 updateMachineNodeLabel. *)
Definition node_label (machine : string) : Prog :=
  block [ Send machine; DeepCopy "nl.clone" machine; set_entry "nl.clone" "Meta.Labels" "nl.t"; Send "nl.clone" ].

(* machine_util.go:950-1036 updateMachineStatusAndNodeLabel, 1727-1752 getNodeName
   and fetchMatchingNodeName. *)
Definition status_and_label (req : string) : Prog :=
  block [ Get "sl.machine" req "Machine"; Send "sl.machine";
          when [ list_cached "sl.nodes" "sl.t"; loop [Elem "sl.t" "sl.nodes"; Send "sl.t"]; Send req;
                 when [node_label "sl.machine"] ];
          Send "sl.machine"; status_update "sl.machine" ].

(* pkg/util/nodeops/conditions.go:19-106 and machine_util.go:1487-1523
   UpdateNodeTerminationCondition: nodes come from the API. *)
Definition node_condition (machine : string) : Prog :=
  block [ Send machine; New "nc.node"; Send "nc.node";
          loop [ New "nc.old"; DeepCopy "nc.new" "nc.old"; Get "nc.c" "nc.new" "Status.Conditions";
                 New "nc.list"; loop [Elem "nc.t" "nc.c"; Append "nc.list" "nc.list" "nc.t"];
                 Put "nc.new" "Status.Conditions" "nc.list";
                 DeepCopy "nc.clone" "nc.old"; Get "nc.c" "nc.new" "Status.Conditions";
                 Put "nc.clone" "Status.Conditions" "nc.c"; Send "nc.clone" ] ].

(* pkg/util/provider/drain/drain.go:351-390 getPodsForDeletion: *pod is a copy of
   the struct, what it points to is shared with the cache. *)
Definition pods_for_deletion (x : string) : Prog :=
  block [ list_cached "pd.list" "pd.t"; Make 0 x;
          loop [ Elem "pd.t" "pd.list"; Send "pd.t"; Make 0 "pd.pod"; Fields "pd.pod" "" "pd.t" "";
                 Append x x "pd.pod" ] ].

(* volume_attachment.go:72-88 AddWorker: line 78 reads the list for the log
   before taking the lock; 80-87 append to it under the lock. *)
Definition add_worker : Prog :=
  block [ Global "vh" 2; Get "vh.w" "vh" "workers"; LockedSet 2 "workers" ].

(* volume_attachment.go:91-110 DeleteWorker: line 92 as above; 94-109 under the
   lock. *)
Definition delete_worker : Prog :=
  block [ Global "vh" 2; Get "vh.w" "vh" "workers"; LockedSet 2 "workers" ].

(* drain.go:1178-1200 getPdbForPod, isMisconfiguredPdb. *)
Definition pdb_for_pod (pod : string) : Prog :=
  block [ list_cached "pb.list" "pb.t"; loop [Elem "pb.t" "pb.list"; Send "pb.t"; Send pod] ].

(* drain.go:692-821 evictPodsWithPVInternal, 861-986 waitForDetach and
   waitForReattach: the events of the channel are cached volume attachments. *)
Definition evict_with_pv_once (pods left : string) : Prog :=
  block [ Make 0 left;
          loop [ Elem "ev.pod" pods; add_worker; Send "ev.pod";
                 Alt (block [ pdb_for_pod "ev.pod"; Append left left "ev.pod"; delete_worker ])
                     (block [ loop [New "ev.node"; Send "ev.node"];
                              Make 0 "ev.wait"; loop [Data "ev.wait" "*"];
                              loop [Cached "ev.va"; Send "ev.va"; Drop "ev.wait" "*"]; delete_worker ]) ];
          when [ loop [Elem "ev.pod" pods; Append left left "ev.pod"] ] ].

(* drain.go:538-542 sortPodsByPriority (in the slice of line 447 filterPodsWithPv),
   549-626 getPodVolumeInfos and filterSharedPVs, 823-859, 988-1023, 628-682
   evictPodsWithPv. *)
Definition evict_with_pv (pods : string) : Prog :=
  block [ loop [Elem "ew.a" pods; Send "ew.a"; Put pods "*" "ew.a"];
          New "ew.names";
          loop [ Elem "ew.pod" pods; Send "ew.pod"; New "ew.pvs"; loop [Cached "ew.pvc"; Send "ew.pvc"; Data "ew.pvs" "*"];
                 Put "ew.names" "*" "ew.pvs" ];
          loop [ New "ew.pvs"; Put "ew.names" "*" "ew.pvs" ];
          New "ew.infos";
          loop [ Cached "ew.pv"; Make 0 "ew.spec"; Put "ew.spec" "PVSpecs" "ew.pv"; Send "ew.spec";
                 New "ew.info"; Put "ew.infos" "*" "ew.info" ];
          loop [ evict_with_pv_once pods "ew.left"; Let pods "ew.left" ];
          loop [ Elem "ew.pod" pods; Send "ew.pod" ] ].

(* drain.go:1025-1121 evictPodWithoutPVInternal and waitForDelete, 528-536. *)
Definition evict_without_pv (pods : string) : Prog :=
  loop [ Elem "eo.pod" pods; Send "eo.pod"; loop [Send "eo.pod"; pdb_for_pod "eo.pod"];
         Make 0 "eo.array"; Append "eo.array" "eo.array" "eo.pod";
         loop [ Make 0 "eo.pending"; loop [Elem "eo.t" "eo.array"; New "eo.p"; Send "eo.p"; Append "eo.pending" "eo.pending" "eo.t"];
                Let "eo.array" "eo.pending" ] ].

(* drain.go:447-468 filterPodsWithPv, 490-526 evictPods: the two goroutines work
   on slices of their own; here one runs after the other. *)
Definition evict_pods (pods : string) : Prog :=
  block [ Make 0 "ep.with"; Make 0 "ep.without";
          loop [ Elem "ep.t" pods; Send "ep.t";
                 Alt (Append "ep.with" "ep.with" "ep.t") (Append "ep.without" "ep.without" "ep.t") ];
          evict_with_pv "ep.with"; evict_without_pv "ep.without" ].

(* drain.go:218-269 RunDrain and deleteOrEvictPodsSimple, 1157-1176
   RunCordonOrUncordon (a node from the API). *)
Definition run_drain : Prog :=
  block [ New "rd.node"; DeepCopy "rd.copy" "rd.node"; Data "rd.copy" "Spec.Unschedulable"; Send "rd.copy";
          pods_for_deletion "rd.pods"; evict_pods "rd.pods"; when [pods_for_deletion "rd.pods"; Send "rd.pods"] ].

(* machine_util.go:1051-1235 drainNode. *)
Definition drain_node (req : string) : Prog :=
  block [ Get "dn.machine" req "Machine"; Send "dn.machine"; Cached "dn.node"; Send "dn.node";
          when [ node_condition "dn.machine"; run_drain ]; status_update "dn.machine" ].

(* machine_util.go:1238-1299 deleteNodeVolAttachments, 1671-1697. *)
Definition volume_attachments (req : string) : Prog :=
  block [ Get "va.machine" req "Machine"; Send "va.machine"; Cached "va.node"; Send "va.node";
          when [ list_cached "va.all" "va.t"; Make 0 "va.live";
                 loop [Elem "va.t" "va.all"; Send "va.t"; Append "va.live" "va.live" "va.t"];
                 loop [Elem "va.t" "va.live"; Send "va.t"] ];
          status_update "va.machine" ].

(* machine_util.go:1302-1370 deleteVM. *)
Definition delete_vm (req : string) : Prog :=
  block [ Get "dv.machine" req "Machine"; Send req; New "dv.resp"; Send "dv.resp"; status_update "dv.machine" ].
(* machine_util.go:1373-1429 deleteNodeObject. *)
Definition delete_node (machine : string) : Prog :=
  block [ Send machine; status_update machine ].

(* machine.go:240-290 reconcileClusterMachineTermination, 699-761
   triggerDeletionFlow. *)
Definition reconcile_termination : Prog :=
  block [ Cached "machine"; Send "machine"; validate_class "machine" "class" "data";
          Make 0 "secret"; Put "secret" "Data" "data"; request "delete" "machine" "class" "secret";
          Get "machine" "delete" "Machine"; Send "machine";
          Alt (termination_status "machine")
            (Alt (status_and_label "delete")
              (Alt (drain_node "delete")
                (Alt (volume_attachments "delete")
                  (Alt (delete_vm "delete")
                    (Alt (delete_node "machine") (delete_finalizers "machine"))))));
          Send "machine" ].

(* secret.go:25-122: the secret worker, with secret_util.go:16-44.
   updateSecretFinalizers (105-122) reads
   the secret again from the API. *)
Definition reconcile_secret : Prog :=
  block [ Cached "secret"; Send "secret";
          list_cached "classes" "t"; Make 0 "filtered";
          loop [Elem "t" "classes"; Send "t"; Append "filtered" "filtered" "t"];
          DeepCopy "clone" "secret"; Send "clone"; New "list";
          New "fresh"; DeepCopy "clone2" "fresh"; Put "clone2" "Meta.Finalizers" "list"; Send "clone2";
          Send "secret" ].

(* machineclass.go:68-199: the class worker; machineclass_util.go:13-25. *)
Definition reconcile_class : Prog :=
  block [ Cached "class"; Send "class"; list_cached "all" "t"; Make 0 "machines";
          loop [Elem "t" "all"; Send "t"; Append "machines" "machines" "t"];
          loop [Elem "t" "machines"; Send "t"];
          New "list"; New "fresh"; DeepCopy "clone" "fresh"; Put "clone" "Meta.Finalizers" "list"; Send "clone";
          Send "class" ].

(* node.go:39-54: the node worker only looks the node up. *)
Definition reconcile_node : Prog := block [ Cached "node"; Send "node" ].

(* machine_safety_util.go:15-35 updateNodeWithAnnotations. *)
Definition node_annotations (node : string) : Prog :=
  block [ when [New "na.ann"; Put node "Meta.Annotations" "na.ann"];
          Get "na.ann" node "Meta.Annotations"; loop [Data "na.ann" "*"]; Send node ].

(* machine_safety.go:154-206 AnnotateNodesUnmanagedByMCM with machine.go:399-416
   getMachineFromNode. *)
Definition annotate_nodes : Prog :=
  block [ list_cached "an.nodes" "an.t";
          loop [ Elem "an.node" "an.nodes"; Send "an.node"; list_cached "an.ms" "an.t"; Send "an.ms";
                 Alt (block [ DeepCopy "an.copy" "an.node"; node_annotations "an.copy" ])
                     (block [ Send "an.node"; DeepCopy "an.copy" "an.node"; Get "an.ann" "an.copy" "Meta.Annotations";
                              Drop "an.ann" "*"; node_annotations "an.copy" ]) ] ].

(* machine_safety.go:209-300 checkMachineClasses and checkMachineClass: the
   machine in the request is a new one with a name, a namespace and an id. *)
Definition check_classes : Prog :=
  block [ list_cached "classes" "t";
          loop [ Elem "class" "classes"; get_secret_data "class" "data"; Make 0 "secret"; Put "secret" "Data" "data";
                 Make 0 "req"; Put "req" "MachineClass" "class"; Put "req" "Secret" "secret"; Send "req";
                 loop [ Cached "m"; Send "m"; New "machine"; request "del" "machine" "class" "secret"; Send "del" ] ] ].

(* machine_safety.go:27-48: the orphan worker. *)
Definition reconcile_orphans : Prog := block [ check_classes; annotate_nodes ].

(* machine_safety.go:53-129 reconcileClusterMachineSafetyAPIServer: the machine
   written at 78-88 is the one read from the API at 72; the flag and the time
   are written at 103-104, 113 and 117. *)
Definition reconcile_apiserver : Prog :=
  block [ Global "safety" 0; Get "frozen" "safety" "MachineControllerFrozen";
          Alt (block [ list_cached "ms" "t";
                       loop [ Elem "machine" "ms"; Send "machine";
                              when [ New "fresh"; Data "fresh" "Status.CurrentStatus";
                                     Data "fresh" "Status.LastOperation"; Send "fresh" ];
                              Send "machine" ];
                       SetShared 0 "MachineControllerFrozen"; SetShared 0 "APIserverInactiveStartTime" ])
              (block [ Get "since" "safety" "APIserverInactiveStartTime";
                       when [SetShared 0 "APIserverInactiveStartTime"];
                       Get "since" "safety" "APIserverInactiveStartTime";
                       when [SetShared 0 "MachineControllerFrozen"] ]) ].

(* machine.go:38-89, secret.go:129-194, machineclass.go:25-64, node.go:17-36,
   machine_safety.go:303-331: the handlers that look at the objects they are
   given and add keys to queues. *)
Definition handler : Prog := block [ Cached "old"; Cached "new"; Send "old"; Send "new" ].

(* machine.go:301-392 the node handlers: addNodeToMachine, updateNodeToMachine,
   deleteNodeToMachine; 418-439 addedOrRemovedEssentialTaints builds two maps of
   its own. *)
Definition node_handler : Prog :=
  block [ Cached "old"; Cached "node"; Send "old"; Send "node";
          list_cached "ms" "t"; Elem "machine" "ms"; Send "machine";
          New "oldkeys"; New "newkeys"; loop [Data "oldkeys" "*"]; loop [Data "newkeys" "*"];
          Get "mc" "machine" "Status.Conditions"; Get "nc" "node" "Status.Conditions";
          conditions_changed "mc" "nc"; Send "machine" ].

(* volume_attachment.go:30-69 dispatch: line 31 reads the list of workers before
   the lock is taken at 45 (the reads made while holding it are left out). *)
Definition attachment_handler : Prog :=
  block [ Global "vh" 2; Get "w" "vh" "workers"; Cached "va"; Send "va" ].

(* metrics.go:25-124: the collector, called from the metrics endpoint: line 53
   reads the flag of the safety controller.  mMeta and mSpec are copies of
   structs. *)
Definition collect : Prog :=
  block [ list_cached "ms" "t";
          loop [ Elem "machine" "ms"; Make 0 "meta"; Fields "meta" "Meta." "machine" "Meta.";
                 Make 0 "spec"; Fields "spec" "Spec." "machine" "Spec."; Send "machine" ];
          Global "safety" 0; Get "frozen" "safety" "MachineControllerFrozen" ].

(* controller.go:308-315 (the workers), 145-207 (the handlers), 306
   (prometheus.MustRegister). *)
Definition mc_programs : list Prog :=
  [ reconcile_machine; reconcile_termination; reconcile_secret; reconcile_class; reconcile_node;
    reconcile_orphans; reconcile_apiserver; handler; node_handler; attachment_handler; collect ].
