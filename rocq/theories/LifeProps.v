(** C24, C25, C59: the order of deletion of a machine, for all histories. *)
Require Import Coq.ZArith.ZArith Coq.Lists.List Coq.Strings.String Coq.Bool.Bool.
From Verif Require Import CodesModel MachModel LevModel HealthModel LifeModel LifeSpec LifeProofs.
Import ListNotations.
Open Scope string_scope.
Open Scope list_scope.
Open Scope Z_scope.

(** C24. For every history of one object (any interleaving of both queues, stale caches,
    lost answers, crashes, any answers of provider and API servers, edits by others): when
    the controller's finalizer goes away, deletion was requested, the provider had
    reported the VM gone after that, and the node object was gone or never known.
    Missing: histories in which a second object is created under the same name, see
    [C24_name_reused_refuted]. *)
Theorem C24_finalizer_last_partial : forall cf now labels annots fins pid ops op m,
  Forall not_created (ops ++ [op]) ->
  let w := run cf (init now) (OCreate labels annots fins pid :: ops) in
  protected w m -> (forall m', ~ protected (step cf w op) m') ->
  mo_dt m <> None /\ vm_deleted (w_log w) m /\ node_deleted (w_log w) m.
Proof.
  intros cf now labels annots fins pid ops op m F w P N.
  apply Forall_app in F. destruct F as (F1 & F2). inversion F2; subst.
  pose proof (inv_history cf now labels annots fins pid ops F1) as V.
  destruct (release_lemma cf w op m V) as (D & _ & _ & A & B); try assumption.
  split; [exact D|]. split; [apply A | apply B]; repeat constructor.
Qed.
Print Assumptions C24_finalizer_last_partial.

(** C25. Every deletion call of the termination queue is made for a machine whose deletion
    was requested, and comes after a completed drain of its node, or after a forced drain
    followed by the handling of the volume attachments, or there is no node name.
    Missing: histories in which a second object is created under the same name, see
    [C25_recreated_refuted]. *)
Theorem C25_drained_first_partial : forall cf now labels annots fins pid ops newer m r older,
  Forall not_created ops ->
  w_log (run cf (init now) (OCreate labels annots fins pid :: ops)) = newer ++ (QT, CDelete m, r) :: older ->
  mo_dt m <> None /\ ready_to_delete older m.
Proof.
  intros. pose proof (inv_history cf now labels annots fins pid ops H) as V.
  destruct (logOk_split _ (i_log _ V) _ _ _ H0) as (A & _). exact A.
Qed.
Print Assumptions C25_drained_first_partial.

(** C25. The node object is deleted after the VM only. Missing: as above. *)
Theorem C25_node_after_vm_partial : forall cf now labels annots fins pid ops newer m r older,
  Forall not_created ops ->
  w_log (run cf (init now) (OCreate labels annots fins pid :: ops)) = newer ++ (QT, CDeleteNode m, r) :: older ->
  vm_deleted older m.
Proof.
  intros. pose proof (inv_history cf now labels annots fins pid ops H) as V.
  destruct (logOk_split _ (i_log _ V) _ _ _ H0) as (A & _). apply A.
Qed.
Print Assumptions C25_node_after_vm_partial.

(** C25. The drain call of a deletion is forced exactly for the stated reasons; if the
    node condition cannot be set, only a forced drain goes on. *)
Theorem C25_forced_when : forall cf m now, nodeName m <> "" -> mo_dt m <> None ->
  exists force : bool, (force = true <-> may_force (cf_drain cf) now m) /\
    next (drainNode cf m) [] = Some CNow /\
    next (drainNode cf m) [RTime now] = Some (CNodeCond m) /\
    next (drainNode cf m) [RTime now; RUnit] = Some (CDrain m force) /\
    forall e, next (drainNode cf m) [RTime now; RErr e] = if force then Some (CDrain m true) else Some CNow.
Proof. exact force_lemma. Qed.
Print Assumptions C25_forced_when.

(** C59. The termination queue drains nodes, deletes VMs, volume attachments and nodes
    only for machines whose deletion was requested, and never makes the process panic.
    Partial: one object under the name (C59_recreated_refuted, C59_panic_refuted). *)
Theorem C59_only_when_requested_partial : forall cf now labels annots fins pid ops,
  Forall not_created ops ->
  let w := run cf (init now) (OCreate labels annots fins pid :: ops) in
  (forall c r m, In (QT, c, r) (w_log w) ->
     (exists f, c = CDrain m f) \/ c = CNodeCond m \/ c = CDelVA m \/ c = CDelete m \/ c = CDeleteNode m -> mo_dt m <> None) /\
  w_t w <> Some Panic.
Proof. exact only_requested. Qed.
Print Assumptions C59_only_when_requested_partial.

(** C59. The other queue deletes a VM only right after creating it itself.
    Partial: one object under the name. *)
Theorem C59_stale_node_partial : forall cf now labels annots fins pid ops newer x r older,
  Forall not_created ops ->
  w_log (run cf (init now) (OCreate labels annots fins pid :: ops)) = newer ++ (QC, CDelete x, r) :: older ->
  exists m node pid' lks, In (QC, CCreate m, POk node pid' lks) older /\ mo_pid x = pid' /\ mo_uid x = mo_uid m.
Proof.
  intros. pose proof (inv_history cf now labels annots fins pid ops H) as V.
  destruct (logOk_split _ (i_log _ V) _ _ _ H0) as ((m & node & pid' & lks & A & ->) & _).
  exists m, node, pid', lks. auto.
Qed.
Print Assumptions C59_stale_node_partial.

(** ** Concrete histories *)

(** Settings: drain timeout two hours, creation timeout twenty minutes, health ten. *)
Definition cf0 : Cfg := mkCfg 7200 1200 600 "" (mkShow (fun _ => "") (fun _ => "")).
(** A reconcile of the termination queue (or the other one) with these answers, then the
    cache catches up. *)
Definition pass (t : bool) (rs : list Reply) : list Op :=
  OStart t :: map (fun r => OStep t r Applied []) rs ++ [OStep t RUnit Applied []; OAdvance].
(** The provider's answer "no such VM". *)
Definition notFound : Reply := PFail (errorText (mkStatus cNotFound "no such VM")) None.
(** A whole deletion of a machine that never got a node. *)
Definition deletion : list Op :=
  pass true [RUnit; RUnit; RUnit] ++
  pass true [RUnit; RErr "none"; notFound; RUnit; RUnit] ++
  pass true [RUnit; RUnit; RUnit] ++
  pass true [RUnit; POk "" "" ""; RUnit; RUnit] ++
  pass true [RUnit; RUnit; RUnit].
(** A whole deletion of a machine with a node, with a forced drain. *)
Definition deletionForced : list Op :=
  pass true [RUnit; RUnit; RUnit] ++
  pass true [RUnit; RUnit; RUnit] ++
  pass true [RUnit; RUnit; RErr "no"; RErr "pods left"; RUnit; RUnit] ++
  pass true [RUnit; RBool true; RBool true; RUnit] ++
  pass true [RUnit; RBool true; RBool false; RUnit; RUnit] ++
  pass true [RUnit; POk "" "" ""; RUnit; RUnit] ++
  pass true [RUnit; RUnit; RUnit; RUnit].

(** A history that meets the hypotheses of [C24_finalizer_last_partial]: with node, forced
    drain, a failed and repeated write, a crash. *)
Definition history1 : list Op :=
  [OAdvance; ODelete; OAdvance; OSetLabel "force-deletion" "True"; OAdvance; OStart true; OStep true RUnit Applied []; OCrash] ++
  deletionForced ++ [OStart true; OStep true RUnit Applied []].
Definition create1 : Op := OCreate [("node", "n1")] [] ["other"; MCM] "vm-1".
Example C24_case :
  Forall not_created (history1 ++ [OStep true RUnit Lost []]) /\
  let w := run cf0 (init 1000) (create1 :: history1) in
  (exists m, protected w m) /\ (forall m', ~ protected (step cf0 w (OStep true RUnit Lost [])) m').
Proof.
  split; [repeat constructor|]. split.
  - eexists. split; [vm_compute; reflexivity|]. vm_compute. right. left. reflexivity.
  - intros m' (E & I0). vm_compute in E. injection E as <-. vm_compute in I0. destruct I0 as [I0 | []]. discriminate.
Qed.

(** The same history for C25: the VM is deleted after the forced drain and the handling
    of the volume attachments. *)
Example C25_case : exists newer m r older,
  w_log (run cf0 (init 1000) (create1 :: history1)) = newer ++ (QT, CDelete m, r) :: older /\ vm_gone r /\ nodeName m = "n1".
Proof.
  pose (l := w_log (run cf0 (init 1000) (create1 :: history1))).
  exists (firstn 7 l). eexists _, _, (skipn 8 l). split; [vm_compute; reflexivity|]. split; vm_compute; auto.
Qed.

(** ** A machine re-created under the same name

    The termination queue remembers the key, not the object: machine.go 75-89 puts the key
    there when the removal is seen, and the reconcile that removed the finalizer asks for
    another pass (machine.go 282-287).  A machine created under the same name
    before that pass is terminated although nobody asked for it. *)
Definition history2 : list Op :=
  [OCreate [] [] [MCM] ""; OAdvance; ODelete; OAdvance] ++ deletion ++
  [OStart true; OStep true RUnit Applied []; OStep true RUnit Applied []; OStep true RUnit Applied []].
Definition recreated : list Op := history2 ++ [OCreate [] [] [MCM] ""; OAdvance; OAdvance].

Theorem C24_name_reused_refuted :
  exists ops m, let w := run cf0 (init 1000) ops in
    protected w m /\ mo_dt m = None /\
    (forall m', ~ protected (step cf0 w (OStep true RUnit Applied [])) m') /\
    w_obj (step cf0 w (OStep true RUnit Applied [])) <> None.
Proof.
  exists (recreated ++ deletion ++ [OStart true; OStep true RUnit Applied []]). eexists. cbv zeta.
  split; [split; [vm_compute; reflexivity | vm_compute; left; reflexivity]|].
  split; [vm_compute; reflexivity|]. split.
  - intros m' (E & I0). vm_compute in E. injection E as <-. vm_compute in I0. destruct I0.
  - vm_compute. discriminate.
Qed.
Print Assumptions C24_name_reused_refuted.

Theorem C59_recreated_refuted :
  exists ops m r, In (QT, CDelete m, r) (w_log (run cf0 (init 1000) ops)) /\ vm_gone r /\ mo_dt m = None.
Proof.
  exists (recreated ++ deletion). eexists (mkMO _ _ _ _ None _ _ _ _ _). eexists. split; [|split].
  - vm_compute. do 5 right. left. reflexivity.
  - vm_compute. auto.
  - reflexivity.
Qed.
Print Assumptions C59_recreated_refuted.

(** The creation queue still serves the new machine: it makes a VM and records its node
    while the termination queue is already past the drain, so the VM is deleted although
    its node was never drained. *)
Definition undrained : list Op :=
  recreated ++ pass true [RUnit; RUnit; RUnit] ++ pass true [RUnit; RErr "none"; notFound; RUnit; RUnit] ++ pass true [RUnit; RUnit; RUnit] ++
  [OStart false; OStep false (RBool false) Applied []; OStep false RUnit Applied []; OStep false RUnit Applied []; OStep false notFound Applied [];
   OStep false (POk "n1" "vm-1" "") Applied ["vm-1"]; OStep false (RBool false) Applied []; OStep false RUnit Applied []; OAdvance] ++
  [OStart true; OStep true RUnit Applied []; OStep true (POk "" "" "") Applied []].
Definition drains (e : Event) : bool := match e with (_, CDrain _ _, _) => true | _ => false end.
Lemma never_drained older m : existsb drains older = false -> nodeName m <> "" -> ~ ready_to_delete older m.
Proof.
  intros H N. assert (X : forall m' f r, ~ In (QT, CDrain m' f, r) older).
  { intros m' f r I0. assert (Y : existsb drains older = true) by (apply existsb_exists; eexists; split; [exact I0|reflexivity]). congruence. }
  intros [E|[(m' & I0 & _)|(nw & e & od & m' & r & E & _ & I0 & _)]]; [exact (N E)|exact (X _ _ _ I0)|].
  apply (X m' true r). rewrite E. apply in_or_app. right. right. exact I0.
Qed.
(** Whether the last call was a successful deletion call for node n1 and no drain came before. *)
Definition undrainedDeletion (l : list Event) : bool :=
  match l with
  | (QT, CDelete m, POk _ _ _) :: older => negb (existsb drains older) && String.eqb (nodeName m) "n1" && String.eqb (mo_pid m) "vm-1"
  | _ => false
  end.
Theorem C25_recreated_refuted :
  exists ops newer m r older, w_log (run cf0 (init 1000) ops) = newer ++ (QT, CDelete m, r) :: older /\
    vm_gone r /\ nodeName m = "n1" /\ mo_pid m = "vm-1" /\ ~ ready_to_delete older m.
Proof.
  assert (H : undrainedDeletion (w_log (run cf0 (init 1000) undrained)) = true) by (vm_compute; reflexivity).
  exists undrained. destruct (w_log (run cf0 (init 1000) undrained)) as [|[[q c] r] older]; [discriminate|].
  destruct q; try discriminate. destruct c; try discriminate. destruct r; try discriminate. cbn [undrainedDeletion] in H.
  apply andb_prop in H. destruct H as (H & H3). apply andb_prop in H. destruct H as (H1 & H2). apply String.eqb_eq in H2, H3.
  exists [], m, (POk node pid lks), older. split; [reflexivity|]. split; [exact I|]. split; [exact H2|]. split; [exact H3|].
  apply never_drained; [destruct (existsb drains older); [discriminate|reflexivity]|rewrite H2; discriminate].
Qed.
Print Assumptions C25_recreated_refuted.

(** If the new machine has a node the drain panics: machine_util.go 1113 reads the deletion
    time of a machine that has none. *)
Theorem C59_panic_refuted :
  exists ops, w_t (run cf0 (init 1000) ops) = Some Panic.
Proof.
  exists (history2 ++ [OCreate [("node", "n1")] [] [MCM] "vm-2"; OAdvance; OAdvance] ++
          pass true [RUnit; RUnit; RUnit] ++ pass true [RUnit; RUnit; RUnit] ++ [OStart true; OStep true RUnit Applied []; OStep true RUnit Applied []]).
  vm_compute. reflexivity.
Qed.
Print Assumptions C59_panic_refuted.
