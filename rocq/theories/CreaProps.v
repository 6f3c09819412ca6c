(** Creation of a machine (C95): theorems. *)
Require Import List String Bool ZArith NArith Lia.
From Verif Require Import CodesModel MachModel LevModel HealthModel LifeModel LifeSpec LifeProofs LifeProps CreaSpec CreaProofs CreaRunProofs.
Import ListNotations.
Open Scope string_scope.
Open Scope list_scope.
Open Scope Z_scope.

(** C95: every status written while a machine is created is true: Pending only if the
    provider has just reported the VM (or has none to report for a VM recorded earlier) and
    everything about the VM is recorded; a failure only if a call of the provider failed,
    with its code, its text and the phase that fits the time since the creation; or the VM
    came up under the name of a foreign node. The times are those of the clock. *)
Theorem C95_status : forall cf m h x, makes (creationIfNeeded cf m) h (WStatus x) ->
  exists h0 now y s, h = h0 ++ [(CNow, RTime now)] /\ x = withStatus s y /\ statusCase cf m h0 now y s.
Proof. exact creation_status. Qed.
Print Assumptions C95_status.

Definition c_m (labels annots : list (string * string)) (pid ph : string) : MObj :=
  mkMO "m" 1 7 1000 None [MCM] labels annots pid (mkMS [] (mkOp "" "" 0 "" "") (mkCur ph false 0) "state").
Definition c_fail (code : N) (text : string) (resp : option (string * string * string)) : Reply := PFail (errorText (mkStatus code text)) resp.
Definition c_new : MObj := c_m [] [] "" "".
Definition c_done : MObj := c_m [("node", "n1")] [(MachinePriority, "3")] "vm-1" "".

(* A creation that fails for lack of capacity, and one that is complete. *)
Example C95_status_case :
  makes (creationIfNeeded cf0 c_new) [(CSecret c_new, RUnit); (CGetStatus c_new, notFound); (CCreate c_new, c_fail 8%N "quota" None); (CNow, RTime 2300)]
    (WStatus (withStatus (mkMS [] (mkOp ("Cloud provider message - " ++ errorText (mkStatus 8%N "quota")) "ResourceExhausted" 2300 "Failed" "Create")
                (mkCur "Failed" false 2300) "") c_new)) /\
  makes (creationIfNeeded cf0 c_done) [(CSecret c_done, RUnit); (CGetStatus c_done, POk "n1" "vm-1" ""); (CNow, RTime 2300)]
    (WStatus (withStatus (pendingStatus c_done 2300) c_done)).
Proof. split; repeat apply makes_later; apply makes_now. Qed.

(** C95: an update of the machine object during creation only records the VM: node name
    and provider ID as the provider gave them (or the label that is already there and no
    ID), and the default priority if there is none. It is made only if something was missing. *)
Theorem C95_recorded : forall cf m h x, makes (creationIfNeeded cf m) h (WMeta x) -> ~ recorded m /\
  exists node pid, recordsVM m node pid x /\
    (providerGave m node pid h \/
     (node = nodeName m /\ pid = "" /\ get "node" (mo_labels m) <> None /\ exists r, In (CGetStatus m, r) h /\ (failsWith r cNotFound \/ failsWith r cUnimplemented))).
Proof. exact creation_meta. Qed.
Print Assumptions C95_recorded.

(** C95: and it is made, when the VM was found or is up. *)
Theorem C95_records : forall cf m node pid, (mo_pid m = "" \/ inCreation m) -> ~ recorded m -> exists x, recordsVM m node pid x /\
  (forall l, makes (creationIfNeeded cf m) [(CSecret m, RUnit); (CGetStatus m, POk node pid l)] (WMeta x)) /\
  (forall h, vmUp m node pid h -> makes (creationIfNeeded cf m) h (WMeta x)).
Proof.
  intros cf m node pid Q NR. exists (labelled m node pid). split; [apply labelled_records|]. split.
  - intros l. apply go_finish; [exact Q|]. unfold finishCreation. rewrite (not_recorded_b m NR). apply makes_now.
  - intros h U. rewrite <- (app_nil_r h). apply (go_up cf m node pid); [exact Q | exact U|]. unfold finishCreation. rewrite (not_recorded_b m NR). apply makes_now.
Qed.
Print Assumptions C95_records.

Example C95_records_case :
  (mo_pid c_new = "" \/ inCreation c_new) /\ ~ recorded c_new /\
  vmUp c_new "n1" "vm-1" [(CSecret c_new, RUnit); (CGetStatus c_new, notFound); (CCreate c_new, POk "n1" "vm-1" ""); (CStaleNode "n1", RBool false)].
Proof.
  split; [left; reflexivity|]. split; [intros (K & _); apply K; reflexivity|]. right. exists notFound, "", false. split; [reflexivity|]. split; [|auto].
  split; [reflexivity|]. left. exists (errorText (mkStatus cNotFound "no such VM")), None, "no such VM". split; vm_compute; reflexivity.
Qed.

(** C95: the provider is asked for a VM exactly if the machine is in creation, has no node
    label, and the provider has just said that it has none (or cannot tell). *)
Theorem C95_vm_created : forall cf m h y, makes (creationIfNeeded cf m) h (CCreate y) <->
  y = m /\ (mo_pid m = "" \/ inCreation m) /\ get "node" (mo_labels m) = None /\
  exists r, h = [(CSecret m, RUnit); (CGetStatus m, r)] /\ (failsWith r cNotFound \/ failsWith r cUnimplemented).
Proof. exact creation_create. Qed.
Print Assumptions C95_vm_created.

(** C95: a VM is initialized exactly after it was created or found uninitialized, once its
    data is recorded or the attempt was made. *)
Theorem C95_initialized : forall cf m h y, makes (creationIfNeeded cf m) h (CInit y) <->
  (mo_pid m = "" \/ inCreation m) /\ exists node pid g, vmUp m node pid g /\
    ((recorded m /\ h = g /\ y = m) \/
     (~ recorded m /\ exists w r, recordsVM m node pid w /\ w = labelled m node pid /\ h = g ++ [(WMeta w, r)] /\ (r = RObj y \/ (y = m /\ forall z, r <> RObj z)))).
Proof. exact creation_init. Qed.
Print Assumptions C95_initialized.

Example C95_initialized_case :
  makes (creationIfNeeded cf0 c_new) [(CSecret c_new, RUnit); (CGetStatus c_new, notFound); (CCreate c_new, POk "n1" "vm-1" ""); (CStaleNode "n1", RBool false);
    (WMeta (labelled c_new "n1" "vm-1"), RObj c_done)] (CInit c_done) /\
  makes (creationIfNeeded cf0 c_done) [(CSecret c_done, RUnit); (CGetStatus c_done, c_fail cUninitialized "not yet" (Some ("n1", "vm-1", "")))] (CInit c_done).
Proof. split; repeat apply makes_later; apply makes_now. Qed.

(** C95: the only VM that creation deletes is one that it has just created and that came
    up under the name of a node that is already there and is not called like the machine. *)
Theorem C95_foreign_node : forall cf m h y, makes (creationIfNeeded cf m) h (CDelete y) <->
  (mo_pid m = "" \/ inCreation m) /\ exists r node pid l, noVM m r /\ node <> mo_name m /\ y = withPid pid m /\
    h = [(CSecret m, RUnit); (CGetStatus m, r); (CCreate m, POk node pid l); (CStaleNode node, RBool true)].
Proof. exact creation_delete. Qed.
Print Assumptions C95_foreign_node.

Example C95_foreign_node_case :
  makes (creationIfNeeded cf0 c_new) [(CSecret c_new, RUnit); (CGetStatus c_new, notFound); (CCreate c_new, POk "n1" "vm-1" ""); (CStaleNode "n1", RBool true)]
    (CDelete (withPid "vm-1" c_new)).
Proof. repeat apply makes_later; apply makes_now. Qed.

(** C95: a failed call is reported, unless the status reports such a failure already: when
    the VM cannot be created, *)
Theorem C95_create_failure_reported : forall cf m r text resp now, (mo_pid m = "" \/ inCreation m) -> noVM m r ->
  (exists s, makes (creationIfNeeded cf m) [(CSecret m, RUnit); (CGetStatus m, r); (CCreate m, PFail text resp); (CNow, RTime now)] (WStatus (withStatus s m)) /\
     reportsFailure cf m now text s) \/
  alreadyReports m now (codeString (s_code (fst (FromError text)))).
Proof.
  intros cf m r text resp now Q N. destruct (error_made cf m (match resp with Some (_, _, lks) => lks | None => "" end) text now) as [(s & H & R)|H]; [|auto].
  left. exists s. split; [|exact R]. apply go_create; [exact Q | exact N|]. unfold createVM. apply makes_later. exact H.
Qed.
Print Assumptions C95_create_failure_reported.

(** when the provider cannot be asked for it, *)
Theorem C95_status_failure_reported : forall cf m text resp now, (mo_pid m = "" \/ inCreation m) -> snd (FromError text) = true ->
  (forall c, In c [cNotFound; cUnimplemented; cUninitialized] -> ~ failsWith (PFail text resp) c) ->
  (exists s, makes (creationIfNeeded cf m) [(CSecret m, RUnit); (CGetStatus m, PFail text resp); (CNow, RTime now)] (WStatus (withStatus s m)) /\
     reportsFailure cf m now text s) \/
  alreadyReports m now (codeString (s_code (fst (FromError text)))).
Proof.
  intros cf m text resp now Q F N. destruct (error_made cf m "" text now) as [(s & H & R)|H]; [|auto].
  left. exists s. split; [|exact R]. rewrite (needed_eq cf m Q). unfold triggerCreationFlow. apply makes_later, makes_later.
  destruct (FromError text) as [st ok] eqn:E. cbn in F. subst ok. cbn [negb].
  pose proof (fun c => fails_code text resp st c E) as FC.
  assert (N1 : s_code st <> cNotFound) by (intros K; apply FC in K; revert K; apply N; cbn; auto).
  assert (N2 : s_code st <> cUnimplemented) by (intros K; apply FC in K; revert K; apply N; cbn; auto).
  assert (N3 : s_code st <> cUninitialized) by (intros K; apply FC in K; revert K; apply N; cbn; auto).
  apply N.eqb_neq in N1, N2, N3. rewrite N1, N2, N3. exact H.
Qed.
Print Assumptions C95_status_failure_reported.

(** and when it cannot be initialized. *)
Theorem C95_init_failure_reported : forall cf m h y text resp now, makes (creationIfNeeded cf m) h (CInit y) ->
  snd (FromError text) = true -> s_code (fst (FromError text)) <> cUnimplemented ->
  (exists s, makes (creationIfNeeded cf m) (h ++ [(CInit y, PFail text resp); (CNow, RTime now)]) (WStatus (withStatus s y)) /\
     reportsFailure cf y now text s) \/
  alreadyReports y now (codeString (s_code (fst (FromError text)))).
Proof.
  intros cf m h y text resp now H F N. destruct (init_error_made cf y text resp now F N) as [(s & K & R)|K]; [|auto].
  left. exists s. split; [|exact R].
  apply creation_init in H as (Q & node & pid & g & U & [(RC & -> & ->)|(NR & w & r & _ & -> & -> & D)]).
  - apply (go_up cf m node pid); [exact Q | exact U|]. unfold finishCreation. rewrite (proj2 (recorded_b m) RC). exact K.
  - rewrite <- app_assoc. apply (go_up cf m node pid); [exact Q | exact U|]. unfold finishCreation. rewrite (not_recorded_b m NR). cbn [app]. apply makes_later.
    destruct D as [-> | (-> & NO)]; [exact K|]. destruct r; try exact K. destruct (NO m0 eq_refl).
Qed.
Print Assumptions C95_init_failure_reported.

Example C95_reported_case : noVM c_new notFound /\ (mo_pid c_new = "" \/ inCreation c_new) /\ ~ alreadyReports c_new 2300 "ResourceExhausted" /\
  snd (FromError (errorText (mkStatus 13%N "boom"))) = true /\
  (forall c, In c [cNotFound; cUnimplemented; cUninitialized] -> ~ failsWith (c_fail 13%N "boom" None) c).
Proof.
  split; [split; [reflexivity|]; left; exists (errorText (mkStatus cNotFound "no such VM")), None, "no such VM"; split; vm_compute; reflexivity|].
  split; [left; reflexivity|]. split; [intros (K & _); discriminate K|]. split; [vm_compute; reflexivity|].
  intros c I (t & rs & msg & E & F). injection E as <- <-. vm_compute in F. injection F as E _. subst c. cbn in I. intuition discriminate.
Qed.

(** C95: a machine about which everything is recorded becomes Pending as soon as the
    provider reports its VM. *)
Theorem C95_pending : forall cf m node pid l now, recorded m -> inCreation m ->
  makes (creationIfNeeded cf m) [(CSecret m, RUnit); (CGetStatus m, POk node pid l); (CNow, RTime now)] (WStatus (withStatus (pendingStatus m now) m)).
Proof.
  intros cf m node pid l now R C. apply go_finish; [right; exact C|]. unfold finishCreation. rewrite (proj2 (recorded_b m) R). unfold setPending.
  replace (String.eqb (phase m) "" || String.eqb (phase m) "CrashLoopBackOff") with true; [apply makes_later, makes_now|].
  symmetry. apply orb_true_iff. rewrite !String.eqb_eq. exact C.
Qed.
Print Assumptions C95_pending.

Example C95_pending_case : recorded c_done /\ inCreation c_done.
Proof. split; [|left; reflexivity]. repeat split; discriminate. Qed.

(** C95: in every history every stored status is consistent: the time-out runs exactly in
    phase Pending, phase, state and type are known ones, and no time lies in the future. *)
Theorem C95_consistent : forall cf now ops o, In o (w_vers (run cf (init now) ops)) -> saneStatus (w_now (run cf (init now) ops)) (mo_status o).
Proof. exact run_sane. Qed.
Print Assumptions C95_consistent.

(* The VM is created but cannot be initialized; then the driver reports the VM as running. *)
Definition crea_first : list Op := [OCreate [] [] [MCM] ""; OAdvance; OTick 10] ++
  pass false [RBool false; RUnit; RUnit; notFound; POk "n1" "vm-1" ""; RBool false; RUnit; c_fail 13%N "no network" None; RUnit; RUnit] ++ [OAdvance; OAdvance].
Definition crea_second : list Op :=
  pass false [RBool false; RUnit; RNode NodeMissing; RUnit; RUnit; RUnit; POk "n1" "vm-1" ""; RUnit; RUnit].

Example C95_consistent_case : map phase (w_vers (run cf0 (init 1000) (crea_first ++ crea_second))) = ["Pending"; "CrashLoopBackOff"; ""; ""].
Proof. vm_compute. reflexivity. Qed.

(** C95: the description after a failed look for the VM says what comes next: the drain
    exactly if the provider has no VM, cannot tell, or has one that is not initialized;
    otherwise the provider is asked again. *)
Theorem C95_lookup : forall text,
  let goesOn := exists c, In c [cNotFound; cUnimplemented; cUninitialized] /\ failsWith (PFail text None) c in
  (goesOn -> snd (statusFailure text) = "Processing" /\ contains InitiateDrain (fst (statusFailure text)) = true /\ contains GetVMStatus (fst (statusFailure text)) = false) /\
  (~ goesOn -> snd (statusFailure text) = "Failed" /\ contains GetVMStatus (fst (statusFailure text)) = true).
Proof.
  intros text goesOn. unfold statusFailure. destruct (FromError text) as [st ok] eqn:F. destruct ok; cbn [negb].
  - pose proof (fun c => fails_code text None st c F) as FC.
    assert (G : goesOn <-> s_code st = cNotFound \/ s_code st = cUnimplemented \/ s_code st = cUninitialized).
    { unfold goesOn. split.
      - intros (c & I & K). apply FC in K. cbn in I. intuition congruence.
      - intros [K|[K|K]]; eexists; (split; [|apply FC; exact K]); cbn; auto. }
    split.
    + intros K. apply G in K as [K|[K|K]]; rewrite K; vm_compute; auto.
    + intros N. assert (N1 : s_code st <> cNotFound) by tauto. assert (N2 : s_code st <> cUnimplemented) by tauto. assert (N3 : s_code st <> cUninitialized) by tauto.
      apply N.eqb_neq in N1, N2, N3. rewrite N1, N2, N3. destruct (_ || _ || _ || _); cbn [fst snd]; (split; [reflexivity|]).
      * vm_compute. reflexivity.
      * do 3 apply contains_app. apply contains_refl.
  - split.
    + intros (c & _ & t & rs & msg & E & K). injection E as <- <-. congruence.
    + intros _. cbn [fst snd]. split; [reflexivity|]. do 3 apply contains_app. apply contains_refl.
Qed.
Print Assumptions C95_lookup.

Example C95_lookup_case : failsWith (PFail (errorText (mkStatus cNotFound "no such VM")) None) cNotFound.
Proof. exists (errorText (mkStatus cNotFound "no such VM")), None, "no such VM". split; vm_compute; reflexivity. Qed.

(** C95 fails: the recorded provider ID is overwritten with nothing if only the priority is
    missing and the driver cannot report the VM (machine.go 560-565, 625-641). *)
Theorem C95_id_lost_refuted : exists cf m h x, makes (creationIfNeeded cf m) h (WMeta x) /\ mo_pid m = "vm-1" /\ mo_pid x = "".
Proof.
  exists cf0, (c_m [("node", "n1")] [] "vm-1" ""). eexists [_; (_, c_fail cUnimplemented "" None)]. eexists.
  split; [unfold creationIfNeeded, triggerCreationFlow; cbn [mo_pid c_m String.eqb phase orb ms_cur mo_status cs_phase]; apply makes_later with (r := RUnit), makes_later; apply makes_now|].
  split; reflexivity.
Qed.
Print Assumptions C95_id_lost_refuted.

Definition isInit (e : Event) : bool := match e with (QC, CInit _, _) => true | _ => false end.
Definition initFailed (e : Event) : bool :=
  match e with
  | (QC, CInit _, PFail text _) => let '(st, ok) := FromError text in if ok then N.eqb (s_code st) 13%N else false
  | (QC, CInit _, _) => false
  | _ => true
  end.

(** C95 fails: a machine becomes Pending though its VM was never initialized: a failed
    initialization is not repeated unless the driver keeps reporting it. *)
Theorem C95_uninitialized_refuted : exists cf now ops, let w := run cf (init now) ops in
  (exists o, w_obj w = Some o /\ phase o = "Pending") /\ (exists y r, In (QC, CInit y, r) (w_log w)) /\
  (forall y r, In (QC, CInit y, r) (w_log w) -> failsWith r 13%N).
Proof.
  exists cf0, 1000, (crea_first ++ crea_second). cbv zeta. split; [|split].
  - eexists. split; vm_compute; reflexivity.
  - assert (E : existsb isInit (w_log (run cf0 (init 1000) (crea_first ++ crea_second))) = true) by (vm_compute; reflexivity).
    apply existsb_exists in E as ([[who c] r] & I & E). destruct who; try discriminate E. destruct c; try discriminate E. exists m, r. exact I.
  - assert (E : forallb initFailed (w_log (run cf0 (init 1000) (crea_first ++ crea_second))) = true) by (vm_compute; reflexivity).
    intros y r I. rewrite forallb_forall in E. specialize (E _ I). cbn in E. destruct r; try discriminate E. destruct (FromError text) as [[c msg] ok] eqn:F.
    destruct ok; [|discriminate E]. apply N.eqb_eq in E. cbn in E. subst c. exists text, resp, msg. split; [reflexivity | exact F].
Qed.
Print Assumptions C95_uninitialized_refuted.

(** C95 fails: a machine becomes Pending though the provider says that it has no VM. *)
Theorem C95_vm_gone_refuted : exists cf m x, phase x = "Pending" /\
  makes (creationIfNeeded cf m) [(CSecret m, RUnit); (CGetStatus m, notFound); (CNow, RTime 2300)] (WStatus x).
Proof. exists cf0, c_done, (withStatus (pendingStatus c_done 2300) c_done). split; [reflexivity|]. repeat apply makes_later. apply makes_now. Qed.
Print Assumptions C95_vm_gone_refuted.
