(** C50, C61: progress of deletion. *)
Require Import Coq.ZArith.ZArith Coq.Lists.List Coq.Strings.String Coq.Strings.Ascii Coq.Bool.Bool Coq.micromega.Lia.
From Verif Require Import CodesModel MachModel LevModel HealthModel LifeModel LifeSpec LiveSpec LiveProofs.
Import ListNotations.
Open Scope string_scope.
Open Scope list_scope.
Open Scope Z_scope.

(** C50. From every object that is being deleted (any phase, any description, any stage):
    reconciles whose calls succeed remove the finalizer. Eight reconciles are enough, each
    more than half an hour after the one before and without live volume attachments;
    other successful reconciles may come in between in any number and at any time.
    Missing for less than half an hour: a status update that resembles the last one is
    not written, see [C50_waits_refuted]. *)
Theorem C50_removed_partial : forall cf w m l n,
  w_obj w = Some m -> deletable m -> Forall succeeds l ->
  hits (lo_time (ms_op (mo_status m))) l n -> inOrder (lo_time (ms_op (mo_status m))) l -> (8 <= n)%nat ->
  forall m', ~ protected (rounds cf w l) m'.
Proof. exact removed. Qed.
Print Assumptions C50_removed_partial.

(** C50. If deletion starts afresh and nothing fails, eight reconciles without live volume
    attachments are enough, no matter how fast they follow each other. *)
Theorem C50_quickly : forall cf w m l n,
  w_obj w = Some m -> deletable m -> phase m <> "Terminating" ->
  Forall succeeds l -> Forall deletes l -> settling l n -> (8 <= n)%nat ->
  forall m', ~ protected (rounds cf w l) m'.
Proof. exact removed_quickly. Qed.
Print Assumptions C50_quickly.

(** C50. Such a reconcile is a sequence of steps of the model of the whole world. *)
Theorem C50_rounds_are_steps : forall cf w r m, w_obj w = Some m -> w_t w = None -> w_tq w = true ->
  exists ops t, Forall applied ops /\ (t = Done \/ t = Panic) /\
    run cf (onTime (fst r) w) (OStart true :: ops) = setSlots (round cf w r) (w_c w) (Some t).
Proof. exact round_steps. Qed.
Print Assumptions C50_rounds_are_steps.

(** ** Concrete cases *)
Definition cf2 : Cfg := mkCfg 7200 1200 600 "" (mkShow (fun _ => "") (fun _ => "")).
(** A node is found by the machine's name; the volumes are detached. *)
Definition env1 (c : Call) : Reply :=
  match c with
  | CFindNode _ => RStr "node-1"
  | CVolumes _ => RBool false
  | CLiveVA _ => RBool false
  | CGetStatus _ => POk "node-1" "vm-1" ""
  | CDelete _ => POk "" "" ""
  | _ => RUnit
  end.
Definition obj (labels : list (string * string)) (op : LastOp) (ph : string) : MObj :=
  mkMO "machine-1" 1 1 0 (Some 100) ["other"; MCM] labels [] "vm-1" (mkMS [] op (mkCur ph false 0) "").
Definition world (m : MObj) : World := mkW (Some m) None [] 7 1 100 true None None ["vm-1"] [] [].

Lemma plain_ok s : forallb (fun c => negb (Ascii.eqb c "S" || Ascii.eqb c "D" || Ascii.eqb c "I"))%bool (list_ascii_of_string s) = true -> plain s.
Proof.
  intros H. apply Forall_forall. rewrite forallb_forall in H. intros c I0. specialize (H c I0).
  apply negb_true_iff in H. apply orb_false_iff in H. destruct H as (H & H3). apply orb_false_iff in H. destruct H as (H1 & H2).
  repeat split; intros ->; discriminate.
Qed.

Lemma env1_ok t : succeeds (t, env1) /\ deletes (t, env1) /\ settled env1.
Proof.
  split; [|split].
  - intros []; cbn; auto.
    + split; [apply plain_ok; reflexivity | discriminate].
    + left. exists "node-1". split; [reflexivity|]. split; [apply plain_ok; reflexivity | discriminate].
    + left. eauto.
    + eauto.
  - intros m. exists "", "", "". reflexivity.
  - intros m E. discriminate.
Qed.

(** A running machine without node label, all eight reconciles in the same second. *)
Example C50_quickly_case :
  let w := world (obj [] (mkOp "Machine is ready" "" 90 "Successful" "Create") "Running") in
  let l := repeat (100, env1) 8 in
  (forall m, w_obj w = Some m -> deletable m /\ phase m <> "Terminating") /\
  Forall succeeds l /\ Forall deletes l /\ settling l 8 /\
  option_map mo_fins (w_obj (rounds cf2 w l)) = Some ["other"] /\
  option_map mo_fins (w_obj (rounds cf2 w (repeat (100, env1) 6))) = Some ["other"; MCM].
Proof.
  split; [|split; [|split; [|split; [|split]]]].
  - intros m E. injection E as <-. split; [|discriminate]. split; [discriminate|]. split; apply plain_ok; reflexivity.
  - repeat constructor; apply (env1_ok 100).
  - repeat constructor; apply (env1_ok 100).
  - repeat constructor; apply (env1_ok 100).
  - vm_compute. reflexivity.
  - vm_compute. reflexivity.
Qed.

(** A forced drain that failed with an error, and a node that is reported missing with a
    text that resembles the error: the deletion does not go on until half an hour has
    passed, although every call succeeds. *)
Definition longText : string := "request to the control plane of the shoot cluster timed out: context deadline exceeded, dial tcp 10.0.0.1:443: i/o timeout, request to the control plane of the shoot cluster timed out: context deadline exceeded, dial tcp 10.0.0.1:443: i/o timeout, request to the control plane of the shoot cluster timed out: context deadline exceeded, dial tcp 10.0.0.1:443: i/o timeout".
Definition env2 (c : Call) : Reply := match c with CVolumes _ => RMissing longText | _ => env1 c end.
Definition stuck : MObj := obj [("node", "node-1")]
  (mkOp ("Drain failed due to - " ++ longText ++ ". However, since it's a force deletion shall continue deletion of VM. " ++ DelVolumesAttachments)%string
     "" 100 "Processing" "Delete") "Terminating".
Theorem C50_waits_refuted : exists m, deletable m /\ (forall t, succeeds (t, env2) /\ deletes (t, env2)) /\ settled env2 /\
  (forall n, w_obj (rounds cf2 (world m) (repeat (1900, env2) n)) = Some m) /\
  option_map desc (w_obj (rounds cf2 (world m) [(1901, env2)])) <> Some (desc m).
Proof.
  exists stuck. split; [|split; [|split; [|split]]].
  - split; [discriminate|]. split; apply plain_ok; reflexivity.
  - intros t. destruct (env1_ok t) as (A & B & _). split.
    + intros c. destruct c; try apply A. cbn. right. exists longText. split; [reflexivity | apply plain_ok; reflexivity].
    + intros m. apply B.
  - intros m E. discriminate.
  - assert (G : forall w, w_obj w = Some stuck -> w_obj (round cf2 w (1900, env2)) = Some stuck).
    { intros w E. unfold round. rewrite E. transitivity (w_obj w); [|exact E]. vm_compute. reflexivity. }
    intros n. generalize (eq_refl : w_obj (world stuck) = Some stuck). generalize (world stuck).
    induction n as [| n IH]; intros w E; [exact E|]. apply (IH (round cf2 w (1900, env2))), G, E.
  - vm_compute. discriminate.
Qed.
Print Assumptions C50_waits_refuted.

(** A history that meets the hypotheses of [C50_removed_partial]: the same object, with
    a reconcile every half hour and a second. *)
Example C50_removed_case :
  let l := map (fun i => (100 + 1801 * i, env2)) [1; 2; 3; 4; 5; 6; 7; 8] in
  hits (lo_time (ms_op (mo_status stuck))) l 8 /\ inOrder (lo_time (ms_op (mo_status stuck))) l /\
  option_map mo_fins (w_obj (rounds cf2 (world stuck) l)) = Some ["other"].
Proof.
  cbv zeta. split; [|split].
  - repeat (apply hits_hit; [intros m E; discriminate | cbn; lia |]). constructor.
  - cbn. lia.
  - vm_compute. reflexivity.
Qed.

(** C61 fails in the deletion of the VM: machine_util.go 1303-1311 starts with an empty
    state, so a deletion call that returns none erases what was known. *)
Theorem C61_state_erased_refuted : exists cf w m r,
  w_obj w = Some m /\ deletable m /\ succeeds r /\ ms_lks (mo_status m) = "disk attached" /\
  option_map (fun x => ms_lks (mo_status x)) (w_obj (round cf w r)) = Some "".
Proof.
  exists cf2. eexists (world (mkMO "machine-1" 1 1 0 (Some 100) [MCM] [] [] "vm-1" (mkMS [] (mkOp ("Drain successful. " ++ InitiateVMDeletion)%string "" 90 "Processing" "Delete") (mkCur "Terminating" false 90) "disk attached"))).
  eexists. exists (100, env1). split; [reflexivity|]. split; [|split; [apply env1_ok|]; split; [reflexivity | vm_compute; reflexivity]].
  split; [discriminate|]. split; apply plain_ok; reflexivity.
Qed.
Print Assumptions C61_state_erased_refuted.
