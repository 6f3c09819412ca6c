(** A deletion without errors is over in time (C114): theorems. *)
Require Import Coq.ZArith.ZArith Coq.Lists.List Coq.Strings.String Coq.Strings.Ascii Coq.Bool.Bool Coq.NArith.NArith Lia.
From Verif Require Import CodesModel MachModel LevModel HealthModel LifeModel LifeSpec LiveSpec SoonModel SoonSpec GoneModel GoneSpec GoneProofs.
Import ListNotations.
Open Scope string_scope.
Open Scope list_scope.
Open Scope Z_scope.

(** C114, a deletion without errors is over in time: the machine object is there with the
    controller's finalizer for at most eight times as long as a stage may take (the delays
    of cache, worker and reconcile, and five seconds), counted from the time when the
    deletion is seen and no volumes are attached any more; and once the finalizer is
    removed, it does not come back. *)
Theorem C114_over_in_time : forall cf m now since lam delta eps ops,
  0 <= lam -> 0 <= delta -> 0 <= eps ->
  deletable m -> In MCM (mo_fins m) -> phase m <> "Terminating" ->
  let w := grun cf (ginit now m) ops in
  Forall (timely lam delta eps) (gstates cf (ginit now m) ops) -> smoothly true since cf (ginit now m) ops ->
  held w -> z_now (g_z w) <= Z.max now since + 8 * stage_time lam delta eps.
Proof.
  intros cf m now since lam delta eps ops L D E DE F P w T S H. unfold w.
  pose proof (held_until true cf lam delta eps since now L D E m ops DE F P T S H) as X.
  unfold T0, stp, gap in X. unfold stage_time. lia.
Qed.
Print Assumptions C114_over_in_time.

(** C114, from any state: also if the deletion has come to a stage with some description,
    or the VM turns out to be gone; only that an update of the status may be left out for
    half an hour at each stage (C50). *)
Theorem C114_over_at_last : forall cf m now since lam delta eps ops,
  0 <= lam -> 0 <= delta -> 0 <= eps ->
  deletable m -> In MCM (mo_fins m) -> lo_time (ms_op (mo_status m)) * 1000 <= now ->
  let w := grun cf (ginit now m) ops in
  Forall (timely lam delta eps) (gstates cf (ginit now m) ops) -> smoothly false since cf (ginit now m) ops ->
  held w -> z_now (g_z w) <= Z.max now since + 8 * (stage_time lam delta eps + 1801 * 1000).
Proof.
  intros cf m now since lam delta eps ops L D E DE F P w T S H. unfold w.
  pose proof (held_until false cf lam delta eps since now L D E m ops DE F P T S H) as X.
  unfold T0, stp, gap in X. unfold stage_time. lia.
Qed.
Print Assumptions C114_over_at_last.

(** C114, the label comes first: a reconcile that stores the node's name does not store the
    next stage, for its update of the status is based on the object as it was before. *)
Theorem C114_label_first : forall cf w o n r1 r2 r3 l1 l2 l3,
  z_dead (g_z w) = false -> g_obj w = Some o -> (mo_rv o < g_next w)%nat -> mo_fins o <> [] -> nodeName o <> n ->
  z_run (g_z w) = Some (rUpdateMachineNodeLabel o n) ->
  let w' := grun cf w [GStep r1 l1; GStep r2 l2; GStep r3 l3] in
  exists m', g_obj w' = Some m' /\ nodeName m' = n /\ mo_status m' = mo_status o.
Proof. exact label_first. Qed.
Print Assumptions C114_label_first.

(* Tests for the hypotheses. *)
Definition go_plain (s : string) : bool :=
  forallb (fun c => negb (Ascii.eqb c "S") && negb (Ascii.eqb c "D") && negb (Ascii.eqb c "I"))%bool (list_ascii_of_string s).
Lemma go_plain_sound s : go_plain s = true -> plain s.
Proof.
  unfold go_plain, plain. intros H. apply Forall_forall. intros c I. rewrite forallb_forall in H. specialize (H c I).
  apply andb_prop in H. destruct H as [H H3]. apply andb_prop in H. destruct H as [H1 H2].
  repeat split; intros ->; discriminate.
Qed.
Definition go_success (c : Call) (r : Reply) : bool :=
  match c, r with
  | (CClass | CNodeCond _ | CDrain _ _ | CDelVA _ | CDeleteNode _), RUnit => true
  | CFindNode _, RStr n => go_plain n && negb (String.eqb n "")
  | CVolumes _, RBool _ => true
  | CLiveVA _, RBool _ => true
  | CDelete _, POk _ _ _ => true
  | (WMeta _ | WStatus _ | CNow), _ => true
  | _, _ => false
  end.
Lemma go_success_sound c r : go_success c r = true -> success c r /\ match c with CDelete _ => exists n p l, r = POk n p l | _ => True end.
Proof.
  intros H. destruct c, r; cbn [go_success] in H; try discriminate H; cbn [success vm_gone]; split; eauto.
  apply andb_prop in H. destruct H as [H1 H2]. left. eexists. split; [reflexivity|]. split; [apply go_plain_sound, H1|].
  intros ->. discriminate H2.
Qed.
Fixpoint go_smooth (since : Z) (cf : Cfg) (w : GW) (ops : list GOp) : bool :=
  match ops with
  | [] => true
  | op :: l =>
      match op, z_run (g_z w) with
      | GStep r _, Some (RDo c _) => go_success c r && match c, r with CLiveVA _, RBool true => z_now (g_z w) <? since | _, _ => true end
      | _, _ => true
      end && go_smooth since cf (gstep cf w op) l
  end%bool.
Lemma go_smooth_sound vm since cf : forall ops w, go_smooth since cf w ops = true -> smoothly vm since cf w ops.
Proof.
  induction ops as [|op l IH]; intros w H; [exact Logic.I|]. cbn [go_smooth] in H. apply andb_prop in H. destruct H as [H1 H2].
  split; [|exact (IH _ H2)]. destruct op as [d|n| | |r lim]; try exact Logic.I. cbn [smooth].
  destruct (z_run (g_z w)) as [[x f| |x p|c k]|]; try exact Logic.I.
  apply andb_prop in H1. destruct H1 as [H1 H3]. destruct (go_success_sound c r H1) as [A B]. split; [exact A|].
  destruct c; try exact Logic.I.
  - intros _. exact B.
  - intros Q. destruct A as [[] ->]; [|reflexivity]. apply Z.ltb_lt in H3. lia.
Qed.
Definition go_timely (lam delta eps : Z) (w : GW) : bool :=
  (negb (z_queued (g_z w)) || match z_run (g_z w) with Some _ => true | None => z_now (g_z w) <=? z_ready (g_z w) + delta end) &&
  match z_run (g_z w) with None => true | Some _ => z_now (g_z w) <=? z_began (g_z w) + eps end &&
  (negb (g_chg w + lam <? z_now (g_z w)) ||
   match z_view (g_z w), g_obj w with Some a, Some b => if MObj_eq_dec a b then true else false | None, None => true | _, _ => false end).
Lemma go_timely_sound lam delta eps l : forallb (go_timely lam delta eps) l = true -> Forall (timely lam delta eps) l.
Proof.
  intros H. apply Forall_forall. intros w I. rewrite forallb_forall in H. specialize (H w I). unfold go_timely in H.
  apply andb_prop in H. destruct H as [H H3]. apply andb_prop in H. destruct H as [H1 H2]. split; [split|].
  - intros Q R. rewrite Q, R in H1. cbn in H1. apply Z.leb_le, H1.
  - intros R. destruct (z_run (g_z w)); [apply Z.leb_le, H2|contradiction].
  - intros L. apply Z.ltb_lt in L. rewrite L in H3. cbn in H3. destruct (z_view (g_z w)), (g_obj w); try discriminate; [|reflexivity].
    destruct (MObj_eq_dec _ _); [subst; reflexivity|discriminate].
Qed.

Definition go_cf : Cfg := mkCfg 7200 1200 600 "KernelDeadlock" (mkShow (fun _ => "") (fun _ => "")).
Definition go_m : MObj :=
  mkMO "m" 1 7 1000 (Some 5000) [MCM] [] [] "vm-1" (mkMS [] (mkOp "Creating machine on cloud provider" "" 1010 "Processing" "Create") (mkCur "Running" false 1010) "").
(* A reconcile with its answers, the last step is its end; it takes 10 ms. *)
Definition go_round (rs : list Reply) : list GOp := GStart :: map (fun r => GStep r 0) rs ++ [GTick 10; GStep RUnit 10000].
(* The cache follows after a second; the next reconcile begins after five. *)
Definition go_wait : list GOp := [GTick 1000; GSee 0; GTick 4000].
(* All stages; the second reconcile writes the node label and then gets a conflict, the
   third one still works with the old version. *)
Definition go_ops : list GOp :=
  go_round [RUnit; RUnit; RUnit] ++ go_wait ++
  go_round [RUnit; RStr "n1"; RUnit; RUnit; RUnit] ++ [GTick 200] ++
  go_round [RUnit; RStr "n1"; RUnit] ++ go_wait ++
  go_round [RUnit; RUnit; RUnit] ++ go_wait ++
  go_round [RUnit; RUnit; RUnit; RUnit; RUnit; RUnit] ++ go_wait ++
  go_round [RUnit; POk "n1" "vm-1" ""; RUnit; RUnit] ++ go_wait ++
  go_round [RUnit; RUnit; RUnit; RUnit] ++ go_wait.
Definition go_last : list GOp := [GStart; GStep RUnit 0; GStep RUnit 0].

Example C114_over_in_time_case :
  let w := grun go_cf (ginit 5000000 go_m) go_ops in
  let w' := grun go_cf (ginit 5000000 go_m) (go_ops ++ go_last) in
  deletable go_m /\ In MCM (mo_fins go_m) /\ phase go_m <> "Terminating" /\
  Forall (timely 1300 0 10) (gstates go_cf (ginit 5000000 go_m) (go_ops ++ go_last)) /\
  smoothly true 5000000 go_cf (ginit 5000000 go_m) (go_ops ++ go_last) /\
  z_now (g_z w) = 5030270 /\ z_now (g_z w') = 5030270 /\ held w /\ g_obj w' = None /\
  5000000 + 8 * stage_time 1300 0 10 = 5050560.
Proof.
  cbv zeta. split; [|split; [|split; [|split; [|split; [|split; [|split; [|split; [|split]]]]]]]].
  - split; [discriminate|]. split; apply go_plain_sound; reflexivity.
  - left. reflexivity.
  - discriminate.
  - apply go_timely_sound. vm_compute. reflexivity.
  - apply go_smooth_sound. vm_compute. reflexivity.
  - vm_compute. reflexivity.
  - vm_compute. reflexivity.
  - eexists. split; [vm_compute; reflexivity|]. left. reflexivity.
  - vm_compute. reflexivity.
  - reflexivity.
Qed.

(* A forced deletion whose volumes are attached at first. *)
Definition go_forced : MObj :=
  mkMO "m" 1 7 1000 (Some 5000) [MCM] [("node", "n1")] [] "vm-1"
    (mkMS [] (mkOp "Force Drain successful. Delete Volume Attachments" "" 5000 "Processing" "Delete") (mkCur "Terminating" false 5000) "").
Definition go_volumes : list GOp :=
  go_round [RUnit; RBool true; RBool true; RUnit] ++ go_wait ++
  go_round [RUnit; RBool true; RBool false; RUnit; RUnit] ++ go_wait ++
  go_round [RUnit; POk "n1" "vm-1" ""; RUnit; RUnit] ++ go_wait ++
  go_round [RUnit; RUnit; RUnit; RUnit] ++ go_wait.

Example C114_over_at_last_case :
  let w := grun go_cf (ginit 5000000 go_forced) go_volumes in
  let w' := grun go_cf (ginit 5000000 go_forced) (go_volumes ++ go_last) in
  deletable go_forced /\ In MCM (mo_fins go_forced) /\ lo_time (ms_op (mo_status go_forced)) * 1000 <= 5000000 /\
  Forall (timely 1300 0 10) (gstates go_cf (ginit 5000000 go_forced) (go_volumes ++ go_last)) /\
  smoothly false 5005000 go_cf (ginit 5000000 go_forced) (go_volumes ++ go_last) /\
  z_now (g_z w) = 5020040 /\ held w /\ g_obj w' = None.
Proof.
  cbv zeta. split; [|split; [|split; [|split; [|split; [|split; [|split]]]]]].
  - split; [discriminate|]. split; apply go_plain_sound; reflexivity.
  - left. reflexivity.
  - cbn. lia.
  - apply go_timely_sound. vm_compute. reflexivity.
  - apply go_smooth_sound. vm_compute. reflexivity.
  - vm_compute. reflexivity.
  - eexists. split; [vm_compute; reflexivity|]. left. reflexivity.
  - vm_compute. reflexivity.
Qed.

Example C114_label_first_case :
  let w := grun go_cf (ginit 5000000 go_m) (go_round [RUnit; RUnit; RUnit] ++ go_wait ++ [GStart; GStep RUnit 0; GStep (RStr "n1") 0]) in
  exists o, z_dead (g_z w) = false /\ g_obj w = Some o /\ (mo_rv o < g_next w)%nat /\ mo_fins o <> [] /\ nodeName o <> "n1" /\
    z_run (g_z w) = Some (rUpdateMachineNodeLabel o "n1").
Proof. eexists. split; [vm_compute; reflexivity|]. split; [vm_compute; reflexivity|]. split; [vm_compute; lia|]. split; [discriminate|]. split; [discriminate|]. vm_compute. reflexivity. Qed.
