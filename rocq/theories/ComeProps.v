(** A machine for which everything works is Running in time (C117): theorems. *)
Require Import Coq.ZArith.ZArith Coq.Lists.List Coq.Strings.String Coq.Strings.Ascii Coq.Bool.Bool Coq.NArith.NArith Lia.
From Verif Require Import CodesModel MachModel LevModel HealthModel LifeModel CreaSpec JoinSpec SoonModel SoonSpec GoneModel GoneSpec ComeModel ComeSpec ComeProofs.
Import ListNotations.
Open Scope string_scope.
Open Scope list_scope.
Open Scope Z_scope.

(** C117: a new machine for which all calls succeed is Running, with finalizer, node name, provider ID and
    priority recorded, within four stages (the delays of cache, worker and reconcile, and five seconds
    each) and 55 s more, counted from the time when the machine is seen, its VM is initialized and its
    node is in order, and stays so; provided that this time ends before the creation timeout does. *)
Theorem C117_up_in_time : forall cf m now since lam delta eps ops,
  0 <= lam -> 0 <= delta -> 0 <= eps -> newborn m ->
  up_by lam delta eps since now <= now + 1000 * cf_creation cf ->
  let w := crun cf (cinit now m) ops in
  Forall (timely lam delta eps) (cstates cf (cinit now m) ops) -> easily cf since (cinit now m) ops ->
  up_by lam delta eps since now < z_now (g_z w) -> running w.
Proof. intros cf m now since lam delta eps ops L D E N LI w T S. exact (in_time cf lam delta eps since now L D E LI m ops N T S). Qed.
Print Assumptions C117_up_in_time.

(** C117: on its way it has no other phase than none, Pending and Running; it is not Running
    before its node is in order, and never Failed or Unknown. *)
Theorem C117_no_detour : forall cf m now since lam delta eps ops,
  0 <= lam -> 0 <= delta -> 0 <= eps -> newborn m ->
  up_by lam delta eps since now <= now + 1000 * cf_creation cf ->
  let w := crun cf (cinit now m) ops in
  Forall (timely lam delta eps) (cstates cf (cinit now m) ops) -> easily cf since (cinit now m) ops ->
  exists o, g_obj w = Some o /\ mo_dt o = None /\ In (phase o) [""; "Pending"; "Running"] /\ (phase o = "Running" -> since <= z_now (g_z w)).
Proof. intros cf m now since lam delta eps ops L D E N LI w T S. exact (on_the_way cf lam delta eps since now L D E LI m ops N T S). Qed.
Print Assumptions C117_no_detour.

(* Tests for the hypotheses. *)
Definition co_code (t : string) : option N := let '(st, ok) := FromError t in if ok then Some (s_code st) else None.
Lemma co_code_sound t rs c : co_code t = Some c -> failsWith (PFail t rs) c.
Proof. unfold co_code. destruct (FromError t) as [[code msg] ok] eqn:F. destruct ok; [|discriminate]. cbn. intros E. injection E as <-. exists t, rs, msg. auto. Qed.
Definition co_is (t : string) (c : N) : bool := match co_code t with Some d => N.eqb d c | None => false end.
Lemma co_is_sound t rs c : co_is t c = true -> failsWith (PFail t rs) c.
Proof. unfold co_is. destruct (co_code t) as [d|] eqn:E; [|discriminate]. intros H. apply N.eqb_eq in H. subst d. apply co_code_sound, E. Qed.
Definition co_some (s : string) : bool := negb (String.eqb s "").
Lemma co_some_sound s : co_some s = true -> s <> "".
Proof. intros H ->. discriminate H. Qed.
Fixpoint co_nodup (l : list string) : bool := match l with [] => true | x :: r => negb (existsb (String.eqb x) r) && co_nodup r end.
Lemma co_nodup_sound l : co_nodup l = true -> NoDup l.
Proof.
  induction l as [|x r IH]; cbn; intros H; [constructor|]. apply andb_prop in H. destruct H as [H1 H2]. constructor; [|auto].
  intros I. apply negb_true_iff in H1. assert (X : existsb (String.eqb x) r = true) by (apply existsb_exists; exists x; rewrite String.eqb_refl; auto). congruence.
Qed.
Definition co_answers (cf : Cfg) (up : bool) (c : Call) (r : Reply) : bool :=
  match c, r with
  | CFrozen, RBool false => true
  | (CClass | CSecret _ | CSync _), RUnit => true
  | CNode _, RNode NodeMissing => negb up
  | CNode _, RNode (NodeIs conds crit) => co_nodup (map nc_type conds) && Bool.eqb (isHealthy (cf_bad cf) conds && negb crit) up
  | CGetStatus _, POk n p _ => co_some n && co_some p
  | CGetStatus m, PFail t resp =>
      match resp with
      | Some (n, p, _) => negb up && co_some n && co_some p && co_is t cUninitialized
      | None => co_is t cNotFound && match get "node" (mo_labels m) with None => true | _ => false end
      end
  | CCreate _, POk n p _ => co_some n && co_some p
  | CStaleNode _, RBool false => true
  | CInit _, POk _ _ _ => true
  | (WMeta _ | WStatus _ | CNow), _ => true
  | _, _ => false
  end%bool.
Lemma co_answers_sound cf up c r : co_answers cf up c r = true -> answers cf up c r.
Proof.
  intros H. destruct c, r; cbn [co_answers] in H; try discriminate H; cbn [answers]; try exact Logic.I; try reflexivity.
  all: try (destruct b; [discriminate H|reflexivity]).
  all: try (left; eexists; eexists; eexists; reflexivity).
  - destruct a as [| |conds crit]; [discriminate H| |].
    + apply negb_true_iff in H. subst up. exists NodeMissing. split; [reflexivity|]. split; [exact Logic.I|]. split; [intros (c & E & _); discriminate E|discriminate].
    + apply andb_prop in H. destruct H as [H1 H2]. apply co_nodup_sound in H1. apply Bool.eqb_prop in H2. exists (NodeIs conds crit). split; [reflexivity|]. split; [exact H1|]. rewrite <- H2.
      split; [intros (c & E & HC); injection E as <- ->; rewrite HC; reflexivity|]. intros E. apply andb_prop in E. destruct E as [E1 E2]. destruct crit; [discriminate E2|]. exists conds. auto.
  - apply andb_prop in H. destruct H as [H1 H2]. left. eexists; eexists; eexists. split; [reflexivity|]. split; apply co_some_sound; assumption.
  - destruct resp as [[[n p] l]|].
    + apply andb_prop in H. destruct H as [H H4]. apply andb_prop in H. destruct H as [H H3]. apply andb_prop in H. destruct H as [H1 H2]. apply negb_true_iff in H1.
      right. left. split; [exact H1|]. exists text, n, p, l. split; [reflexivity|]. split; [apply co_some_sound, H2|]. split; [apply co_some_sound, H3|apply co_is_sound, H4].
    + apply andb_prop in H. destruct H as [H1 H2]. right. right. split; [left; apply co_is_sound, H1|]. left. destruct (get _ _); [discriminate H2|reflexivity].
  - apply andb_prop in H. destruct H as [H1 H2]. eexists; eexists; eexists. split; [reflexivity|]. split; apply co_some_sound; assumption.
Qed.
Fixpoint co_easy (since : Z) (cf : Cfg) (w : GW) (ops : list GOp) : bool :=
  match ops with
  | [] => true
  | op :: l =>
      match op, z_run (g_z w) with
      | GStep r _, Some (RDo c _) => co_answers cf (since <=? z_now (g_z w)) c r
      | _, _ => true
      end && co_easy since cf (cstep cf w op) l
  end%bool.
Lemma co_easy_sound since cf : forall ops w, co_easy since cf w ops = true -> easily cf since w ops.
Proof.
  induction ops as [|op l IH]; intros w H; [exact Logic.I|]. cbn [co_easy] in H. apply andb_prop in H. destruct H as [H1 H2].
  split; [|exact (IH _ H2)]. destruct op as [d|n| | |r lim]; try exact Logic.I. cbn [easy].
  destruct (z_run (g_z w)) as [[x f| |x p|c k]|]; try exact Logic.I. apply co_answers_sound, H1.
Qed.
Definition co_timely (lam delta eps : Z) (w : GW) : bool :=
  (negb (z_queued (g_z w)) || match z_run (g_z w) with Some _ => true | None => z_now (g_z w) <=? z_ready (g_z w) + delta end) &&
  match z_run (g_z w) with None => true | Some _ => z_now (g_z w) <=? z_began (g_z w) + eps end &&
  (negb (g_chg w + lam <? z_now (g_z w)) ||
   match z_view (g_z w), g_obj w with Some a, Some b => if MObj_eq_dec a b then true else false | None, None => true | _, _ => false end).
Lemma co_timely_sound lam delta eps l : forallb (co_timely lam delta eps) l = true -> Forall (timely lam delta eps) l.
Proof.
  intros H. apply Forall_forall. intros w I. rewrite forallb_forall in H. specialize (H w I). unfold co_timely in H.
  apply andb_prop in H. destruct H as [H H3]. apply andb_prop in H. destruct H as [H1 H2]. split; [split|].
  - intros Q R. rewrite Q, R in H1. cbn in H1. apply Z.leb_le, H1.
  - intros R. destruct (z_run (g_z w)); [apply Z.leb_le, H2|contradiction].
  - intros L. apply Z.ltb_lt in L. rewrite L in H3. cbn in H3. destruct (z_view (g_z w)), (g_obj w); try discriminate; [|reflexivity].
    destruct (MObj_eq_dec _ _); [subst; reflexivity|discriminate].
Qed.

Definition co_cf (creation : Z) : Cfg := mkCfg 7200 creation 600 "KernelDeadlock" (mkShow (fun _ => "") (fun _ => "")).
Definition co_m : MObj := mkMO "m" 1 7 5000 None [] [] [] "" (mkMS [] (mkOp "" "" 0 "" "") (mkCur "" false 0) "").
(* A reconcile with its answers, the last step is its end; it takes 10 ms. The cache follows after a second; then there is nothing to do for a while. *)
Definition co_round (rs : list Reply) : list GOp := GStart :: map (fun r => GStep r 0) ([RBool false; RUnit] ++ rs) ++ [GTick 10; GStep RUnit 0].
Definition co_wait (d : Z) : list GOp := [GTick 1000; GSee 0; GTick (d - 1000)].
Definition co_missing : Reply := PFail (errorText (mkStatus cNotFound "no such VM")) None.
Definition co_raw : Reply := PFail (errorText (mkStatus cUninitialized "not yet")) (Some ("n1", "vm-1", "")).
Definition co_there : Reply := POk "n1" "vm-1" "".
Definition co_node (s : string) : Reply := RNode (NodeIs [mkNCond "Ready" s "" "" 0] false).
(* Finalizer; VM (and at once, with an old cache, once more: the label is not stored twice); VM not
   initialized; Pending; node missing; node not ready; a minute later all is well. *)
Definition co_ops : list GOp :=
  co_round [RUnit] ++ co_wait 5000 ++
  co_round [RUnit; co_missing; co_there; RBool false; RUnit; co_there] ++ [GTick 100; GAdd] ++
  co_round [RUnit; co_there; RUnit] ++ co_wait 4890 ++
  co_round [RUnit; co_raw; co_there] ++ co_wait 5000 ++
  co_round [RUnit; co_there; RUnit; RUnit] ++ co_wait 5000 ++
  co_round [RNode NodeMissing; RUnit; RUnit; RUnit] ++ [GAdd] ++
  co_round [co_node "False"; RUnit; RUnit] ++ co_wait 5000 ++
  co_round [co_node "False"; RUnit; RUnit; RUnit] ++ co_wait 59990.
Definition co_last : list GOp := co_round [co_node "True"; RUnit; RUnit] ++ co_wait 5000 ++ co_round [co_node "True"; RUnit; RUnit] ++ co_wait 16000.

Example C117_up_in_time_case :
  let w0 := cinit 5000000 co_m in let cf := co_cf 1200 in
  let w := crun cf w0 co_ops in let w' := crun cf w0 (co_ops ++ co_last) in
  newborn co_m /\ up_by 1300 0 10 5025070 5000000 <= 5000000 + 1000 * cf_creation cf /\
  Forall (timely 1300 0 10) (cstates cf w0 (co_ops ++ co_last)) /\ easily cf 5025070 w0 (co_ops ++ co_last) /\
  option_map phase (g_obj w) = Some "Pending" /\ z_now (g_z w) = 5085060 /\
  up_by 1300 0 10 5025070 5000000 < z_now (g_z w') /\ running w'.
Proof.
  cbv zeta. split; [repeat split|]. split; [vm_compute; discriminate|].
  split; [apply co_timely_sound; vm_compute; reflexivity|]. split; [apply co_easy_sound; vm_compute; reflexivity|].
  split; [vm_compute; reflexivity|]. split; [vm_compute; reflexivity|]. split; [vm_compute; reflexivity|].
  eexists. split; [vm_compute; reflexivity|]. split; [reflexivity|]. split; [reflexivity|]. split; [repeat split; discriminate|discriminate].
Qed.

(** On its way the machine of the same case is without phase when its VM is there but not initialized, then
    Pending while its node is missing or not ready. *)
Example C117_no_detour_case :
  let w0 := cinit 5000000 co_m in let cf := co_cf 1200 in
  Forall (timely 1300 0 10) (cstates cf w0 co_ops) /\ easily cf 5025070 w0 co_ops /\ option_map phase (g_obj (crun cf w0 (firstn 40%nat co_ops))) = Some "" /\ option_map phase (g_obj (crun cf w0 co_ops)) = Some "Pending".
Proof.
  cbv zeta. split; [apply co_timely_sound; vm_compute; reflexivity|]. split; [apply co_easy_sound; vm_compute; reflexivity|].
  split; vm_compute; reflexivity.
Qed.

(** C117, the creation timeout: if it is over before the node comes, the machine is Failed, and as it is
    then looked at only every ten minutes, it stays so long after the node is in order (unless its machine
    set deletes it first). All calls succeed here. *)
Definition co_slow : list GOp :=
  co_round [RUnit] ++ co_wait 5000 ++
  co_round [RUnit; co_missing; co_there; RBool false; RUnit; co_there] ++ co_wait 5000 ++
  co_round [RUnit; co_there; RUnit; RUnit] ++ co_wait 5000 ++
  co_round [RNode NodeMissing; RUnit; RUnit; RUnit] ++ co_wait 59990 ++
  co_round [RNode NodeMissing; RUnit; RUnit] ++ co_wait 5000 ++
  co_round [RNode NodeMissing; RUnit; RUnit] ++ co_wait 599999.
Theorem C117_too_late : exists cf m now since lam delta eps ops,
  let w := crun cf (cinit now m) ops in
  newborn m /\ Forall (timely lam delta eps) (cstates cf (cinit now m) ops) /\ easily cf since (cinit now m) ops /\
  up_by lam delta eps since now + 500000 < z_now (g_z w) /\ option_map phase (g_obj w) = Some "Failed".
Proof.
  exists (co_cf 60), co_m, 5000000, 5080051, 1010, 0, 10, co_slow. cbv zeta. split; [repeat split|].
  split; [apply co_timely_sound; vm_compute; reflexivity|]. split; [apply co_easy_sound; vm_compute; reflexivity|].
  split; vm_compute; reflexivity.
Qed.
Print Assumptions C117_too_late.
