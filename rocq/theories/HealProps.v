(** Properties of the replacement of broken machines: C107. *)
Require Import Coq.ZArith.ZArith Coq.Lists.List Coq.Strings.String Coq.Bool.Bool Coq.Arith.PeanoNat Coq.micromega.Lia.
From Verif Require Import MachModel HealthModel HealthSpec MSetModel MSetSpec HealModel HealSpec HealProofs.
Import ListNotations.
Open Scope string_scope.
Open Scope list_scope.
Open Scope Z_scope.

Definition hl_c : HConf := mkHC 1200 600 "DiskPressure" (mkShow (fun _ => "conds") (fun _ => "10m")).
Definition hl_ready (s : string) : NCond := mkNCond "Ready" s "" "" 0.
Definition hl_disk (s : string) : NCond := mkNCond "DiskPressure" s "" "" 0.
Definition hl_up : NodeAns := NodeIs [hl_ready "True"; hl_disk "False"] false.
Definition hl_down : NodeAns := NodeIs [hl_ready "False"; hl_disk "False"] false.
Definition hl_st (ph : string) (t : Z) : MStatus := mkMS [hl_ready "True"; hl_disk "False"] (mkOp "" "" 0 "Successful" "Create") (mkCur ph false t) "".
Definition hl_m (i : nat) : HM := mkHM i false (hl_st "Running" 0) false true hl_up 0.
Definition hl_w : HW := mkHW 100 2 false [hl_m 0; hl_m 1] 2.
Lemma hl_begins : beginning hl_w.
Proof.
  split; [repeat constructor; cbn; intuition lia|].
  repeat (apply Forall_cons || apply Forall_nil); (split; [cbn; lia|]); (split; [reflexivity|]);
    (split; [cbn; repeat constructor; cbn; intuition discriminate|]); (split; [cbn; repeat constructor; cbn; intuition discriminate|]); right; split; (reflexivity || discriminate).
Qed.

(** C107: in every execution a machine is marked Failed by the health check only if it did not join
    within the creation timeout, or if a pass longer ago than the health timeout recorded its node
    as broken, its node is broken now, and no pass in between recorded it as sound.
    Partial: what the node was between the passes, and passes whose write failed, do not count (see
    below). *)
Theorem C107_broken_for_long_partial : forall c w0 ops i seen permit ok, beginning w0 -> Forall proper_op ops ->
  let w := hrun c w0 ops in
  forall m m', In m (k_ms w) -> h_id m = i -> h_phase m <> "Failed" -> In m' (k_ms (hstep c w (HPass i seen permit ok))) -> h_id m' = i -> h_phase m' = "Failed" ->
  (h_phase m = "Pending" /\ exists ops0 vm opsm, ops = ops0 ++ HMade i "Pending" vm :: opsm /\ k_now (hrun c w0 ops0) + c_creation c < k_now w) \/
  (h_phase m = "Unknown" /\ broken c (h_node m) /\ exists ops0 s p opsm, ops = ops0 ++ HPass i s p true :: opsm /\
     has (hrun c w0 ops0) i (fun m => broken c (h_node m)) /\ k_now (hrun c w0 ops0) + c_health c < k_now w /\
     (forall a s' p' b, opsm = a ++ HPass i s' p' true :: b -> ~ has (hrun c w0 ((ops0 ++ [HPass i s p true]) ++ a)) i (fun m => sound c (h_node m)))).
Proof. exact failed_when. Qed.
Print Assumptions C107_broken_for_long_partial.

(** C107: in every execution in which the MachineSet controller sees the machines as they are and its
    delete calls succeed, it deletes only machines that are Failed or marked by the user.
    Partial: refuted below for outdated views and for failing delete calls. *)
Theorem C107_only_failed_partial : forall c w0 ops api view, beginning w0 -> in_use w0 <= k_spec w0 ->
  hEach c (fun w o => proper_op o /\ truthful w o /\ deletes o) w0 (ops ++ [HSet api view]) ->
  let w := hrun c w0 ops in forall m m', In m (k_ms w) -> In m' (k_ms (hstep c w (HSet api view))) -> h_id m = h_id m' -> h_del m = false -> h_del m' = true ->
  h_phase m = "Failed" \/ h_marked m = true.
Proof. exact only_failed. Qed.
Print Assumptions C107_only_failed_partial.

(** C107: a machine whose node stays broken is gone, with its VM, after five steps of the right kind
    (the pass that notices; the pass after the timeout, when the rate limit allows it; a pass of the
    MachineSet controller; the deletion of the VM; the removal of the object), whatever else happens
    in between, from wherever the execution is.
    Partial: refuted below for conditions that keep changing and when a delete call fails. *)
Theorem C107_replaced_partial : forall c w0 ops0 x ops, beginning w0 -> Forall proper_op ops0 ->
  let w := hrun c w0 ops0 in
  has w x (fun m => h_del m = true \/ (broken c (h_node m) /\ In (h_phase m) ["Running"; "Unknown"; "Pending"; "Failed"])) ->
  Forall (stays_broken c x) ops -> Forall proper_op ops -> forwarded c x 5 w ops ->
  forall m, In m (k_ms (hrun c w ops)) -> h_id m <> x.
Proof.
  intros c w0 ops0 x ops B P w (m & I & E & T) S P' F.
  assert (Bs : base w) by (apply base_run; [exact P|now apply beginning_base]).
  apply (replaced c x 5 ops w 0); auto. split.
  - destruct Bs as (_ & L & _). rewrite Forall_forall in L. rewrite <- E. now apply L.
  - right. exists m. split; [exact I|]. split; [exact E|]. split; [|lia]. destruct T as [T|(T1 & T2)]; [now left|right]. split; [exact T1|]. cbn in T2. intuition.
Qed.
Print Assumptions C107_replaced_partial.

(** C107: whatever happens, a machine is only gone after it was deleted and its VM was gone. *)
Theorem C107_vm_first : forall c w0 x ops, has w0 x (fun _ => True) -> (forall m, In m (k_ms (hrun c w0 ops)) -> h_id m <> x) ->
  exists a b, ops = a ++ HGone x :: b /\ has (hrun c w0 a) x (fun m => h_del m = true /\ h_vm m = false).
Proof. intros c w0 x ops. exact (vm_first c x ops w0). Qed.
Print Assumptions C107_vm_first.

(** C107: the pass of the MachineSet controller that deletes a failed machine also makes up for it:
    afterwards as many machines serve as requested, the failed ones are being deleted, the others are
    untouched. *)
Theorem C107_made_up : forall c w0 ops api, beginning w0 -> Forall proper_op ops ->
  let w := hrun c w0 ops in
  k_frozen w = false -> nserving (seen_now w) <= k_spec w <= nserving (seen_now w) + 100 -> (forall i, a_create api i = true) ->
  let w' := hstep c w (HSet api (seen_now w)) in
  nserving (seen_now w') = k_spec w /\
  (forall m, In m (k_ms w) -> h_phase m = "Failed" -> h_del m = false -> a_delete api (h_id m) = true ->
     has w' (h_id m) (fun m' => h_del m' = true /\ (h_phase m' = "Failed" \/ h_phase m' = "Terminating"))) /\
  (forall m, In m (k_ms w) -> h_phase m <> "Failed" -> h_marked m = false -> In m (k_ms w')).
Proof. intros c w0 ops api B P w Fr L A. apply same_pass; auto. apply base_run; [exact P|now apply beginning_base]. Qed.
Print Assumptions C107_made_up.

(* A case: machine 0 breaks, is noticed at 100, marked at 701, replaced by machine 2. *)
Definition hl_break : list HOp := [HNode 0 hl_down; HPass 0 [] false true; HTick 601; HPass 0 ["Unknown"; "Running"] true true].
Definition hl_heal : list HOp := hl_break ++ [HSet allok (seen_now (hrun hl_c hl_w hl_break)); HTerm 0; HVm 0; HGone 0].
Lemma hl_down_broken : broken hl_c hl_down.
Proof. intros (_ & H & _). specialize (H (hl_ready "False") (or_introl eq_refl) eq_refl). discriminate. Qed.
Ltac hl_in t := eexists; split; [vm_compute; t; reflexivity|split; [reflexivity|]].
Ltac hl_has := first [hl_in ltac:(left) | hl_in ltac:(right; left) | hl_in ltac:(right; right; left)].
Example C107_case :
  Forall (stays_broken hl_c 0) hl_heal /\ Forall proper_op hl_heal /\ 
  has (hrun hl_c hl_w (firstn 1 hl_heal)) 0 (fun m => broken hl_c (h_node m) /\ h_phase m = "Running") /\
  forwarded hl_c 0 5 (hrun hl_c hl_w (firstn 1 hl_heal)) (skipn 1 hl_heal) /\
  hEach hl_c (fun w o => proper_op o /\ truthful w o /\ deletes o) hl_w hl_heal /\
  map h_phase (k_ms (hrun hl_c hl_w hl_break)) = ["Failed"; "Running"] /\
  map h_id (k_ms (hrun hl_c hl_w hl_heal)) = [1; 2]%nat.
Proof.
  split; [|split; [|split; [|split; [|split; [|split; vm_compute; reflexivity]]]]].
  - repeat constructor; cbn; try (intros; reflexivity); try exact hl_down_broken; intuition discriminate.
  - repeat constructor; cbn; intuition discriminate.
  - hl_has. split; [exact hl_down_broken|reflexivity].
  - unfold hl_heal at 2; unfold hl_break at 1. cbn [app skipn forwarded].
    left. split; [cbn [forward]; split; [reflexivity|split; [reflexivity|left; cbn [at_stage]; hl_has; split; reflexivity]]|].
    right. left. split.
    { cbn [forward]. split; [reflexivity|]. split; [reflexivity|]. right. split; [cbn [at_stage]; hl_has; split; [reflexivity|now left]|]. split; [reflexivity|].
      split; [intros p [<-|[<-|[]]]; auto|]. hl_has. split; [cbn; apply HealthProofs.agrees_refl|]. split; [intros _; vm_compute; reflexivity|discriminate]. }
    left. split; [cbn [forward]; split; [cbn [at_stage]; hl_has; split; reflexivity|split; vm_compute; reflexivity]|].
    right. left. split; [cbn [forward]; split; [reflexivity|cbn [at_stage]; hl_has; split; reflexivity]|].
    left. split; [cbn [forward]; split; [reflexivity|cbn [at_stage]; hl_has; split; reflexivity]|exact I].
  - cbn [hl_heal hl_break app hEach]. repeat split; try (cbn; intuition discriminate); try (intros; reflexivity); try (vm_compute; reflexivity).
    repeat constructor; cbn; intuition discriminate.
Qed.

(** C107 fails for outdated views: a machine that has recovered is deleted. *)
Theorem C107_recovered_refuted : exists ops view m,
  let w := hrun hl_c hl_w ops in let w' := hstep hl_c w (HSet allok view) in
  (exists k, view = seen_now (hrun hl_c hl_w (firstn k ops))) /\
  has w 0 (fun x => x = m /\ h_phase m = "Running" /\ sound hl_c (h_node m) /\ h_del m = false /\ h_marked m = false) /\ has w' 0 (fun x => h_del x = true).
Proof.
  exists (hl_break ++ [HNode 0 hl_up; HPass 0 [] false true]), (seen_now (hrun hl_c hl_w hl_break)). eexists. cbv zeta.
  split; [exists 4%nat; vm_compute; reflexivity|]. split.
  - hl_has. split; [reflexivity|]. split; [reflexivity|]. split; [|split; reflexivity]. apply HealthProofs.healthy_iff. reflexivity.
  - hl_has. reflexivity.
Qed.
Print Assumptions C107_recovered_refuted.

(** C107 fails when a delete call fails: the failed machine is shown as Terminating, replaced and,
    once its node recovers, counted again; then another, sound machine is deleted as surplus. *)
Definition hl_nodelete : Api := mkApi (fun _ => true) (fun _ => false) (fun _ => true).
Theorem C107_sound_deleted_refuted : exists ops api view m,
  let w := hrun hl_c hl_w ops in let w' := hstep hl_c w (HSet api view) in
  hEach hl_c (fun w o => proper_op o /\ truthful w o) hl_w (ops ++ [HSet api view]) /\
  has w 0 (fun x => x = m /\ h_phase m = "Running" /\ sound hl_c (h_node m) /\ h_del m = false /\ h_marked m = false) /\ has w' 0 (fun x => h_del x = true) /\ m = mkHM 0 false (h_st m) false true hl_up 0.
Proof.
  set (brk := [HNode 1 hl_down; HPass 1 [] false true; HTick 601; HPass 1 ["Running"; "Unknown"] true true]).
  set (ops1 := brk ++ [HSet hl_nodelete (seen_now (hrun hl_c hl_w brk)); HMade 2 "Pending" true; HNode 2 hl_up; HPass 2 [] false true; HNode 1 hl_up; HPass 1 [] false true]).
  exists ops1, allok, (seen_now (hrun hl_c hl_w ops1)). eexists. cbv zeta. split; [|split; [|split]].
  - unfold ops1, brk. cbn [app hEach]. repeat split; try (cbn; intuition discriminate); try (intros; reflexivity); try (vm_compute; reflexivity);
      repeat constructor; cbn; intuition discriminate.
  - hl_has. split; [reflexivity|]. split; [reflexivity|]. split; [|split; reflexivity]. apply HealthProofs.healthy_iff. reflexivity.
  - hl_has. reflexivity.
  - reflexivity.
Qed.
Print Assumptions C107_sound_deleted_refuted.

(** C107 fails when one delete call fails: the broken machine and its VM stay, and no other broken
    machine of the deployment is ever replaced, though every later call succeeds and every view is up
    to date, for as long as nobody intervenes and the two nodes stay broken. *)
Definition hl_stuck : list HOp :=
  [HNode 0 hl_down; HPass 0 [] false true; HNode 1 hl_down; HPass 1 [] false true; HTick 601; HPass 0 ["Unknown"; "Unknown"] true true].
Theorem C107_blocked_refuted : exists ops0, Forall proper_op ops0 /\
  let w := hrun hl_c hl_w ops0 in
  forall ops, hEach hl_c (on_its_own hl_c 0 1) w ops ->
    has (hrun hl_c w ops) 0 (fun m => h_del m = false /\ h_vm m = true /\ broken hl_c (h_node m)) /\
    has (hrun hl_c w ops) 1 (fun m => h_del m = false /\ h_vm m = true /\ broken hl_c (h_node m) /\ h_phase m = "Unknown").
Proof.
  exists (hl_stuck ++ [HSet hl_nodelete (seen_now (hrun hl_c hl_w hl_stuck))]). split; [repeat constructor; cbn; intuition discriminate|]. cbv zeta. intros ops H.
  assert (S : stuck hl_c 0 1 (hrun hl_c (hrun hl_c hl_w (hl_stuck ++ [HSet hl_nodelete (seen_now (hrun hl_c hl_w hl_stuck))])) ops)).
  { apply stuck_run; [discriminate| |exact H]. split; [|split; [|split]].
    - apply base_run; [repeat constructor; cbn; intuition discriminate|]. apply beginning_base, hl_begins.
    - split; [vm_compute; discriminate|]. split; intros m I E; vm_compute in I; destruct I as [<-|[<-|[<-|[]]]]; try discriminate; vm_compute; discriminate.
    - hl_has. repeat split. exact hl_down_broken.
    - hl_has. repeat split. exact hl_down_broken. }
  destruct S as (_ & _ & (m & I & E & H1 & _ & _ & H2 & H3) & (m' & I' & E' & H4 & _ & H5 & H6 & H7)). split; [exists m|exists m']; auto 8.
Qed.
Print Assumptions C107_blocked_refuted.

(** C107 fails when the conditions of the node keep changing: then every pass records them and none
    looks at the timeout, so the broken machine stays Unknown for ever. *)
Definition hl_flap (b : bool) : list HOp := [HNode 0 (NodeIs [hl_ready "False"; hl_disk (if b then "True" else "Unknown")] false); HTick 1000; HPass 0 ["Unknown"] true true].
Fixpoint hl_flaps (n : nat) (b : bool) : list HOp := match n with O => [] | S k => hl_flap b ++ hl_flaps k (negb b) end.
Definition hl_f (b : bool) (t : Z) : HW :=
  mkHW t 1 false [mkHM 0 false (mkMS [hl_ready "False"; hl_disk (if b then "True" else "Unknown")] (mkOp "" "" 0 "" "") (mkCur "Unknown" false 0) "") false true
                    (NodeIs [hl_ready "False"; hl_disk (if b then "True" else "Unknown")] false) 0] 1.
Theorem C107_flapping_refuted : forall n, exists b,
  Forall (stays_broken hl_c 0) (hl_flaps n true) /\ hrun hl_c (hl_f false 0) (hl_flaps n true) = hl_f b (1000 * Z.of_nat n).
Proof.
  assert (S : forall n b t, Forall (stays_broken hl_c 0) (hl_flaps n b) /\ exists b', hrun hl_c (hl_f (negb b) t) (hl_flaps n b) = hl_f b' (t + 1000 * Z.of_nat n)).
  { induction n as [|n IH]; intros b t.
    - split; [constructor|]. exists (negb b). cbn [hl_flaps hrun fold_left]. f_equal. lia.
    - destruct (IH (negb b) (t + 1000)) as (I1 & b' & I2). split.
      + cbn [hl_flaps]. apply Forall_app. split; [|exact I1]. repeat constructor; cbn; try (intuition discriminate).
        intros (_ & H0 & _). specialize (H0 (hl_ready "False") (or_introl eq_refl) eq_refl). discriminate.
      + exists b'. cbn [hl_flaps]. unfold hrun. rewrite fold_left_app. fold (hrun hl_c (hl_f (negb b) t) (hl_flap b)).
        replace (hrun hl_c (hl_f (negb b) t) (hl_flap b)) with (hl_f (negb (negb b)) (t + 1000)) by (destruct b; reflexivity).
        fold (hrun hl_c (hl_f (negb (negb b)) (t + 1000)) (hl_flaps n (negb b))). rewrite I2. f_equal. lia. }
  intros n. destruct (S n true 0) as (S1 & b & S2). exists b. split; [exact S1|exact S2].
Qed.
Print Assumptions C107_flapping_refuted.

(** C107 fails when a write fails: a pass has found the node sound, but its write was lost; the
    machine is marked Failed for having been broken all the time. *)
Theorem C107_lost_write_refuted : exists ops, Forall proper_op ops /\
  has (hrun hl_c hl_w (firstn 4 ops)) 0 (fun m => sound hl_c (h_node m)) /\ nth_error ops 4 = Some (HPass 0 [] false false) /\
  k_now (hrun hl_c hl_w (firstn 4 ops)) + c_health hl_c = k_now (hrun hl_c hl_w ops) + 1 /\
  has (hrun hl_c hl_w ops) 0 (fun m => h_phase m = "Failed").
Proof.
  exists [HNode 0 hl_down; HPass 0 [] false true; HTick 2; HNode 0 hl_up; HPass 0 [] false false; HTick 599; HNode 0 hl_down; HPass 0 ["Unknown"; "Running"] true true].
  split; [repeat constructor; cbn; intuition discriminate|]. split; [hl_has; apply HealthProofs.healthy_iff; reflexivity|]. split; [reflexivity|]. split; [reflexivity|]. hl_has. reflexivity.
Qed.
Print Assumptions C107_lost_write_refuted.
