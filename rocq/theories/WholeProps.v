(** Property C100: a rolling update as a whole, in every execution. *)
Require Import Coq.ZArith.ZArith Coq.Lists.List Coq.Strings.String Coq.Bool.Bool Coq.micromega.Lia.
From Verif Require Import Types RolloutModel RolloutSpec RolloutProofs ValidModel ValidSpec ValidProofs WholeModel WholeSpec WholeProofs.
Import ListNotations.
Open Scope Z_scope.

(** A concrete world: 2 machines wanted, one more allowed, none less; the old set "a" has them, the new
    set "n" is empty. Rounds of reconcile, work, readiness and report. *)
Definition ex_d := mkMD 2 (RollingUpdate (Some (IOSInt 1)) (Some (IOSInt 0))) None 2.
Definition ex_s (name : string) (spec status avail : Z) : MachineSet := mkMS name 5 false 1 1 spec status avail avail (AnnInt 2) (AnnInt 3).
Definition ex_x (name : string) (spec have up : Z) : XSet := mkX (ex_s name spec have up) have up.
Definition ex_w := mkW (ex_x "n" 0 0 0) [ex_x "a" 2 2 2] 0.
Definition ok_api : Api := mkApi true (fun _ => true) (fun _ => true).
Definition now (w : World) : Op := Reconcile ok_api (x_set (w_new w)) (map x_set (w_olds w)).
Definition settling (d : MachineDeployment) (w : World) : list Op :=
  let l := [Work "n" 9; Work "a" 9; Ready "n"; Ready "n"] in
  l ++ map (fun x => Report (ms_name (x_set x)) (x_have x) (x_up x)) (sets (run d w l)).
Fixpoint script (k : nat) (d : MachineDeployment) (w : World) : list Op :=
  match k with
  | O => []
  | S k => let l := now w :: settling d (step d w (now w)) in l ++ script k d (run d w l)
  end.
Definition ex_run := script 4 ex_d ex_w.

Ltac decide_case := vm_compute; repeat match goal with
  | |- True => exact I | |- _ /\ _ => split | |- NoDup _ => constructor | |- Forall _ _ => constructor | |- ~ _ => let H := fresh in intro H; cbn in H; intuition discriminate
  | |- _ = _ => reflexivity | |- _ -> False => let H := fresh in intro H; cbn in H; intuition discriminate | |- forall _, _ => intro end; try discriminate.

(** C100_bounds: whatever the controllers do and in whatever order, however outdated the cache and
    whichever calls fail: the new set moves only towards the wanted number, the old sets only shrink,
    so never more is requested than the old sets had and the new one may have, and the rollout never
    gets farther from its end. *)
Theorem C100_bounds : forall d s u w l, md_strategy d = RollingUpdate s u -> 0 <= md_replicas d -> sane w -> always d possible w l ->
  let w' := run d w l in
  Z.min (x_spec (w_new w)) (md_replicas d) <= x_spec (w_new w') <= Z.max (x_spec (w_new w)) (md_replicas d) /\
  Forall2 (fun a b => ms_name (x_set a) = ms_name (x_set b) /\ 0 <= x_spec a <= x_spec b) (w_olds w') (w_olds w) /\
  all_requested w' <= Z.max (x_spec (w_new w)) (md_replicas d) + sum x_spec (w_olds w) /\
  distance d w' <= distance d w.
Proof.
  intros d s u w l Hd HR Hs Ha w'. destruct (run_toward d s u l w Hd HR Hs Ha) as (_ & T). fold w' in T.
  pose proof (toward_distance _ _ _ T) as D. destruct T as (_ & A & B & C). pose proof (shrunk_sum _ _ C) as S.
  assert (x_spec (w_new w') <= Z.max (x_spec (w_new w)) (md_replicas d)) as U by lia.
  split; [lia|]. split; [exact C|]. split; [|exact D].
  unfold all_requested, sets, sum in *. cbn [fold_right]. lia.
Qed.
Print Assumptions C100_bounds.

(** C100_ends: as soon as as many reconciles saw the current state with the new set complete and
    available and the old ones complete - however many old machines are broken, whatever else happened
    in between - as there were machines to be moved, the rollout is at its end: the new set has the
    wanted size and the old ones are empty. *)
Theorem C100_ends : forall d s u w l k, md_strategy d = RollingUpdate s u -> good_budget s -> good_budget u -> 0 <= md_replicas d ->
  sane w -> always d possible w l -> helped d k w l -> distance d w <= Z.of_nat k -> finished d (run d w l).
Proof.
  intros d s u w l k Hd Gs Gu HR Hs Ha Hh Hk. destruct (run_toward d s u l w Hd HR Hs Ha) as (S & _).
  apply distance_finished; [exact S|]. pose proof (helped_distance d s u l k w Hd Gs Gu HR Hs Ha Hh).
  pose proof (distance_nonneg d _ S). lia.
Qed.
Print Assumptions C100_ends.

(** C100_stays: and there it stays, whatever happens. *)
Theorem C100_stays : forall d s u w l, md_strategy d = RollingUpdate s u -> 0 <= md_replicas d -> sane w -> always d possible w l ->
  finished d w -> finished d (run d w l).
Proof.
  intros d s u w l Hd HR Hs Ha F. destruct (run_toward d s u l w Hd HR Hs Ha) as (S & T).
  apply distance_finished; [exact S|]. apply distance_finished in F; [|exact Hs]. apply toward_distance in T.
  pose proof (distance_nonneg d _ S). lia.
Qed.
Print Assumptions C100_stays.

(** C100_never_stuck: whatever happened before - failed calls, outdated caches, broken machines - the rollout
    is never stuck: the ordinary course of things brings it to its end, even if no old machine ever becomes
    available again. *)
Theorem C100_never_stuck : forall d s u w l, md_strategy d = RollingUpdate s u -> good_budget s -> good_budget u -> 0 <= md_replicas d ->
  sane w -> always d possible w l -> exists m, always d ordinary (run d w l) m /\ finished d (run d w (l ++ m)).
Proof.
  intros d s u w l Hd Gs Gu HR Hs Ha. destruct (run_toward d s u l w Hd HR Hs Ha) as (S & _).
  destruct (never_stuck d s u (Z.to_nat (distance d (run d w l))) (run d w l) Hd Gs Gu HR S) as (m & A & F); [lia|].
  exists m. rewrite run_app. auto.
Qed.
Print Assumptions C100_never_stuck.
(** The state after two old machines broke and an update failed. *)
Example C100_never_stuck_case : let l := [Lost "a"; Lost "a"; Report "a" 2 0; Reconcile (mkApi false (fun _ => false) (fun _ => false)) (ex_s "n" 0 0 0) [ex_s "a" 2 2 0]] in
  sane ex_w /\ always ex_d possible ex_w l /\ ~ finished ex_d (run ex_d ex_w l) /\ distance ex_d (run ex_d ex_w l) = 4.
Proof. cbv zeta. split; [decide_case|]. split; [decide_case|]. split; [intros (H & _); vm_compute in H; discriminate H|vm_compute; reflexivity]. Qed.

(** C46_rolling_runs: an accepted MachineDeployment with the rolling strategy and budgets that are not
    negative is rolled out in every execution with enough reconciles that see complete sets, and never gets stuck.
    Partial: for budgets that are not negative (C46_negative_surge_refuted, C46_negative_unavailable_refuted). *)
Theorem C46_rolling_runs_partial : forall v a b h st, validateMachineDeployment v = Some [] -> vs_type (v_strategy v) = "RollingUpdate"%string ->
  vs_rolling (v_strategy v) = Some (a, b) -> good_budget a -> good_budget b ->
  let d := mkMD (v_replicas v) (RollingUpdate a b) h st in
  reconcileRollout v = VRollout (RollingUpdate a b) /\
  forall w l, sane w -> always d possible w l ->
    (forall k, helped d k w l -> distance d w <= Z.of_nat k -> finished d (run d w l)) /\
    (exists m, always d ordinary (run d w l) m /\ finished d (run d w (l ++ m))).
Proof.
  intros v a b h st A T R GA GB d. pose proof A as A0. apply accepted_spec in A0. destruct A0 as (sel & _ & N & _).
  split; [unfold reconcileRollout, chooseRollout; rewrite A, T, R; reflexivity|].
  intros w l Sw Hp. split.
  - intros k Hh Hk. exact (C100_ends d a b w l k eq_refl GA GB N Sw Hp Hh Hk).
  - exact (C100_never_stuck d a b w l eq_refl GA GB N Sw Hp).
Qed.
Print Assumptions C46_rolling_runs_partial.
Example C46_rolling_runs_case :
  let v := mkV 2 (mkVS "RollingUpdate" (Some (Some (IOSInt 1), Some (IOSInt 0))) None) (Some [("pool", "a")]) [("pool", "a")] "MachineClass" "c" in
  validateMachineDeployment v = Some [] /\ reconcileRollout v = VRollout (md_strategy ex_d) /\ finished ex_d (run ex_d ex_w ex_run).
Proof. cbv zeta. split; [reflexivity|]. split; [reflexivity|]. decide_case. Qed.

(** C100_machines_partial: if every reconcile sees the truth, and no set then lacks machines it was
    asked for, there are never more machines - those of shrinking sets not yet deleted included - than
    the wanted number and the surge, or than there were. Missing: reconciles with outdated views or
    statuses, or before all requested machines exist; C100_machines_refuted shows the bound is then
    not kept, C100_bounds says what is. *)
Theorem C100_machines_partial : forall d s u surge w l, md_strategy d = RollingUpdate s u -> is_surge s (md_replicas d) surge -> 0 <= md_replicas d ->
  sane w -> always d possible w l -> always d sees_machines w l -> Forall (fun x => x_spec x <= x_have x) (sets w) ->
  machines (run d w l) <= Z.max (machines w) (md_replicas d + surge) /\
  all_requested (run d w l) <= Z.max (machines w) (md_replicas d + surge).
Proof.
  intros d s u surge w l Hd Hs HR Sw Hp Hm H.
  pose proof (room_run d s u surge l w Hd Hs HR Sw Hp Hm) as R. destruct (machines_room (run d w l)) as (A & B).
  assert (room w = machines w) as E. { apply sum_eq. eapply Forall_impl; [|exact H]. cbn beta. intros; lia. }
  lia.
Qed.
Print Assumptions C100_machines_partial.

(** C100_floor_partial: if every reconcile sees the truth, and no set then has available machines it
    was asked to give up, the available machines never fall below the wanted number less the allowed
    unavailability, or below those there were that the sizes keep - other than by machines that failed
    of themselves. Missing: reconciles with outdated statuses, or before the MachineSet controllers
    acted; C100_floor_refuted and C100_floor_lag_refuted show the floor is then not kept. *)
Theorem C100_floor_partial : forall d s u surge unavail w l, md_strategy d = RollingUpdate s u -> good_budget s -> good_budget u -> 0 < md_replicas d ->
  is_budget s u (md_replicas d) surge unavail -> sane w -> always d possible w l -> always d sees_available w l ->
  let w' := run d w l in
  Z.min (md_replicas d - unavail) (all_kept w) - (w_lost w' - w_lost w) <= all_up w'.
Proof.
  intros d s u surge unavail w l Hd Gs Gu HR HB Sw Hp Hm w'.
  pose proof (kept_run d s u surge unavail l w Hd Gs Gu HR HB Sw Hp Hm) as (A & _). pose proof (kept_up (run d w l)). unfold w'. lia.
Qed.
Print Assumptions C100_floor_partial.

(** A whole rollout: it meets every hypothesis above, ends, and in between there were three machines. *)
Example C100_run_case :
  sane ex_w /\ always ex_d possible ex_w ex_run /\ always ex_d sees_machines ex_w ex_run /\ always ex_d sees_available ex_w ex_run /\
  distance ex_d ex_w = 4 /\ finished ex_d (run ex_d ex_w ex_run) /\
  machines (run ex_d ex_w (firstn 3 ex_run)) = 3 /\ all_up (run ex_d ex_w ex_run) = 2.
Proof. decide_case. Qed.
Lemma helped_yes : forall d k w o l, helpful w o -> helped d k (step d w o) l -> helped d (S k) w (o :: l).
Proof. intros. left. split; assumption. Qed.
Lemma helped_no : forall d k w o l, helped d (S k) (step d w o) l -> helped d (S k) w (o :: l).
Proof. intros. right. assumption. Qed.
Example C100_ends_case : helped ex_d 4 ex_w ex_run.
Proof.
  let r := eval vm_compute in ex_run in change ex_run with r.
  apply helped_yes; [decide_case|]. do 6 apply helped_no.
  apply helped_yes; [decide_case|]. do 6 apply helped_no.
  apply helped_yes; [decide_case|]. do 6 apply helped_no.
  apply helped_yes; [decide_case|]. exact I.
Qed.

(** C100_machines_refuted: reconciles that see the truth before the requested machines exist overshoot:
    4 machines wanted, one more allowed, 6 exist in the end. *)
Definition lag_d := mkMD 4 (RollingUpdate (Some (IOSInt 1)) (Some (IOSInt 0))) None 4.
Definition lag_w := mkW (ex_x "n" 0 0 0) [ex_x "a" 4 4 4] 0.
Definition lag_run : list Op := let w1 := step lag_d lag_w (now lag_w) in [now lag_w; now w1; Work "n" 9].
Theorem C100_machines_refuted : exists d s u surge w l, md_strategy d = RollingUpdate s u /\ is_surge s (md_replicas d) surge /\
  sane w /\ always d possible w l /\ machines w <= md_replicas d + surge /\
  always d (fun w o => match o with Reconcile _ vn vo => uptodate w vn vo /\ truthful w | _ => True end) w l /\
  md_replicas d + surge < machines (run d w l).
Proof. exists lag_d, (Some (IOSInt 1)), (Some (IOSInt 0)), 1, lag_w, lag_run. decide_case. Qed.
Print Assumptions C100_machines_refuted.

(** C100_floor_refuted: with an outdated status - the five machines of "a" are available, the status
    does not yet say so - a reconcile on the stored objects gives up all of them. *)
Definition old_d := mkMD 5 (RollingUpdate (Some (IOSInt 5)) (Some (IOSInt 0))) None 5.
Definition old_w := mkW (mkX (ex_s "n" 5 5 0) 5 0) [mkX (ex_s "a" 5 5 0) 5 5; mkX (ex_s "b" 5 5 0) 5 0] 0.
Theorem C100_floor_refuted : exists d s u surge unavail w l, md_strategy d = RollingUpdate s u /\ good_budget s /\ good_budget u /\ 0 < md_replicas d /\
  is_budget s u (md_replicas d) surge unavail /\ sane w /\ always d possible w l /\
  always d (fun w o => match o with Reconcile _ vn vo => uptodate w vn vo /\ Forall (fun x => x_up x <= x_spec x) (sets w) | _ => True end) w l /\
  w_lost (run d w l) = w_lost w /\ all_up w = md_replicas d - unavail /\ all_up (run d w l) = 0.
Proof.
  exists old_d, (Some (IOSInt 5)), (Some (IOSInt 0)), 5, 0, old_w, [now old_w; Work "a" 9].
  repeat split; try decide_case. exists 0. decide_case.
Qed.
Print Assumptions C100_floor_refuted.

(** C100_floor_lag_refuted: with true statuses, but before a MachineSet controller deleted what its
    set gave up before: the available machines of "b" that are about to be deleted are counted, and those of
    "c" given up for them. (The broken set "a" takes the whole clean-up; a clean-up that comes to "b"
    itself fails.) *)
Definition lag2_d := mkMD 5 (RollingUpdate (Some (IOSInt 5)) (Some (IOSInt 0))) None 5.
Definition lag2_w := mkW (ex_x "n" 5 5 0) [ex_x "a" 3 3 0; ex_x "b" 1 5 5; ex_x "c" 4 4 4] 0.
Theorem C100_floor_lag_refuted : exists d s u surge unavail w l, md_strategy d = RollingUpdate s u /\ good_budget s /\ good_budget u /\ 0 < md_replicas d /\
  is_budget s u (md_replicas d) surge unavail /\ sane w /\ always d possible w l /\
  always d (fun w o => match o with Reconcile _ vn vo => uptodate w vn vo /\ truthful w | _ => True end) w l /\
  w_lost (run d w l) = w_lost w /\ md_replicas d - unavail <= all_kept w /\ all_up (run d w l) < md_replicas d - unavail.
Proof.
  exists lag2_d, (Some (IOSInt 5)), (Some (IOSInt 0)), 5, 0, lag2_w, [now lag2_w; Work "b" 9; Work "c" 9].
  repeat split; try decide_case. exists 0. decide_case.
Qed.
Print Assumptions C100_floor_lag_refuted.

(** C100_bounds where it is sharp: a reconcile on an outdated cache after the machines are there. *)
Example C100_bounds_case : let l := lag_run ++ [now lag_w] in
  always lag_d possible lag_w l /\ x_spec (w_new (run lag_d lag_w l)) = 2 /\ all_requested (run lag_d lag_w l) = 6.
Proof. decide_case. Qed.
