(** Metrics (C99): theorems. *)
Require Import Coq.ZArith.ZArith Coq.Lists.List Coq.Strings.String Coq.Bool.Bool Coq.Arith.PeanoNat Coq.micromega.Lia.
From Verif Require Import MetaModel MSetModel CopyModel MetrModel MetrSpec MetrProofs.
Import ListNotations.
Open Scope string_scope.
Open Scope list_scope.
Open Scope Z_scope.

(** C99: after a scrape of the sets every set shows its numbers, its conditions and its failed
    machines, and the count is their number. *)
Theorem C99_sets : forall l r, apart s_meta l -> exists r', collectSets (Some l) r = Shown r' (Some (Z.of_nat (List.length l))) false /\
  forall s, In s l ->
    shows r' "MachineSetInfo" (of (s_meta s) ++ [FormatInt (o_created (s_meta s)); s_group s; s_kind s; s_class s]) 1 /\
    shows r' "MachineSetInfoSpecReplicas" (of (s_meta s)) (s_replicas s) /\
    shows r' "MachineSetInfoSpecMinReadySeconds" (of (s_meta s)) (s_minReady s) /\
    shows r' "MachineSetStatusAvailableReplicas" (of (s_meta s)) (s_avail s) /\
    shows r' "MachineSetStatusFullyLabelledReplicas" (of (s_meta s)) (s_labelled s) /\
    shows r' "MachineSetStatusReadyReplicas" (of (s_meta s)) (s_ready s) /\
    (forall t st v, conds_apart (s_conds s) -> In (t, st) (s_conds s) -> statusNumber st v -> shows r' "MachineSetStatusCondition" (of (s_meta s) ++ [t]) v) /\
    (forall fs f, s_failed s = Some fs -> In f fs -> shows r' "MachineSetStatusFailedMachines" (failedLabels (s_meta s) f) 1).
Proof.
  intros l r N. destruct (objects_some _ s_meta setCalls set_kinds l r) as (r' & E). exists r'. split; [cbn [collectSets]; rewrite E; reflexivity|].
  intros s I.
  assert (X : forall c k v, In c (setCalls s) -> keyed c k v -> conds_apart (s_conds s) \/ fst k <> "MachineSetStatusCondition" -> r' k = Some v).
  { intros c k v J K U. apply (objects_show _ s_meta setCalls set_kinds l r r' s c k v N E I J K). intros c' v' J' K'. apply (set_one s c k v c' v'); assumption. }
  unfold shows.
  assert (D : forall g v, declared g = ["name"; "namespace"] -> In (g, two (s_meta s), v) (setCalls s) -> g <> "MachineSetStatusCondition" -> r' (g, of (s_meta s)) = Some v).
  { intros g v Dg J G. apply (X _ _ _ J); [apply k_two; auto | right; exact G]. }
  split; [apply (X _ _ _ (or_introl eq_refl)); [apply k_setInfo; auto | right; discriminate]|].
  assert (S : forall c, In c (setSpecCalls s) -> In c (setCalls s)) by (intros c J; unfold setCalls; rewrite !in_app_iff; auto).
  assert (T : forall c, In c (setStatusCalls s) -> In c (setCalls s)) by (intros c J; unfold setCalls; rewrite !in_app_iff; auto).
  split; [apply D; [reflexivity | apply S; left; reflexivity | discriminate]|].
  split; [apply D; [reflexivity | apply S; right; left; reflexivity | discriminate]|].
  split; [apply D; [reflexivity | apply T; unfold setStatusCalls; rewrite !in_app_iff; right; right; left; reflexivity | discriminate]|].
  split; [apply D; [reflexivity | apply T; unfold setStatusCalls; rewrite !in_app_iff; right; right; right; left; reflexivity | discriminate]|].
  split; [apply D; [reflexivity | apply T; unfold setStatusCalls; rewrite !in_app_iff; right; right; right; right; left; reflexivity | discriminate]|].
  split.
  - intros t st v C J V. apply (X ("MachineSetStatusCondition", two (s_meta s) ++ [("condition", t)], condValue st)).
    + apply T. unfold setStatusCalls. rewrite !in_app_iff. left. apply (in_map (fun c => ("MachineSetStatusCondition", two (s_meta s) ++ [("condition", fst c)], condValue (snd c))) _ (t, st) J).
    + apply k_cond; [reflexivity|]. rewrite (cond_number _ _ V). auto.
    + left. exact C.
  - intros fs f F J. apply (X (failedCall "MachineSetStatusFailedMachines" (s_meta s) f)).
    + apply T. unfold setStatusCalls. rewrite F, !in_app_iff. right. left. apply (in_map (failedCall "MachineSetStatusFailedMachines" (s_meta s)) fs f J).
    + apply k_failed; auto.
    + right. discriminate.
Qed.
Print Assumptions C99_sets.

Definition k_meta := mkMeta "pool-a" "shoot" 1600000000.
Definition k_set := mkSO k_meta "machine.sapcloud.io" "MachineClass" "small" 5 30 3 5 4 5 [("Frozen", "True")] (Some [mkF "m-1" "aws:///i-1" "Failed" "Create" "pool-a"]).
Definition k_set2 := mkSO (mkMeta "pool-b" "shoot" 1600000001) "machine.sapcloud.io" "MachineClass" "big" 1 0 1 1 1 1 [] None.
Definition k_none : Reg := fun _ => None.
Example C99_sets_case : apart s_meta [k_set; k_set2] /\ exists r', collectSets (Some [k_set; k_set2]) k_none = Shown r' (Some 2) false /\
  r' ("MachineSetInfoSpecReplicas", ["pool-a"; "shoot"]) = Some 5 /\ r' ("MachineSetInfoSpecReplicas", ["pool-b"; "shoot"]) = Some 1 /\
  r' ("MachineSetStatusCondition", ["pool-a"; "shoot"; "Frozen"]) = Some 1 /\
  r' ("MachineSetStatusFailedMachines", ["pool-a"; "shoot"; "m-1"; "aws:///i-1"; "pool-a"; "Failed"; "Create"]) = Some 1.
Proof.
  split; [repeat constructor; cbn; intuition discriminate|]. eexists. split; [apply (sets_after [_; _])|]. repeat split; vm_compute; reflexivity.
Qed.

(** C99: likewise for deployments, unless one of them breaks the scrape. *)
Theorem C99_deployments : forall l r, apart d_meta l -> (forall d, In d l -> ~ incomplete d) ->
  exists r', collectDeps (Some l) r = Shown r' (Some (Z.of_nat (List.length l))) false /\
  forall d, In d l ->
    shows r' "MachineDeploymentInfo" (of (d_meta d) ++ [FormatInt (o_created (d_meta d)); d_type d]) 1 /\
    (d_paused d = true -> shows r' "MachineDeploymentInfoSpecPaused" (of (d_meta d)) 1) /\
    (d_paused d = false -> shows r' "MachineDeploymentInfoSpecPaused" (of (d_meta d)) 0) /\
    shows r' "MachineDeploymentInfoSpecReplicas" (of (d_meta d)) (d_replicas d) /\
    shows r' "MachineDeploymentInfoSpecMinReadySeconds" (of (d_meta d)) (d_minReady d) /\
    (forall v, d_history d = Some v -> shows r' "MachineDeploymentInfoSpecRevisionHistoryLimit" (of (d_meta d)) v) /\
    (forall v, d_deadline d = Some v -> shows r' "MachineDeploymentInfoSpecProgressDeadlineSeconds" (of (d_meta d)) v) /\
    (forall v, d_rollback d = Some v -> shows r' "MachineDeploymentInfoSpecRollbackToRevision" (of (d_meta d)) v) /\
    (forall a b, d_type d = "RollingUpdate" -> d_rolling d = Some (Some (INum a), Some b) -> shows r' "MachineDeploymentInfoSpecRollingUpdateMaxSurge" (of (d_meta d)) a) /\
    (forall a b, d_type d = "RollingUpdate" -> d_rolling d = Some (Some a, Some (INum b)) -> shows r' "MachineDeploymentInfoSpecRollingUpdateMaxUnavailable" (of (d_meta d)) b) /\
    shows r' "MachineDeploymentStatusAvailableReplicas" (of (d_meta d)) (d_avail d) /\
    shows r' "MachineDeploymentStatusUnavailableReplicas" (of (d_meta d)) (d_unavail d) /\
    shows r' "MachineDeploymentStatusReadyReplicas" (of (d_meta d)) (d_ready d) /\
    shows r' "MachineDeploymentStatusUpdatedReplicas" (of (d_meta d)) (d_updated d) /\
    shows r' "MachineDeploymentStatusReplicas" (of (d_meta d)) (d_stReplicas d) /\
    (forall v, d_collisions d = Some v -> shows r' "MachineDeploymentStatusCollisionCount" (of (d_meta d)) v) /\
    (forall t st v, conds_apart (d_conds d) -> In (t, st) (d_conds d) -> statusNumber st v -> shows r' "MachineDeploymentStatusCondition" (of (d_meta d) ++ [t]) v) /\
    (forall f, In f (d_failed d) -> shows r' "MachineDeploymentStatusFailedMachines" (failedLabels (d_meta d) f) 1).
Proof.
  intros l r N C. destruct (collectDeps (Some l) r) as [|r' n f] eqn:H.
  { apply crash_iff in H as (d & I & K). destruct (C d I K). }
  destruct (deps_shown _ _ _ _ _ H) as (E & -> & -> & _). exists r'. split; [reflexivity|]. intros d I.
  assert (DC : exists cs, depCalls d = Some cs) by (destruct (depCalls d) eqn:Q; [eauto | apply incomplete_iff in Q; destruct (C d I Q)]). destruct DC as (cs & DC).
  assert (X : forall c k v, In c cs -> keyed c k v -> conds_apart (d_conds d) \/ fst k <> "MachineDeploymentStatusCondition" -> r' k = Some v).
  { intros c k v J K U. assert (SC : sc d = cs) by (unfold sc; rewrite DC; reflexivity).
    apply (objects_show _ d_meta sc sc_kinds l r r' d c k v N E I); [rewrite SC; exact J | exact K|].
    intros c' v' J' K'. rewrite SC in J'. apply (dep_uniq d cs c k v c' v'); assumption. }
  unfold shows.
  assert (D : forall g v, declared g = ["name"; "namespace"] -> In (g, two (d_meta d), v) cs -> g <> "MachineDeploymentStatusCondition" -> r' (g, of (d_meta d)) = Some v).
  { intros g v Dg J G. apply (X _ _ _ J); [apply k_two; auto | right; exact G]. }
  unfold depCalls in DC. destruct (depSpecCalls d) as [sp|] eqn:SP; [|discriminate].
  assert (Ecs : cs = depInfoCalls d ++ sp ++ depStatusCalls d) by (cbn [option_map] in DC; congruence).
  assert (S : forall c, In c sp -> In c cs) by (intros c J; rewrite Ecs, !in_app_iff; auto).
  assert (T : forall c, In c (depStatusCalls d) -> In c cs) by (intros c J; rewrite Ecs, !in_app_iff; auto).
  assert (F : exists mid rest, sp = [("MachineDeploymentInfoSpecPaused", two (d_meta d), if d_paused d then 1 else 0); ("MachineDeploymentInfoSpecReplicas", two (d_meta d), d_replicas d);
                ("MachineDeploymentInfoSpecMinReadySeconds", two (d_meta d), d_minReady d)] ++ mid ++ rest /\
    (forall a b, d_type d = "RollingUpdate" -> d_rolling d = Some (Some a, Some b) -> mid = [("MachineDeploymentInfoSpecRollingUpdateMaxSurge", two (d_meta d), IntValue a);
                        ("MachineDeploymentInfoSpecRollingUpdateMaxUnavailable", two (d_meta d), IntValue b)]) /\
    forall c, In c rest <-> (exists z, d_history d = Some z /\ c = ("MachineDeploymentInfoSpecRevisionHistoryLimit", two (d_meta d), z)) \/
       (exists z, d_deadline d = Some z /\ c = ("MachineDeploymentInfoSpecProgressDeadlineSeconds", two (d_meta d), z)) \/
       (exists z, d_rollback d = Some z /\ c = ("MachineDeploymentInfoSpecRollbackToRevision", two (d_meta d), z))).
  { unfold depSpecCalls in SP. cbv zeta in SP. destruct (String.eqb_spec (d_type d) "RollingUpdate") as [R|R].
    - destruct (d_rolling d) as [([a|], [b|])|] eqn:Q; try discriminate SP. eexists [_; _], _. split; [symmetry; injection SP as SP; exact SP|].
      split; [intros a' b' _ [= <- <-]; reflexivity|]. intros c. rewrite !in_app_iff, !opt_in. reflexivity.
    - eexists [], _. split; [symmetry; injection SP as SP; exact SP|].
      split; [intros a' b' K; contradiction|]. intros c. rewrite !in_app_iff, !opt_in. reflexivity. }
  destruct F as (mid & rest & Esp & M & R).
  assert (First : forall c, In c [("MachineDeploymentInfoSpecPaused", two (d_meta d), if d_paused d then 1 else 0); ("MachineDeploymentInfoSpecReplicas", two (d_meta d), d_replicas d);
                ("MachineDeploymentInfoSpecMinReadySeconds", two (d_meta d), d_minReady d)] -> In c cs) by (intros c J; apply S; rewrite Esp; apply in_or_app; left; exact J).
  assert (Mid : forall c, In c mid -> In c cs) by (intros c J; apply S; rewrite Esp; apply in_or_app; right; apply in_or_app; left; exact J).
  assert (Rest : forall c, In c rest -> In c cs) by (intros c J; apply S; rewrite Esp; apply in_or_app; right; apply in_or_app; right; exact J).
  assert (Last : forall c, In c [("MachineDeploymentStatusAvailableReplicas", two (d_meta d), d_avail d); ("MachineDeploymentStatusUnavailableReplicas", two (d_meta d), d_unavail d);
   ("MachineDeploymentStatusReadyReplicas", two (d_meta d), d_ready d); ("MachineDeploymentStatusUpdatedReplicas", two (d_meta d), d_updated d);
   ("MachineDeploymentStatusReplicas", two (d_meta d), d_stReplicas d)] -> In c cs).
  { intros c J. apply T. unfold depStatusCalls. cbv zeta. apply in_or_app. right. apply in_or_app. right. apply in_or_app. left. exact J. }
  split; [apply (X (hd ("", [], 0) (depInfoCalls d))); [rewrite Ecs; left; reflexivity | apply k_depInfo; auto | right; discriminate]|].
  split; [intros P; apply D; [reflexivity | apply First; rewrite P; left; reflexivity | discriminate]|].
  split; [intros P; apply D; [reflexivity | apply First; rewrite P; left; reflexivity | discriminate]|].
  split; [apply D; [reflexivity | apply First; right; left; reflexivity | discriminate]|].
  split; [apply D; [reflexivity | apply First; right; right; left; reflexivity | discriminate]|].
  split; [intros v V; apply D; [reflexivity | apply Rest, R; eauto | discriminate]|].
  split; [intros v V; apply D; [reflexivity | apply Rest, R; eauto | discriminate]|].
  split; [intros v V; apply D; [reflexivity | apply Rest, R; eauto | discriminate]|].
  split; [intros a b Ty V; apply D; [reflexivity | apply Mid; rewrite (M _ _ Ty V); left; reflexivity | discriminate]|].
  split; [intros a b Ty V; apply D; [reflexivity | apply Mid; rewrite (M _ _ Ty V); right; left; reflexivity | discriminate]|].
  split; [apply D; [reflexivity | apply Last; left; reflexivity | discriminate]|].
  split; [apply D; [reflexivity | apply Last; right; left; reflexivity | discriminate]|].
  split; [apply D; [reflexivity | apply Last; right; right; left; reflexivity | discriminate]|].
  split; [apply D; [reflexivity | apply Last; right; right; right; left; reflexivity | discriminate]|].
  split; [apply D; [reflexivity | apply Last; right; right; right; right; left; reflexivity | discriminate]|].
  split; [intros v V; apply D; [reflexivity | apply T; unfold depStatusCalls; cbv zeta; rewrite V, !in_app_iff; right; right; right; left; reflexivity | discriminate]|].
  split.
  - intros t st v Ca J V. apply (X ("MachineDeploymentStatusCondition", two (d_meta d) ++ [("condition", t)], condValue st)).
    + apply T. unfold depStatusCalls. cbv zeta. rewrite !in_app_iff. left. apply (in_map (fun c => ("MachineDeploymentStatusCondition", two (d_meta d) ++ [("condition", fst c)], condValue (snd c))) _ (t, st) J).
    + apply k_cond; [reflexivity|]. rewrite (cond_number _ _ V). auto.
    + left. exact Ca.
  - intros f J. apply (X (failedCall "MachineDeploymentStatusFailedMachines" (d_meta d) f)).
    + apply T. unfold depStatusCalls. cbv zeta. rewrite !in_app_iff. right. left. apply (in_map (failedCall "MachineDeploymentStatusFailedMachines" (d_meta d)) _ f J).
    + apply k_failed; auto.
    + right. discriminate.
Qed.
Print Assumptions C99_deployments.

Definition k_dep (rolling : option (option IoS * option IoS)) : DepO :=
  mkDO k_meta true 5 30 "RollingUpdate" rolling (Some 2) None None 3 2 4 1 5 (Some 1) [("Progressing", "Unknown")] [mkF "m-1" "aws:///i-1" "Failed" "Create" "pool-a"].
Example C99_deployments_case : let d := k_dep (Some (Some (INum 2), Some (INum 1))) in
  apart d_meta [d] /\ ~ incomplete d /\ exists r', collectDeps (Some [d]) k_none = Shown r' (Some 1) false /\
  r' ("MachineDeploymentInfoSpecPaused", ["pool-a"; "shoot"]) = Some 1 /\ r' ("MachineDeploymentInfoSpecRollingUpdateMaxSurge", ["pool-a"; "shoot"]) = Some 2 /\
  r' ("MachineDeploymentStatusCondition", ["pool-a"; "shoot"; "Progressing"]) = Some 2 /\ r' ("MachineDeploymentInfoSpecProgressDeadlineSeconds", ["pool-a"; "shoot"]) = None.
Proof.
  cbv zeta. split; [repeat constructor; cbn; tauto|]. split; [intros (_ & K); exact (K _ _ eq_refl)|]. eexists. split; [apply (deps_after [_]); intros d [<-|[]] (_ & K); exact (K _ _ eq_refl)|]. repeat split; vm_compute; reflexivity.
Qed.

(** C99: a scrape of deployments panics exactly when one of them asks for rolling updates and does not
    say both by how many. *)
Theorem C99_crash : forall l r, collectDeps (Some l) r = Crash <-> exists d, In d l /\ incomplete d.
Proof. exact crash_iff. Qed.
Print Assumptions C99_crash.
(** C99 (what the code does instead): such a deployment is enough, and every later scrape panics too,
    however many other deployments there are. *)
Theorem C99_crash_refuted : exists d, d_type d = "RollingUpdate" /\ d_rolling d = Some (Some (INum 1), None) /\ forall before after r, collectDeps (Some (before ++ d :: after)) r = Crash.
Proof.
  exists (k_dep (Some (Some (INum 1), None))). split; [reflexivity|]. split; [reflexivity|]. intros before after r. apply crash_iff. eexists. split; [apply in_or_app; right; left; reflexivity|].
  split; [reflexivity | discriminate].
Qed.
Print Assumptions C99_crash_refuted.

(** C99: after a scrape of the machines every machine shows its phase and its conditions. *)
Theorem C99_machines : forall l r, apart m_meta l -> exists r', collectMachines (Some l) r = Shown r' (Some (Z.of_nat (List.length l))) false /\
  forall m, In m l ->
    shows r' "MachineInfo" (of (m_meta m) ++ [FormatInt (o_created (m_meta m)); m_pid m; m_group m; m_kind m; m_class m]) 1 /\
    (forall v, phaseNumber (m_phase m) v -> shows r' "MachineCSPhase" (of (m_meta m)) v) /\
    (forall t st v, conds_apart (m_conds m) -> In (t, st) (m_conds m) -> statusNumber st v -> shows r' "MachineStatusCondition" (of (m_meta m) ++ [t]) v).
Proof.
  intros l r N. destruct (objects_some _ m_meta macCalls mac_kinds l r) as (r' & E). exists r'. split; [cbn [collectMachines]; rewrite E; reflexivity|].
  intros m I.
  assert (X : forall c k v, In c (macCalls m) -> keyed c k v -> conds_apart (m_conds m) \/ fst k <> "MachineStatusCondition" -> r' k = Some v).
  { intros c k v J K U. apply (objects_show _ m_meta macCalls mac_kinds l r r' m c k v N E I J K). intros c' v' J' K'. apply (mac_uniq m c k v c' v'); assumption. }
  unfold shows. split; [|split].
  - apply (X _ _ _ (or_introl eq_refl)); [apply k_macInfo; auto | right; discriminate].
  - intros v V. apply (X ("MachineCSPhase", two (m_meta m), phaseValue (m_phase m))).
    + unfold macCalls. rewrite !in_app_iff. right. right. left. reflexivity.
    + apply k_two; [reflexivity|]. rewrite (phase_number _ _ V). auto.
    + right. discriminate.
  - intros t st v C J V. apply (X ("MachineStatusCondition", two (m_meta m) ++ [("condition", t)], condValue st)).
    + unfold macCalls. rewrite !in_app_iff. right. left. apply (in_map (fun c => ("MachineStatusCondition", two (m_meta m) ++ [("condition", fst c)], condValue (snd c))) _ (t, st) J).
    + apply k_cond; [reflexivity|]. rewrite (cond_number _ _ V). auto.
    + left. exact C.
Qed.
Print Assumptions C99_machines.
Definition k_mac (phase : string) : MacO := mkMcO (mkMeta "m-1" "shoot" 1600000000) "aws:///i-1" "machine.sapcloud.io" "MachineClass" "small" phase [("Ready", "False"); ("DiskPressure", "Unknown")].
Example C99_machines_case : exists r', collectMachines (Some [k_mac "Failed"]) k_none = Shown r' (Some 1) false /\
  r' ("MachineCSPhase", ["m-1"; "shoot"]) = Some (-3) /\ r' ("MachineStatusCondition", ["m-1"; "shoot"; "DiskPressure"]) = Some 2.
Proof. eexists. split; [apply (machines_after [_])|]. split; vm_compute; reflexivity. Qed.

(** C99: a scrape leaves the series of all other objects as they are, and after a failed list call it
    changes nothing and says so. *)
Theorem C99_others : forall r r' n f k,
  (forall l, collectSets (Some l) r = Shown r' n f -> (forall o rest, In o l -> snd k <> of (s_meta o) ++ rest) -> r' k = r k) /\
  (forall l, collectDeps (Some l) r = Shown r' n f -> (forall o rest, In o l -> snd k <> of (d_meta o) ++ rest) -> r' k = r k) /\
  (forall l, collectMachines (Some l) r = Shown r' n f -> (forall o rest, In o l -> snd k <> of (m_meta o) ++ rest) -> r' k = r k).
Proof.
  intros r r' n f k. split; [|split]; intros l H O.
  - cbn [collectSets] in H. destruct (setAll _ r) as [x|] eqn:E; [|discriminate]. injection H as <- _ _.
    apply (objects_rest _ s_meta setCalls set_kinds l r x k E). intros o I rest. apply O, I.
  - destruct (deps_shown _ _ _ _ _ H) as (E & _). apply (objects_rest _ d_meta sc sc_kinds l r r' k E). intros o I rest. apply O, I.
  - cbn [collectMachines] in H. destruct (setAll _ r) as [x|] eqn:E; [|discriminate]. injection H as <- _ _.
    apply (objects_rest _ m_meta macCalls mac_kinds l r x k E). intros o I rest. apply O, I.
Qed.
Print Assumptions C99_others.
Theorem C99_list_failure : forall r, collectSets None r = Shown r None true /\ collectDeps None r = Shown r None true /\ collectMachines None r = Shown r None true.
Proof. intros r. repeat split. Qed.
Print Assumptions C99_list_failure.

(** C99 (what the code does instead): nothing ever takes a series away. What a set showed when it was
    deleted it shows for as long as the process lives. *)
Fixpoint scrapes (ls : list (list SetO)) (r : Reg) : option Reg :=
  match ls with
  | [] => Some r
  | l :: ls => match collectSets (Some l) r with Shown r' _ _ => scrapes ls r' | Crash => None end
  end.
Definition k_set' := mkSO k_meta "machine.sapcloud.io" "MachineClass" "small" 5 30 5 5 5 5 [] None.
Definition k_mac0 : MacO := mkMcO (mkMeta "m-1" "shoot" 1600000000) "" "machine.sapcloud.io" "MachineClass" "small" "" [].
Theorem C99_stale_series_refuted :
  (forall ls r k v, r k = Some v -> (forall l o rest, In l ls -> In o l -> snd k <> of (s_meta o) ++ rest) -> exists r', scrapes ls r = Some r' /\ r' k = Some v) /\
  (exists r1 r2, collectSets (Some [k_set]) k_none = Shown r1 (Some 1) false /\ collectSets (Some []) r1 = Shown r2 (Some 0) false /\
    r2 ("MachineSetStatusReadyReplicas", ["pool-a"; "shoot"]) = Some 4) /\
  (exists r1 r2 s', s_failed s' = None /\ s_meta s' = s_meta k_set /\ collectSets (Some [k_set]) k_none = Shown r1 (Some 1) false /\ collectSets (Some [s']) r1 = Shown r2 (Some 1) false /\
    r2 ("MachineSetStatusFailedMachines", ["pool-a"; "shoot"; "m-1"; "aws:///i-1"; "pool-a"; "Failed"; "Create"]) = Some 1) /\
  (exists r1 r2 m m', m_pid m = "" /\ m_pid m' = "aws:///i-1" /\ m_meta m = m_meta m' /\ collectMachines (Some [m]) k_none = Shown r1 (Some 1) false /\ collectMachines (Some [m']) r1 = Shown r2 (Some 1) false /\
    r2 ("MachineInfo", ["m-1"; "shoot"; "1600000000"; ""; "machine.sapcloud.io"; "MachineClass"; "small"]) = Some 1 /\
    r2 ("MachineInfo", ["m-1"; "shoot"; "1600000000"; "aws:///i-1"; "machine.sapcloud.io"; "MachineClass"; "small"]) = Some 1).
Proof.
  split; [|split; [|split]].
  - intros ls. induction ls as [|l ls IH]; intros r k v H O; [exists r; split; [reflexivity | exact H]|]. cbn [scrapes].
    destruct (objects_some _ s_meta setCalls set_kinds l r) as (r' & E). unfold collectSets. rewrite E. apply IH; [|intros l' o rest I; apply O; right; exact I].
    rewrite (objects_rest _ s_meta setCalls set_kinds l r r' k E); [exact H|]. intros o I rest. apply (O l); [left; reflexivity | exact I].
  - exists (after (collectSets (Some [k_set]) k_none)), (after (collectSets (Some []) (after (collectSets (Some [k_set]) k_none)))).
    split; [apply (sets_after [k_set])|]. split; [apply (sets_after [])|]. vm_compute. reflexivity.
  - exists (after (collectSets (Some [k_set]) k_none)), (after (collectSets (Some [k_set']) (after (collectSets (Some [k_set]) k_none)))), k_set'.
    split; [reflexivity|]. split; [reflexivity|]. split; [apply (sets_after [k_set])|]. split; [apply (sets_after [k_set'])|]. vm_compute. reflexivity.
  - exists (after (collectMachines (Some [k_mac0]) k_none)), (after (collectMachines (Some [k_mac "Running"]) (after (collectMachines (Some [k_mac0]) k_none)))), k_mac0, (k_mac "Running").
    split; [reflexivity|]. split; [reflexivity|]. split; [reflexivity|]. split; [apply (machines_after [k_mac0])|]. split; [apply (machines_after [k_mac "Running"])|]. split; vm_compute; reflexivity.
Qed.
Print Assumptions C99_stale_series_refuted.

(** C99 (what the code does instead): the gauge of a set's replicas shows its ready replicas. *)
Theorem C99_replicas_refuted : (forall l r, apart s_meta l -> exists r', collectSets (Some l) r = Shown r' (Some (Z.of_nat (List.length l))) false /\
    forall s, In s l -> shows r' "MachineSetStatusReplicas" (of (s_meta s)) (s_ready s)) /\
  (exists r', collectSets (Some [k_set]) k_none = Shown r' (Some 1) false /\ s_stReplicas k_set = 5 /\ shows r' "MachineSetStatusReplicas" (of (s_meta k_set)) 4).
Proof.
  split.
  - intros l r N. destruct (objects_some _ s_meta setCalls set_kinds l r) as (r' & E). exists r'. split; [cbn [collectSets]; rewrite E; reflexivity|]. intros s I.
    apply (objects_show _ s_meta setCalls set_kinds l r r' s ("MachineSetStatusReplicas", two (s_meta s), s_ready s) _ _ N E I).
    + unfold setCalls, setStatusCalls. rewrite !in_app_iff. right. right. right. right. right. right. right. left. reflexivity.
    + apply k_two; auto.
    + intros c' v' J' K'. apply (set_one s ("MachineSetStatusReplicas", two (s_meta s), s_ready s) ("MachineSetStatusReplicas", of (s_meta s)) _ c' v').
      * unfold setCalls, setStatusCalls. rewrite !in_app_iff. right. right. right. right. right. right. right. left. reflexivity.
      * apply k_two; auto.
      * exact J'.
      * exact K'.
      * right. discriminate.
  - eexists. split; [apply (sets_after [k_set])|]. split; [reflexivity | vm_compute; reflexivity].
Qed.
Print Assumptions C99_replicas_refuted.

(** C99 (what the code does instead): percentages are shown as 0. *)
Theorem C99_percent_refuted : exists r', collectDeps (Some [k_dep (Some (Some (IText "25%"), Some (IText "50%")))]) k_none = Shown r' (Some 1) false /\
  shows r' "MachineDeploymentInfoSpecRollingUpdateMaxSurge" ["pool-a"; "shoot"] 0 /\ shows r' "MachineDeploymentInfoSpecRollingUpdateMaxUnavailable" ["pool-a"; "shoot"] 0.
Proof.
  eexists. split; [apply deps_after; intros d [<-|[]] (_ & K); exact (K _ _ eq_refl)|]. split; vm_compute; reflexivity.
Qed.
Print Assumptions C99_percent_refuted.

(** C99 (what the code does instead): phases beyond the six are shown as if pending. *)
Theorem C99_phase_refuted : forall p, In p [""; "Available"; "InPlaceUpdating"; "InPlaceUpdateSuccessful"; "InPlaceUpdateFailed"] ->
  exists r', collectMachines (Some [k_mac p]) k_none = Shown r' (Some 1) false /\ shows r' "MachineCSPhase" ["m-1"; "shoot"] 0 /\ phaseNumber "Pending" 0.
Proof.
  intros p I. cbn [In] in I. repeat (destruct I as [<-|I]; [eexists; split; [apply (machines_after [_])|]; split; [vm_compute; reflexivity | constructor]|]). destruct I.
Qed.
Print Assumptions C99_phase_refuted.

(** C99: the counter of removed stale machines loses none and counts none twice: what is exported and
    what waits add up to the removals, a scrape exports all of them, and the counter never falls. *)
Theorem C99_counter : forall l,
  (let s := fold_left cstep l (0, 0) in 0 <= fst s /\ fst s + snd s = removed l) /\
  snd (fold_left cstep (l ++ [ScrapeNow]) (0, 0)) = removed l /\
  forall l', snd (fold_left cstep l (0, 0)) <= snd (fold_left cstep (l ++ l') (0, 0)).
Proof.
  assert (P : forall l s, 0 <= fst s -> 0 <= fst (fold_left cstep l s) /\ snd s <= snd (fold_left cstep l s)).
  { induction l as [|o l IH]; intros s H; [cbn; lia|]. cbn [fold_left]. destruct (IH (cstep s o)) as (A & B).
    - destruct o as [ok p t|]; cbn [cstep]; [destruct (ok && _)%bool; cbn; lia | cbn; lia].
    - split; [exact A|]. eapply Z.le_trans; [|exact B]. destruct o as [ok p t|]; cbn [cstep]; [destruct (ok && _)%bool; cbn; lia | cbn; lia]. }
  intros l. assert (C := counter l (0, 0)). cbn [fst snd] in C. split; [|split].
  - cbv zeta. split; [apply P; cbn; lia | lia].
  - rewrite fold_left_app. cbn [fold_left cstep snd]. lia.
  - intros l'. rewrite fold_left_app. apply P. apply P. cbn. lia.
Qed.
Print Assumptions C99_counter.
Example C99_counter_case : let l := [Deleted true "Failed" "HealthCheck"; ScrapeNow; Deleted false "Failed" "HealthCheck"; Deleted true "Failed" "Create"; Deleted true "Failed" "HealthCheck"] in
  fold_left cstep l (0, 0) = (1, 1) /\ removed l = 2.
Proof. split; reflexivity. Qed.

(** C99: the gauge of the freeze is 1 exactly while the controller is frozen. *)
Theorem C99_frozen : forall b, frozenValue b = 1 <-> b = true.
Proof. intros []; cbn; split; congruence. Qed.
Print Assumptions C99_frozen.
