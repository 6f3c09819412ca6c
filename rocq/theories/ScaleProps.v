(** Properties C06, C07, C09, C12: scaling and history clean-up. *)
Require Import Coq.ZArith.ZArith Coq.Lists.List Coq.Strings.String Coq.Bool.Bool.
Require Import Coq.Sorting.Permutation Coq.micromega.Lia Coq.micromega.ZifyBool.
From Verif Require Import Types Sort RolloutModel RolloutSpec RolloutRun RolloutProofs ScaleModel ScaleSpec ScaleProofs.
Import ListNotations.
Open Scope Z_scope.

(** C06, if the recorded sizes are at least the new allowed size and no product
    exceeds int32: nothing grows or becomes negative, every set but the largest
    keeps its proportional share rounded to nearest, and the sum is the allowed
    size unless the largest set is already at zero. Missing: the last exception
    and the two conditions; see the refutations. *)
Theorem C06_scale_down_partial : forall d s u surge newIS olds,
  md_strategy d = RollingUpdate s u -> good_budget s -> good_budget u -> 0 <= md_replicas d ->
  is_surge s (md_replicas d) surge ->
  let act := active_sets newIS olds in
  let allowed := if md_replicas d =? 0 then 0 else md_replicas d + surge in
  (2 <= List.length act)%nat -> ~ saturated d newIS -> allowed < requested act ->
  (0 < md_replicas d ->
     Forall (fun s => md_replicas d + surge <= recorded_max d s /\ ms_spec s * (md_replicas d + surge) < 2147483648) act) ->
  exists largest rest, scale d newIS olds = Some (largest :: rest) /\
  Permutation (map fst (largest :: rest)) act /\
  Forall (fun p => 0 <= snd p <= ms_spec (fst p)) (largest :: rest) /\
  Forall (fun p => ms_spec (fst p) <= ms_spec (fst largest)) rest /\
  (sum snd (largest :: rest) = allowed \/ allowed < sum snd (largest :: rest) /\ snd largest = 0) /\
  (0 < md_replicas d ->
     Forall (fun p => 2 * ms_spec (fst p) * (md_replicas d + surge) - recorded_max d (fst p)
                      <= 2 * recorded_max d (fst p) * snd p) rest).
Proof. exact c06_lemma. Qed.
Print Assumptions C06_scale_down_partial.

(** C06 and C07: whatever the sizes and the recorded sizes, the shares together never overstep
    what there is to distribute, in either direction. *)
Theorem C06_shares : forall d toAdd l sizes total,
  scaleMachineSetsProportionally d toAdd 0 l = Some (sizes, total) ->
  List.length sizes = List.length l /\ total = fold_right Z.add 0 sizes - fold_right Z.add 0 (map ms_spec l) /\
  (0 <= toAdd -> total <= toAdd) /\ (toAdd <= 0 -> toAdd <= total).
Proof.
  intros d toAdd l sizes total H.
  enough (G : forall l added sizes total, scaleMachineSetsProportionally d toAdd added l = Some (sizes, total) ->
    List.length sizes = List.length l /\ total = added + fold_right Z.add 0 sizes - fold_right Z.add 0 (map ms_spec l) /\
    (0 <= toAdd -> added <= toAdd -> total <= toAdd) /\ (toAdd <= 0 -> toAdd <= added -> toAdd <= total)).
  { destruct (G _ _ _ _ H) as (A & B & C & D). repeat split; [exact A|lia|intros; apply C; lia|intros; apply D; lia]. }
  clear. induction l as [|s l IH]; intros added sizes total H; cbn [scaleMachineSetsProportionally] in H.
  - injection H as <- <-. cbn. repeat split; intros; lia.
  - destruct (if toAdd =? 0 then Some 0 else GetProportion d s toAdd added) as [p|] eqn:P; [|discriminate].
    destruct (scaleMachineSetsProportionally d toAdd (added + p) l) as [(sz & a)|] eqn:R; [|discriminate]. injection H as <- <-.
    destruct (IH _ _ _ R) as (A & B & C & D). cbn [List.length map fold_right].
    assert (Q : p = 0 \/ (0 < toAdd /\ p <= toAdd - added) \/ (toAdd < 0 /\ toAdd - added <= p)).
    { destruct (Z.eqb_spec toAdd 0); [injection P as <-; auto|]. unfold GetProportion in P.
      destruct (_ || _); [injection P as <-; auto|]. destruct (getMachineSetFraction d s) as [f|]; [|discriminate]. injection P as <-.
      destruct (Z.gtb_spec toAdd 0); right; [left|right]; lia. }
    repeat split; [lia|lia|intros; apply C; lia|intros; apply D; lia].
Qed.
Print Assumptions C06_shares.

Definition sc_md (replicas surge : Z) := mkMD replicas (RollingUpdate (Some (IOSInt surge)) (Some (IOSInt 1))) None 10.
Definition sc_ms (name : string) (t spec max : Z) :=
  mkMS name t false 1 1 spec spec spec spec (AnnInt (max - 3)) (AnnInt max).

(** 13 machines in sets of 8 and 5, scaled from 10 to 5 replicas: 8 allowed, kept as 5 and 3. *)
Example C06_case : option_map (map snd) (scale (sc_md 5 3) (Some (sc_ms "new" 2 5 13)) [sc_ms "old" 1 8 13]) = Some [5; 3].
Proof. vm_compute. reflexivity. Qed.

(** Five machines fewer: the first share would be 3.07, the second is held to what is left. *)
(** C06: the product that is divided is an int32: the number that differs from it by a multiple
    of 2^32 and lies in the range of the type. *)
Theorem C06_int32 : forall z, (exists k, wrap32 z = z + k * 2 ^ 32) /\ - 2 ^ 31 <= wrap32 z < 2 ^ 31.
Proof.
  intros z. unfold wrap32. change (2 ^ 32) with 4294967296. change (2 ^ 31) with 2147483648. split.
  - exists (- ((z + 2147483648) / 4294967296)). pose proof (Z.div_mod (z + 2147483648) 4294967296). lia.
  - pose proof (Z.mod_pos_bound (z + 2147483648) 4294967296). lia.
Qed.
Print Assumptions C06_int32.

Example C06_int32_case : wrap32 (65536 * 40000) = -1673527296 /\ wrap32 7 = 7.
Proof. split; reflexivity. Qed.

Example C06_shares_case :
  scaleMachineSetsProportionally (sc_md 5 3) (-5) 0 [sc_ms "old" 1 8 13; sc_ms "new" 2 5 13] = Some ([5; 3], -5) /\
  scaleMachineSetsProportionally (sc_md 5 3) (-4) 0 [sc_ms "old" 1 8 13; sc_ms "new" 2 5 13] = Some ([5; 4], -4) /\
  scaleMachineSetsProportionally (sc_md 15 3) 4 0 [sc_ms "old" 1 8 13; sc_ms "new" 2 5 13] = Some ([11; 6], 4).
Proof. vm_compute. auto. Qed.

(** C06 fails: four sets of one machine each, recorded size 4, scaled to 2
    replicas without surge. Every share of one half rounds up; three machines stay. *)
Theorem C06_scale_down_refuted : exists d s u newIS olds plan,
  md_strategy d = RollingUpdate s u /\ is_surge s (md_replicas d) 0 /\ ~ saturated d newIS /\
  Forall (fun s => recorded_max d s = requested (active_sets newIS olds)) (active_sets newIS olds) /\
  md_replicas d < requested (active_sets newIS olds) /\
  scale d newIS olds = Some plan /\ md_replicas d < sum snd plan.
Proof.
  exists (sc_md 2 0), (Some (IOSInt 0)), (Some (IOSInt 1)), (Some (sc_ms "d" 4 1 4)),
    [sc_ms "a" 1 1 4; sc_ms "b" 2 1 4; sc_ms "c" 3 1 4].
  eexists. repeat split; try (vm_compute; congruence).
  - intros (n & H & H1 & _). injection H as <-. vm_compute in H1. discriminate.
  - repeat constructor.
Qed.
Print Assumptions C06_scale_down_refuted.

(** C06 fails if a recorded size is stale (an earlier scaling stopped after an
    API error): scaling down makes the old set grow from 10 to 15. *)
Theorem C06_stale_record_grows_refuted : exists d s u newIS olds plan p,
  md_strategy d = RollingUpdate s u /\ is_surge s (md_replicas d) 3 /\ ~ saturated d newIS /\
  md_replicas d + 3 < requested (active_sets newIS olds) /\
  scale d newIS olds = Some plan /\ In p plan /\ ms_spec (fst p) < snd p.
Proof.
  exists (sc_md 17 3), (Some (IOSInt 3)), (Some (IOSInt 1)), (Some (sc_ms "new" 2 13 23)), [sc_ms "old" 1 10 13].
  eexists _, (sc_ms "old" 1 10 13, 15).
  split; [reflexivity|]. split; [reflexivity|]. split.
  { intros (n & H & H1 & _). injection H as <-. vm_compute in H1. discriminate. }
  split; [vm_compute; reflexivity|]. split; [vm_compute; reflexivity|]. split; [|vm_compute; reflexivity].
  vm_compute. right; left; reflexivity.
Qed.
Print Assumptions C06_stale_record_grows_refuted.

(** C06 fails for very large sets: the product of two int32 numbers overflows and
    a set's requested size becomes negative. *)
Theorem C06_overflow_refuted : exists d s u newIS olds plan p,
  md_strategy d = RollingUpdate s u /\ is_surge s (md_replicas d) 0 /\ ~ saturated d newIS /\
  Forall (fun s => recorded_max d s = requested (active_sets newIS olds)) (active_sets newIS olds) /\
  scale d newIS olds = Some plan /\ In p plan /\ snd p < 0.
Proof.
  exists (sc_md 22000 0), (Some (IOSInt 0)), (Some (IOSInt 1)), (Some (sc_ms "new" 3 100000 300000)),
    [sc_ms "a" 1 100000 300000; sc_ms "b" 2 100000 300000].
  eexists _, (sc_ms "b" 2 100000 300000, -6983).
  split; [reflexivity|]. split; [reflexivity|]. split.
  { intros (n & H & H1 & _). injection H as <-. vm_compute in H1. discriminate. }
  split; [repeat constructor|]. split; [vm_compute; reflexivity|]. split; [|].
  - vm_compute. right; left; reflexivity.
  - vm_compute. reflexivity.
Qed.
Print Assumptions C06_overflow_refuted.

(** C07, mid-rollout scale-up: the old sets keep their size; the newest set
    grows by exactly what is missing to replicas+surge. Missing: "never more
    than replicas", refuted below. *)
Theorem C07_scale_up_partial : forall d s u surge newIS olds,
  md_strategy d = RollingUpdate s u -> good_budget s -> good_budget u -> 0 < md_replicas d ->
  is_surge s (md_replicas d) surge ->
  let act := active_sets newIS olds in
  (2 <= List.length act)%nat -> ~ saturated d newIS -> requested act <= md_replicas d + surge ->
  (forall n, newIS = Some n -> 0 <= ms_spec n) ->
  exists plan, scale d newIS olds = Some plan /\ Permutation (map fst plan) act /\
  Forall (fun p => match newIS with
                   | Some n => if String.eqb (ms_name (fst p)) (ms_name n)
                               then snd p = ms_spec n + (md_replicas d + surge - requested act)
                               else snd p = ms_spec (fst p)
                   | None => snd p = ms_spec (fst p) end) plan.
Proof. exact scale_up_lemma. Qed.
Print Assumptions C07_scale_up_partial.

Example C07_case : option_map (map (fun p => (ms_name (fst p), snd p)))
  (scale (sc_md 10 3) (Some (sc_ms "new" 2 3 8)) [sc_ms "old" 1 5 8]) = Some [("old"%string, 5); ("new"%string, 8)].
Proof. vm_compute. reflexivity. Qed.

(** C07: the newest set may be asked for more machines than replicas. *)
Theorem C07_scale_up_refuted : exists d s u n olds plan p,
  md_strategy d = RollingUpdate s u /\ is_surge s (md_replicas d) 3 /\ ~ saturated d (Some n) /\
  ms_spec n <= md_replicas d /\
  scale d (Some n) olds = Some plan /\ In p plan /\ fst p = n /\ md_replicas d < snd p.
Proof.
  exists (sc_md 10 3), (Some (IOSInt 3)), (Some (IOSInt 1)), (sc_ms "new" 2 8 12), [sc_ms "old" 1 1 12].
  eexists _, (sc_ms "new" 2 8 12, 12).
  split; [reflexivity|]. split; [reflexivity|]. split.
  { intros (n & H & H1 & _). injection H as <-. vm_compute in H1. discriminate. }
  split; [vm_compute; congruence|]. split; [vm_compute; reflexivity|]. split; [|split; [reflexivity|vm_compute; reflexivity]].
  vm_compute. right; left; reflexivity.
Qed.
Print Assumptions C07_scale_up_refuted.

(** C07: once the newest set is saturated, exactly the old sets that still
    request machines go to zero. *)
Theorem C07_saturated : forall d newIS olds,
  (2 <= List.length (active_sets newIS olds))%nat -> saturated d newIS ->
  exists plan, scale d newIS olds = Some plan /\
    Permutation plan (map (fun s => (s, 0)) (active_sets None olds)).
Proof. exact saturated_lemma. Qed.
Print Assumptions C07_saturated.

Example C07_saturated_case : option_map (map (fun p => (ms_name (fst p), snd p)))
  (scale (sc_md 10 3) (Some (sc_ms "new" 3 10 13)) [sc_ms "a" 1 2 13; sc_ms "b" 2 1 13]) = Some [("b"%string, 0); ("a"%string, 0)].
Proof. vm_compute. reflexivity. Qed.

(** C07: with one active set, that one gets the size; with none, the newest. *)
Theorem C07_single : forall d newIS olds,
  (forall s, active_sets newIS olds = [s] -> scale d newIS olds = Some [(s, md_replicas d)]) /\
  (forall n, newIS = Some n -> active_sets newIS olds = [] -> scale d newIS olds = Some [(n, md_replicas d)]).
Proof. split; intros; [apply one_active; assumption|subst; apply none_active_new; assumption]. Qed.
Print Assumptions C07_single.

Example C07_single_case : option_map (map (fun p => (ms_name (fst p), snd p)))
  (scale (sc_md 4 3) (Some (sc_ms "new" 3 0 13)) [sc_ms "a" 1 2 13; sc_ms "b" 2 0 13]) = Some [("a"%string, 4)].
Proof. vm_compute. reflexivity. Qed.

(** C12: the deleted sets are exactly the unused ones among the oldest, beyond
    the [limit] newest, of the sets not already being deleted. *)
Theorem C12_cleanup : forall d limit olds,
  md_historyLimit d = Some limit -> 0 <= limit ->
  exists dels older newer, cleanupMachineDeployment d olds = Some dels /\
    Permutation (older ++ newer) (kept_history olds) /\
    Z.of_nat (List.length newer) = Z.min limit (Z.of_nat (List.length (kept_history olds))) /\
    (forall o n, In o older -> In n newer -> ms_ctime o <= ms_ctime n) /\
    dels = filter unused older.
Proof. exact cleanup_lemma. Qed.
Print Assumptions C12_cleanup.

Theorem C12_cleanup_safe : forall d olds dels x,
  cleanupMachineDeployment d olds = Some dels -> In x dels ->
  In x olds /\ ms_spec x = 0 /\ ms_status x = 0 /\ ms_gen x <= ms_obsgen x /\ ms_deleting x = false /\
  md_historyLimit d <> None.
Proof.
  intros d olds dels x H Hx. destruct (cleanup_only_unused d olds dels x H Hx) as (A & B).
  unfold unused in B. rewrite !andb_true_iff, !Z.eqb_eq, Z.leb_le, negb_true_iff in B.
  repeat split; try tauto. intro E. unfold cleanupMachineDeployment in H. rewrite E in H. injection H as <-. destruct Hx.
Qed.
Print Assumptions C12_cleanup_safe.

Definition hist (name : string) (t spec : Z) (del : bool) := mkMS name t del 1 1 spec spec spec spec AnnMissing AnnMissing.

(** Five old sets, one being deleted, one in use, limit 1: two of the three oldest go. *)
Example C12_case : option_map (map ms_name) (cleanupMachineDeployment (mkMD 3 Recreate (Some 1) 3)
  [hist "e" 5 0 false; hist "a" 1 0 false; hist "b" 2 4 false; hist "c" 3 0 true; hist "d" 4 0 false])
  = Some ["a"%string; "d"%string].
Proof. vm_compute. reflexivity. Qed.

(** C12: a negative limit, which nothing rejects, makes the controller panic as
    soon as there is an old set, or none at all. *)
Theorem C12_negative_limit_refuted : forall d limit olds,
  md_historyLimit d = Some limit -> limit < 0 -> cleanupMachineDeployment d olds = None.
Proof.
  intros d limit olds H Hl. unfold cleanupMachineDeployment. rewrite H. cbv zeta.
  set (c := filter _ olds). destruct (_ <=? 0) eqn:E; [apply Z.leb_le in E|].
  - exfalso. pose proof (Zle_0_nat (List.length c)). apply (Z.lt_irrefl 0).
    apply Z.lt_le_trans with (- limit); [apply Z.opp_pos_neg; exact Hl|].
    apply Z.le_trans with (Z.of_nat (List.length c) - limit); [|exact E].
    unfold Z.sub. rewrite <- (Z.add_0_l (- limit)) at 1. apply Z.add_le_mono_r. assumption.
  - match goal with |- context [?a <? ?b] => destruct (a <? b) eqn:E2 end; [reflexivity|].
    apply Z.ltb_ge in E2. exfalso. apply (Z.lt_irrefl (Z.of_nat (List.length c))).
    apply Z.lt_le_trans with (Z.of_nat (List.length c) - limit); [|exact E2].
    unfold Z.sub. rewrite <- (Z.add_0_r (Z.of_nat (List.length c))) at 1. apply Z.add_lt_mono_l. apply Z.opp_pos_neg; exact Hl.
Qed.
Print Assumptions C12_negative_limit_refuted.

Example C12_negative_case : md_historyLimit (mkMD 3 Recreate (Some (-1)) 3) = Some (-1) /\ -1 < 0.
Proof. split; reflexivity. Qed.

(** C09: whatever a paused reconcile asks for is a new size of an existing set or
    the deletion of an unused old set; in particular no new set. *)
Theorem C09_paused : forall d newIS olds calls c,
  syncPaused d newIS olds = Some calls -> In c calls ->
  (exists s n, c = Resize s n /\ In s (all_sets newIS olds)) \/
  (exists s, c = Delete s /\ In s olds /\ unused s = true).
Proof. exact paused_lemma. Qed.
Print Assumptions C09_paused.

Example C09_case : option_map (map (fun c => match c with Resize s n => (ms_name s, n) | Delete s => (ms_name s, -1) | CreateSet _ => (""%string, -2) end))
  (syncPaused (mkMD 4 Recreate (Some 0) 3) None [hist "a" 1 2 false; hist "b" 2 0 false]) = Some [("a"%string, 4); ("b"%string, -1)].
Proof. vm_compute. reflexivity. Qed.

(** A stronger reading of C09 fails: pausing in the middle of a rolling update
    does not freeze it. Replicas unchanged, yet the newest set grows until the
    surge is used up. *)
Theorem C09_pause_freezes_refuted : exists d n olds calls k,
  (exists s u, md_strategy d = RollingUpdate s u /\ good_budget s /\ good_budget u) /\
  Forall (fun s => ms_desired s = AnnInt (md_replicas d)) (n :: olds) /\
  syncPaused d (Some n) olds = Some calls /\ In (Resize n k) calls /\ ms_spec n < k.
Proof.
  exists (sc_md 10 3), (sc_ms "new" 2 3 13), [sc_ms "old" 1 8 13].
  eexists _, 5. split; [exists (Some (IOSInt 3)), (Some (IOSInt 1)); vm_compute; repeat split; congruence|].
  split; [repeat constructor|]. split; [vm_compute; reflexivity|]. split; [|vm_compute; reflexivity].
  vm_compute. right; left; reflexivity.
Qed.
Print Assumptions C09_pause_freezes_refuted.
