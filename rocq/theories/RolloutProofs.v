Require Import Coq.ZArith.ZArith Coq.Lists.List Coq.Strings.String Coq.Bool.Bool Coq.micromega.Lia.
Require Import Coq.Sorting.Permutation.
From Verif Require Import Types Sort RolloutModel RolloutSpec RolloutRun.
Import ListNotations.
Open Scope Z_scope.
Require Import Coq.micromega.ZifyBool.
Ltac Zify.zify_post_hook ::= Z.div_mod_to_equations.

Lemma sum_app : forall A (f : A -> Z) l m, sum f (l ++ m) = sum f l + sum f m.
Proof. intros; unfold sum; induction l; simpl; lia. Qed.

Lemma sum_perm : forall A (f : A -> Z) l m, Permutation l m -> sum f l = sum f m.
Proof. intros A f l m H; induction H; unfold sum in *; simpl in *; lia. Qed.

Lemma sum_nonneg : forall A (f : A -> Z) l, Forall (fun x => 0 <= f x) l -> 0 <= sum f l.
Proof. intros A f l H; induction H; unfold sum in *; simpl in *; lia. Qed.

Lemma sum_le : forall A (f g : A -> Z) l, Forall (fun x => f x <= g x) l -> sum f l <= sum g l.
Proof. intros A f g l H; induction H; unfold sum in *; simpl in *; lia. Qed.

Lemma sum_eq : forall A (f g : A -> Z) l, Forall (fun x => f x = g x) l -> sum f l = sum g l.
Proof. intros A f g l H; induction H; unfold sum in *; simpl in *; lia. Qed.

Lemma count_spec : forall l, GetReplicaCountForMachineSets l = requested l.
Proof. induction l; simpl; [reflexivity|]. rewrite IHl. reflexivity. Qed.

Lemma count_avail : forall l, GetAvailableReplicaCountForMachineSets l = available l.
Proof. induction l; simpl; [reflexivity|]. rewrite IHl. reflexivity. Qed.

Lemma count_actual : forall l, GetActualReplicaCountForMachineSets l = sum ms_status l.
Proof. induction l; simpl; [reflexivity|]. rewrite IHl. reflexivity. Qed.

(** *** C01 *)
Lemma resolve_budget : forall s u n, good_budget s -> good_budget u -> 0 <= n ->
  exists surge x, is_surge s n surge /\ is_unavail u n x /\ 0 <= surge /\ 0 <= x /\
    ResolveFenceposts s u n = Some (surge, if (surge =? 0) && (x =? 0) then 1 else x).
Proof.
  intros s u n Hs Hu Hn. unfold ResolveFenceposts.
  destruct s as [[z|p|]|]; try contradiction; destruct u as [[z'|p'|]|]; try contradiction;
    cbn [GetValueFromIntOrPercent good_budget is_surge is_unavail] in *.
  - exists z, z'. repeat split; try assumption.
    destruct ((z =? 0) && (z' =? 0)); reflexivity.
  - exists z, (p' * n / 100). repeat split; try lia; try nia.
    destruct ((z =? 0) && (p' * n / 100 =? 0)); reflexivity.
  - exists (- (- (p * n) / 100)), z'. repeat split; try lia; try nia.
    destruct ((- (- (p * n) / 100) =? 0) && (z' =? 0)); reflexivity.
  - exists (- (- (p * n) / 100)), (p' * n / 100). repeat split; try lia; try nia.
    destruct ((- (- (p * n) / 100) =? 0) && (p' * n / 100 =? 0)); reflexivity.
Qed.

Lemma budget_props : forall d s u,
  md_strategy d = RollingUpdate s u -> good_budget s -> good_budget u -> 0 < md_replicas d ->
  is_budget s u (md_replicas d) (MaxSurge d) (MaxUnavailable d) /\
  0 <= MaxSurge d /\ 0 <= MaxUnavailable d <= md_replicas d /\ 0 < MaxSurge d + MaxUnavailable d.
Proof.
  intros d s u Hd Hs Hu Hn.
  destruct (resolve_budget s u (md_replicas d) Hs Hu ltac:(lia)) as (a & x & H1 & H2 & H3 & H4 & H5).
  unfold MaxSurge, MaxUnavailable. rewrite Hd, H5.
  destruct (md_replicas d =? 0) eqn:E0; [lia|]. cbn beta iota zeta. clear H5.
  split.
  - exists x. split; [assumption|split; [assumption|]].
    destruct ((a =? 0) && (x =? 0)) eqn:E; destruct (_ >? _) eqn:E2; lia.
  - destruct ((a =? 0) && (x =? 0)) eqn:E; destruct (_ >? _) eqn:E2; lia.
Qed.

(** Uniqueness: a resolved budget is determined by the configuration. *)
Lemma is_surge_fun : forall v n x y, is_surge v n x -> is_surge v n y -> x = y.
Proof. intros [[z|p|]|] n x y; cbn [is_surge is_unavail]; try tauto; intros; lia. Qed.
Lemma is_unavail_fun : forall v n x y, is_unavail v n x -> is_unavail v n y -> x = y.
Proof. intros [[z|p|]|] n x y; cbn [is_surge is_unavail]; try tauto; intros; lia. Qed.

Lemma is_surge_mono_percent : forall p q n x y, p <= q -> 0 <= n ->
  is_surge (Some (IOSPercent p)) n x -> is_surge (Some (IOSPercent q)) n y -> x <= y.
Proof. cbn [is_surge is_unavail]; intros; nia. Qed.
Lemma is_unavail_mono_percent : forall p q n x y, p <= q -> 0 <= n ->
  is_unavail (Some (IOSPercent p)) n x -> is_unavail (Some (IOSPercent q)) n y -> x <= y.
Proof. cbn [is_surge is_unavail]; intros; nia. Qed.

(** *** Facts about one scaling call *)
Lemma scale_spec : forall ok d s n, let r := scaleMachineSetAndRecordEvent ok d s n in
  (sr_err r = false -> ms_spec (sr_ms r) = n) /\
  (sr_err r = true -> sr_ms r = s) /\
  ms_avail (sr_ms r) = ms_avail s /\ ms_status (sr_ms r) = ms_status s /\
  ms_name (sr_ms r) = ms_name s /\ ms_ctime (sr_ms r) = ms_ctime s /\
  same_set (sr_ms r) s.
Proof.
  intros ok d s n r. unfold r, scaleMachineSetAndRecordEvent, same_set.
  destruct (ms_spec s =? n) eqn:E; [|destruct ok]; simpl; repeat split; try congruence; try lia.
Qed.

(** *** C03 *)
Lemma new_replicas_bounds : forall d s u allISs n r,
  md_strategy d = RollingUpdate s u -> n <= md_replicas d ->
  NewISNewReplicas d allISs n = Some r -> n <= r <= md_replicas d.
Proof.
  intros d s u allISs n r Hd Hn. unfold NewISNewReplicas. rewrite Hd.
  destruct (GetValueFromIntOrPercent s (md_replicas d) true) as [x|]; [|discriminate].
  cbv zeta. destruct (_ <=? _) eqn:E; intro H; injection H as <-; lia.
Qed.

Lemma reconcile_new_bounds : forall ok d allISs newIS,
  (exists s u, md_strategy d = RollingUpdate s u) \/ md_strategy d = Recreate ->
  let n' := ms_spec (sr_ms (reconcileNewMachineSet ok d allISs newIS)) in
  (ms_spec newIS <= md_replicas d -> ms_spec newIS <= n' <= md_replicas d) /\
  (md_replicas d < ms_spec newIS -> n' = md_replicas d \/ (ok = false /\ n' = ms_spec newIS)).
Proof.
  intros ok d allISs newIS Hst n'. unfold n', reconcileNewMachineSet.
  destruct (ms_spec newIS =? md_replicas d) eqn:E1; [simpl; lia|].
  destruct (ms_spec newIS >? md_replicas d) eqn:E2.
  - unfold scaleMachineSetAndRecordEvent. rewrite E1. destruct ok; simpl; lia.
  - destruct (NewISNewReplicas d allISs (ms_spec newIS)) as [r|] eqn:E3; [|simpl; lia].
    assert (ms_spec newIS <= r <= md_replicas d) as Hr.
    { destruct Hst as [(s & u & Hd)|Hd].
      - eapply new_replicas_bounds; eauto. lia.
      - unfold NewISNewReplicas in E3. rewrite Hd in E3. injection E3 as <-. lia. }
    unfold scaleMachineSetAndRecordEvent. destruct (_ =? r) eqn:E4; [simpl; lia|].
    destruct ok; simpl; lia.
Qed.

(** *** C02 *)
Lemma reconcile_new_surge : forall ok d s u surge olds newIS,
  md_strategy d = RollingUpdate s u -> is_surge s (md_replicas d) surge ->
  Forall (fun x => ms_spec x <= ms_status x) (newIS :: olds) ->
  let r := reconcileNewMachineSet ok d (olds ++ [newIS]) newIS in
  requested (sr_ms r :: olds) <= Z.max (requested (newIS :: olds)) (md_replicas d + surge).
Proof.
  intros ok d s u surge olds newIS Hd Hs Hst r.
  assert (GetValueFromIntOrPercent s (md_replicas d) true = Some surge) as Hg.
  { destruct s as [[z|p|]|]; cbn [is_surge GetValueFromIntOrPercent] in *; try contradiction; f_equal; lia. }
  assert (requested (newIS :: olds) <= GetActualReplicaCountForMachineSets (olds ++ [newIS])) as Hle.
  { rewrite count_actual, sum_app. unfold requested.
    pose proof (sum_le _ ms_spec ms_status _ Hst). unfold sum in *; simpl in *; lia. }
  subst r; unfold reconcileNewMachineSet, requested in *.
  destruct (ms_spec newIS =? md_replicas d) eqn:E1; [simpl; lia|].
  destruct (ms_spec newIS >? md_replicas d) eqn:E2.
  - unfold scaleMachineSetAndRecordEvent. rewrite E1. destruct ok; unfold sum in *; simpl in *; lia.
  - unfold NewISNewReplicas. rewrite Hd, Hg. cbv zeta.
    destruct (_ <=? GetActualReplicaCountForMachineSets _) eqn:E3.
    + unfold scaleMachineSetAndRecordEvent. rewrite Z.eqb_refl. simpl; lia.
    + unfold scaleMachineSetAndRecordEvent. match goal with |- context [?a =? ?b] => destruct (a =? b) eqn:E4 end; [simpl; lia|].
      destruct ok; unfold sum in *; simpl in *; lia.
Qed.

(** *** Loops over the old sets *)
Definition nonneg_specs (l : list MachineSet) := Forall (fun s => 0 <= ms_spec s /\ 0 <= ms_avail s) l.

Definition rel (a b : MachineSet) : Prop :=
  same_set a b /\ 0 <= ms_spec a <= ms_spec b /\ 0 <= ms_avail a.

Lemma rel_refl : forall s, 0 <= ms_spec s /\ 0 <= ms_avail s -> rel s s.
Proof. intros; unfold rel, same_set; repeat split; lia. Qed.

Lemma Forall2_rel_refl : forall l, nonneg_specs l -> Forall2 rel l l.
Proof. intros l H; induction H; constructor; auto using rel_refl. Qed.

Lemma cleanup_loop_spec : forall ok d maxC l total l' c e,
  nonneg_specs l -> 0 <= total ->
  cleanupLoop ok d maxC total l = (l', c, e) ->
  Forall2 (fun a b => rel a b /\ (Z.min (ms_avail b) (ms_spec b) <= Z.min (ms_avail a) (ms_spec a))) l' l /\
  (e = false -> 
     (total <= maxC -> total <= c <= maxC) /\ c - total = requested l - requested l').
Proof.
  intros ok d maxC l. induction l as [|t rest IH]; intros total l' c e Hn Ht H; cbn [cleanupLoop] in H.
  - injection H as <- <- <-. split; [constructor|intros _; simpl; lia].
  - inversion Hn as [|? ? Hn1 Hn2]; subst.
    assert (forall x, 0 <= ms_spec x /\ 0 <= ms_avail x -> rel x x /\ Z.min (ms_avail x) (ms_spec x) <= Z.min (ms_avail x) (ms_spec x)) as Hr.
    { intros; split; [apply rel_refl; assumption|lia]. }
    assert (Forall2 (fun a b => rel a b /\ (Z.min (ms_avail b) (ms_spec b) <= Z.min (ms_avail a) (ms_spec a))) (t :: rest) (t :: rest)) as Hrefl.
    { clear -Hn Hr. induction Hn; constructor; auto. }
    destruct (maxC <=? total) eqn:E1.
    { injection H as <- <- <-. split; [exact Hrefl|intros _; lia]. }
    destruct (ms_spec t =? 0) eqn:E2; [|destruct (ms_spec t =? ms_avail t) eqn:E3].
    + destruct (cleanupLoop ok d maxC total rest) as [[r' c'] e'] eqn:ER. injection H as <- <- <-.
      destruct (IH _ _ _ _ Hn2 Ht ER) as (A & B). split.
      * constructor; auto.
      * intros He; specialize (B He); unfold requested, sum in *; simpl; lia.
    + destruct (cleanupLoop ok d maxC total rest) as [[r' c'] e'] eqn:ER. injection H as <- <- <-.
      destruct (IH _ _ _ _ Hn2 Ht ER) as (A & B). split.
      * constructor; auto.
      * intros He; specialize (B He); unfold requested, sum in *; simpl; lia.
    + cbv zeta in H. destruct (_ >? ms_spec t) eqn:E4.
      { injection H as <- <- <-. split; [exact Hrefl|discriminate]. }
      destruct (scale_spec (ok t) d t (ms_spec t - Z.min (maxC - total) (ms_spec t - ms_avail t)))
        as (S1 & S2 & S3 & S4 & S5 & S6 & S7).
      destruct (sr_err _) eqn:E5.
      { injection H as <- <- <-. split; [exact Hrefl|discriminate]. }
      specialize (S1 eq_refl).
      destruct (cleanupLoop ok d maxC (total + _) rest) as [[r' c'] e'] eqn:ER. injection H as <- <- <-.
      assert (0 <= total + Z.min (maxC - total) (ms_spec t - ms_avail t)) as Hp by lia.
      destruct (IH _ _ _ _ Hn2 Hp ER) as (A & B). split.
      * constructor; [|exact A]. unfold rel. rewrite S1, S3. split; [split; [exact S7|]|]; rewrite ?S1, ?S3; lia.
      * intros He. specialize (B He). unfold requested, sum in *; simpl in *. lia.
Qed.

Lemma scale_down_loop_spec : forall ok d budget l total l' c e,
  nonneg_specs l -> 0 <= total ->
  scaleDownLoop ok d budget total l = (l', c, e) ->
  Forall2 rel l' l /\
  (total <= budget -> requested l - requested l' <= budget - total) /\
  (e = false -> c - total = requested l - requested l').
Proof.
  intros ok d budget l. induction l as [|t rest IH]; intros total l' c e Hn Ht H; cbn [scaleDownLoop] in H.
  - injection H as <- <- <-. simpl. repeat split; [constructor|lia|lia].
  - pose proof (Forall2_rel_refl _ Hn) as Hrefl.
    inversion Hn as [|? ? Hn1 Hn2]; subst.
    destruct (budget <=? total) eqn:E1.
    { injection H as <- <- <-. repeat split; [exact Hrefl|lia|lia]. }
    destruct (ms_spec t =? 0) eqn:E2.
    + destruct (scaleDownLoop ok d budget total rest) as [[r' c'] e'] eqn:ER. injection H as <- <- <-.
      destruct (IH _ _ _ _ Hn2 Ht ER) as (A & B & C).
      repeat split; [constructor; auto using rel_refl| |]; intros; unfold requested, sum in *; simpl in *; lia.
    + cbv zeta in H. destruct (_ >? ms_spec t) eqn:E4.
      { injection H as <- <- <-. repeat split; [exact Hrefl|lia|discriminate]. }
      destruct (scale_spec (ok t) d t (ms_spec t - Z.min (ms_spec t) (budget - total)))
        as (S1 & S2 & S3 & S4 & S5 & S6 & S7).
      destruct (sr_err _) eqn:E5.
      { injection H as <- <- <-. repeat split; [exact Hrefl|lia|discriminate]. }
      specialize (S1 eq_refl).
      destruct (scaleDownLoop ok d budget (total + _) rest) as [[r' c'] e'] eqn:ER. injection H as <- <- <-.
      assert (0 <= total + Z.min (ms_spec t) (budget - total)) as Hp by lia.
      destruct (IH _ _ _ _ Hn2 Hp ER) as (A & B & C).
      repeat split.
      * constructor; [|exact A]. unfold rel. rewrite S1, S3. split; [exact S7|]; lia.
      * intros. unfold requested, sum in *; simpl in *. lia.
      * intros He. specialize (C He). unfold requested, sum in *; simpl in *. lia.
Qed.

Lemma rel_avail_sum : forall l' l, Forall2 rel l' l -> available l' = available l.
Proof.
  intros l' l H; induction H as [|a b l' l Hab H IH]; [reflexivity|].
  unfold available, sum in *; simpl. destruct Hab as ((_ & _ & _ & Ha & _) & _). lia.
Qed.

Lemma rel_nonneg : forall l' l, Forall2 rel l' l -> nonneg_specs l'.
Proof. intros l' l H; induction H; constructor; auto. unfold rel in *; lia. Qed.

Lemma rel_trans : forall a b c, rel a b -> rel b c -> rel a c.
Proof.
  unfold rel, same_set; intros a b c (A & B) (C & D).
  destruct A as (?&?&?&?&?&?), C as (?&?&?&?&?&?). repeat split; try congruence; lia.
Qed.

Lemma Forall2_rel_trans : forall l1 l2 l3, Forall2 rel l1 l2 -> Forall2 rel l2 l3 -> Forall2 rel l1 l3.
Proof.
  intros l1 l2 l3 H; revert l3; induction H; intros l3 H3; inversion H3; subst; constructor; eauto using rel_trans.
Qed.

(** Two lists related up to order. *)
Definition relp (l' l : list MachineSet) : Prop := exists m, Permutation m l /\ Forall2 rel l' m.

Lemma Forall2_perm : forall A B (R : A -> B -> Prop) l m, Forall2 R l m ->
  forall l1, Permutation l l1 -> exists m1, Permutation m m1 /\ Forall2 R l1 m1.
Proof.
  intros A B R l m H l1 HP. revert m H. induction HP; intros m H.
  - inversion H; subst. exists []. split; constructor.
  - inversion H; subst. destruct (IHHP _ H4) as (m1 & P & F). exists (y :: m1). split; constructor; auto.
  - inversion H; subst. inversion H4; subst. exists (y1 :: y0 :: l'0). split; [constructor|repeat constructor; auto].
  - destruct (IHHP1 _ H) as (m1 & P1 & F1). destruct (IHHP2 _ F1) as (m2 & P2 & F2).
    exists m2. split; [eapply perm_trans; eauto|auto].
Qed.

Lemma relp_trans : forall l1 l2 l3, relp l1 l2 -> relp l2 l3 -> relp l1 l3.
Proof.
  intros l1 l2 l3 (m & P & F) (m' & P' & F').
  destruct (Forall2_perm _ _ _ _ _ F' m (Permutation_sym P)) as (m1 & P1 & F1).
  exists m1. split; [eapply perm_trans; [apply Permutation_sym; exact P1|exact P']|].
  eapply Forall2_rel_trans; eauto.
Qed.

Lemma nonneg_perm : forall l m, Permutation l m -> nonneg_specs l -> nonneg_specs m.
Proof. unfold nonneg_specs; intros. eapply Permutation_Forall; eauto. Qed.

Lemma kept_drop : forall l' l, Forall2 rel l' l ->
  sum kept l - sum kept l' <= requested l - requested l'.
Proof.
  intros l' l H; induction H as [|a b l' l Hab H IH]; [simpl; lia|].
  unfold requested, sum in *; simpl. destruct Hab as ((_ & _ & _ & Ha & _) & Hb). unfold kept in *. lia.
Qed.

Lemma kept_cleanup : forall l' l,
  Forall2 (fun a b => rel a b /\ (Z.min (ms_avail b) (ms_spec b) <= Z.min (ms_avail a) (ms_spec a))) l' l ->
  sum kept l <= sum kept l'.
Proof.
  intros l' l H; induction H as [|a b l' l Hab H IH]; [simpl; lia|].
  unfold sum in *; simpl. unfold kept in *. lia.
Qed.

Lemma F2_weaken : forall (A B : Type) (P Q : A -> B -> Prop) l m, (forall a b, P a b -> Q a b) -> Forall2 P l m -> Forall2 Q l m.
Proof. intros A B P Q l m HPQ H; induction H; constructor; auto. Qed.

(** *** C04 for the active sets *)
Lemma reconcile_old_floor : forall okC okD d allISs olds newIS olds' b,
  nonneg_specs olds -> Forall (fun s => ms_avail s <= ms_spec s) olds ->
  reconcileOldMachineSets okC okD d allISs olds newIS = (olds', b) ->
  relp olds' olds /\
  Z.min (md_replicas d - MaxUnavailable d) (available olds + ms_avail newIS) <= sum kept olds' + ms_avail newIS.
Proof.
  intros okC okD d allISs olds newIS olds' b Hn Ha H.
  assert (sum kept olds = available olds) as Hk.
  { apply sum_eq. eapply Forall_impl; [|exact Ha]. unfold kept; simpl; intros; lia. }
  assert (relp olds olds) as Hrefl.
  { exists olds. split; [reflexivity|apply Forall2_rel_refl; assumption]. }
  unfold reconcileOldMachineSets in H.
  destruct (GetReplicaCountForMachineSets olds =? 0).
  { injection H as <- <-. split; [exact Hrefl|lia]. }
  cbv zeta in H.
  destruct (_ <=? 0) eqn:E1.
  { injection H as <- <-. split; [exact Hrefl|lia]. }
  unfold cleanupUnhealthyReplicas in H.
  destruct (cleanupLoop okC d _ 0 (isort byCreation olds)) as [[o1 c1] e1] eqn:EC.
  pose proof (isort_perm byCreation olds) as HP.
  destruct (cleanup_loop_spec _ _ _ _ _ _ _ _ (nonneg_perm _ _ HP Hn) (Z.le_refl 0) EC) as (A & _).
  assert (relp o1 olds) as R1.
  { exists (isort byCreation olds). split; [apply Permutation_sym; exact HP|].
    eapply F2_weaken; [|exact A]. simpl; tauto. }
  assert (sum kept olds <= sum kept o1) as K1.
  { rewrite (sum_perm _ kept _ _ HP). apply kept_cleanup; exact A. }
  destruct e1.
  { injection H as <- <-. split; [exact R1|lia]. }
  assert (nonneg_specs o1) as Hn1. { destruct R1 as (m & _ & F). eapply rel_nonneg; eauto. }
  assert (available o1 = available olds) as HA1.
  { destruct R1 as (m & P & F). rewrite (rel_avail_sum _ _ F). apply sum_perm; exact P. }
  unfold scaleDownOld in H. cbv zeta in H.
  rewrite count_avail in H.
  assert (available (o1 ++ [newIS]) = available olds + ms_avail newIS) as HA2.
  { unfold available in *. rewrite sum_app. simpl. lia. }
  rewrite HA2 in H.
  destruct (_ <=? md_replicas d - MaxUnavailable d) eqn:E2.
  { injection H as <- <-. split; [exact R1|lia]. }
  destruct (scaleDownLoop okD d _ 0 (isort byCreation o1)) as [[o2 c2] e2] eqn:ED.
  pose proof (isort_perm byCreation o1) as HP1.
  destruct (scale_down_loop_spec _ _ _ _ _ _ _ _ (nonneg_perm _ _ HP1 Hn1) (Z.le_refl 0) ED) as (B & C & _).
  specialize (C ltac:(lia)).
  assert (relp o2 olds) as R2.
  { apply relp_trans with o1; [|exact R1]. exists (isort byCreation o1). split; [apply Permutation_sym; exact HP1|exact B]. }
  pose proof (kept_drop _ _ B) as KD.
  rewrite <- (sum_perm _ kept _ _ HP1) in KD.
  destruct e2; injection H as <- <-; (split; [exact R2|lia]).
Qed.

Lemma filter_split_perm : forall A (f : A -> bool) l,
  Permutation l (filter (fun x => negb (f x)) l ++ filter f l).
Proof.
  intros A f l. induction l as [|x l IH]; [constructor|]. simpl.
  destruct (f x); simpl.
  - rewrite <- Permutation_middle. constructor. exact IH.
  - constructor. exact IH.
Qed.

Lemma relp_app : forall a b x, nonneg_specs x -> relp a b -> relp (x ++ a) (x ++ b).
Proof.
  intros a b x Hx (m & P & F). exists (x ++ m). split.
  - apply Permutation_app_head; exact P.
  - apply Forall2_app; [apply Forall2_rel_refl; exact Hx|exact F].
Qed.

Lemma rolling_floor : forall api d newIS olds newIS' olds',
  nonneg_specs olds -> Forall (fun s => 0 <= ms_avail s <= ms_spec s) olds ->
  rolloutRolling api d newIS olds = (newIS', olds') ->
  relp olds' olds /\ same_set newIS' newIS /\
  Z.min (md_replicas d - MaxUnavailable d) (available olds + ms_avail newIS)
    <= sum kept olds' + ms_avail newIS'.
Proof.
  intros api d newIS olds newIS' olds' Hn Ha H. unfold rolloutRolling in H.
  assert (sum kept olds = available olds) as Hk.
  { apply sum_eq. eapply Forall_impl; [|exact Ha]. unfold kept; simpl; intros; lia. }
  assert (relp olds olds) as Hrefl.
  { exists olds. split; [reflexivity|apply Forall2_rel_refl; assumption]. }
  assert (forall s, same_set s s) as Hss by (unfold same_set; repeat split).
  set (r := reconcileNewMachineSet (api_new api) d (olds ++ [newIS]) newIS) in *.
  destruct (sr_err r) eqn:E1.
  { injection H as <- <-. repeat split; auto. lia. }
  destruct (sr_scaled r) eqn:E2.
  { injection H as <- <-.
    assert (same_set (sr_ms r) newIS) as Hs.
    { unfold r, reconcileNewMachineSet. destruct (_ =? _); [simpl; auto|].
      destruct (_ >? _); [apply scale_spec|]. destruct (NewISNewReplicas _ _ _); [apply scale_spec|simpl; auto]. }
    split; [assumption|]. split; [exact Hs|]. destruct Hs as (_ & _ & _ & -> & _). lia. }
  destruct (reconcileOldMachineSets _ _ _ _ _ _) as [o b] eqn:EO.
  injection H as <- <-.
  assert (nonneg_specs (FilterActiveMachineSets olds) /\ nonneg_specs (inactive olds)) as [Hn1 Hn2].
  { unfold nonneg_specs, FilterActiveMachineSets, inactive in *. rewrite !Forall_forall in *.
    split; intros x Hx; apply filter_In in Hx; apply Hn; tauto. }
  assert (Forall (fun s => ms_avail s <= ms_spec s) (FilterActiveMachineSets olds)) as Ha1.
  { rewrite Forall_forall in *. intros x Hx; apply filter_In in Hx. apply Ha; tauto. }
  destruct (reconcile_old_floor _ _ _ _ _ _ _ _ Hn1 Ha1 EO) as (R & F).
  pose proof (filter_split_perm _ (fun s => ms_spec s >? 0) olds) as HP.
  fold (FilterActiveMachineSets olds) in HP. fold (inactive olds) in HP.
  split; [|split; [auto|]].
  - apply relp_trans with (inactive olds ++ FilterActiveMachineSets olds).
    + apply relp_app; assumption.
    + exists (inactive olds ++ FilterActiveMachineSets olds). split; [apply Permutation_sym; exact HP|].
      apply Forall2_rel_refl. unfold nonneg_specs in *. apply Forall_app; split; assumption.
  - assert (available (inactive olds) + available (FilterActiveMachineSets olds) = available olds) as HA.
    { unfold available. rewrite (sum_perm _ ms_avail _ _ HP), sum_app. reflexivity. }
    assert (sum kept (inactive olds) = available (inactive olds)) as HB.
    { apply sum_eq. rewrite Forall_forall in *. intros x Hx. apply filter_In in Hx.
      specialize (Ha x (proj1 Hx)). unfold kept; lia. }
    assert (0 <= available (inactive olds)) as HC.
    { apply sum_nonneg. rewrite Forall_forall in *. intros x Hx. apply filter_In in Hx.
      specialize (Ha x (proj1 Hx)). lia. }
    rewrite sum_app. lia.
Qed.

(** *** C02 for a whole reconcile *)
Lemma relp_requested : forall l' l, relp l' l -> 0 <= requested l' <= requested l.
Proof.
  intros l' l (m & P & F). unfold requested. rewrite <- (sum_perm _ ms_spec _ _ P).
  clear P. induction F as [|a b l' m Hab F IH]; [simpl; lia|].
  unfold sum in *; simpl. unfold rel in Hab. lia.
Qed.

Lemma rolling_old_only_shrink : forall api d newIS olds newIS' olds',
  nonneg_specs olds ->
  rolloutRolling api d newIS olds = (newIS', olds') -> relp olds' olds.
Proof.
  intros api d newIS olds newIS' olds' Hn H. unfold rolloutRolling in H.
  assert (relp olds olds) as Hrefl.
  { exists olds. split; [reflexivity|apply Forall2_rel_refl; assumption]. }
  destruct (sr_err _). { injection H as <- <-; auto. }
  destruct (sr_scaled _). { injection H as <- <-; auto. }
  destruct (reconcileOldMachineSets _ _ _ _ _ _) as [o b] eqn:EO.
  injection H as <- <-.
  assert (nonneg_specs (FilterActiveMachineSets olds) /\ nonneg_specs (inactive olds)) as [Hn1 Hn2].
  { unfold nonneg_specs, FilterActiveMachineSets, inactive in *. rewrite !Forall_forall in *.
    split; intros x Hx; apply filter_In in Hx; apply Hn; tauto. }
  pose proof (filter_split_perm _ (fun s => ms_spec s >? 0) olds) as HP.
  fold (FilterActiveMachineSets olds) in HP. fold (inactive olds) in HP.
  apply relp_trans with (inactive olds ++ FilterActiveMachineSets olds).
  2:{ exists (inactive olds ++ FilterActiveMachineSets olds). split; [apply Permutation_sym; exact HP|].
      apply Forall2_rel_refl. unfold nonneg_specs in *. apply Forall_app; split; assumption. }
  apply relp_app; [assumption|].
  generalize dependent (FilterActiveMachineSets olds). clear -Hn2. intros l EO Hn HP.
  assert (relp l l) as Hrefl.
  { exists l. split; [reflexivity|apply Forall2_rel_refl; assumption]. }
  unfold reconcileOldMachineSets in EO.
  destruct (GetReplicaCountForMachineSets l =? 0). { injection EO as <- <-; auto. }
  cbv zeta in EO. destruct (_ <=? 0). { injection EO as <- <-; auto. }
  unfold cleanupUnhealthyReplicas in EO.
  destruct (cleanupLoop _ d _ 0 (isort byCreation l)) as [[o1 c1] e1] eqn:EC.
  pose proof (isort_perm byCreation l) as HP'.
  destruct (cleanup_loop_spec _ _ _ _ _ _ _ _ (nonneg_perm _ _ HP' Hn) (Z.le_refl 0) EC) as (A & _).
  assert (relp o1 l) as R1.
  { exists (isort byCreation l). split; [apply Permutation_sym; exact HP'|].
    eapply F2_weaken; [|exact A]. simpl; tauto. }
  destruct e1. { injection EO as <- <-; auto. }
  assert (nonneg_specs o1) as Hn1.
  { destruct R1 as (m & _ & F). eapply rel_nonneg; eauto. }
  unfold scaleDownOld in EO. cbv zeta in EO.
  destruct (_ <=? md_replicas d - MaxUnavailable d). { injection EO as <- <-; auto. }
  destruct (scaleDownLoop _ d _ 0 (isort byCreation o1)) as [[o2 c2] e2] eqn:ED.
  pose proof (isort_perm byCreation o1) as HP1.
  destruct (scale_down_loop_spec _ _ _ _ _ _ _ _ (nonneg_perm _ _ HP1 Hn1) (Z.le_refl 0) ED) as (B & _).
  assert (relp o2 l) as R2.
  { apply relp_trans with o1; [|exact R1]. exists (isort byCreation o1). split; [apply Permutation_sym; exact HP1|exact B]. }
  destruct e2; injection EO as <- <-; auto.
Qed.

Lemma rolling_new_cases : forall api d newIS olds newIS' olds',
  rolloutRolling api d newIS olds = (newIS', olds') ->
  newIS' = sr_ms (reconcileNewMachineSet (api_new api) d (olds ++ [newIS]) newIS) /\
  (newIS' = newIS \/ olds' = olds).
Proof.
  intros api d newIS olds newIS' olds' H. unfold rolloutRolling in H.
  assert (forall ok d l s, sr_scaled (reconcileNewMachineSet ok d l s) = false ->
            sr_ms (reconcileNewMachineSet ok d l s) = s) as Hid.
  { intros ok d0 l s. unfold reconcileNewMachineSet.
    destruct (_ =? _); [reflexivity|]. unfold scaleMachineSetAndRecordEvent.
    destruct (_ >? _).
    - destruct (_ =? _); [reflexivity|]. destruct ok; simpl; congruence.
    - destruct (NewISNewReplicas _ _ _); [|reflexivity].
      destruct (_ =? _); [reflexivity|]. destruct ok; simpl; congruence. }
  assert (forall ok d l s, sr_err (reconcileNewMachineSet ok d l s) = true ->
            sr_ms (reconcileNewMachineSet ok d l s) = s) as Hid2.
  { intros ok d0 l s. unfold reconcileNewMachineSet.
    destruct (_ =? _); [reflexivity|]. unfold scaleMachineSetAndRecordEvent.
    destruct (_ >? _).
    - destruct (_ =? _); [reflexivity|]. destruct ok; simpl; congruence.
    - destruct (NewISNewReplicas _ _ _); [|reflexivity].
      destruct (_ =? _); [reflexivity|]. destruct ok; simpl; congruence. }
  destruct (sr_err _) eqn:E1.
  { injection H as <- <-. split; [symmetry; apply Hid2; assumption|auto]. }
  destruct (sr_scaled _) eqn:E2.
  { injection H as <- <-. auto. }
  destruct (reconcileOldMachineSets _ _ _ _ _ _) as [o b] eqn:EO.
  injection H as <- <-. split; [symmetry; apply Hid; assumption|auto].
Qed.

Lemma rolling_surge : forall api d s u surge newIS olds newIS' olds',
  md_strategy d = RollingUpdate s u -> is_surge s (md_replicas d) surge ->
  nonneg_specs olds ->
  Forall (fun x => ms_spec x <= ms_status x) (newIS :: olds) ->
  rolloutRolling api d newIS olds = (newIS', olds') ->
  requested (newIS' :: olds') <= Z.max (requested (newIS :: olds)) (md_replicas d + surge).
Proof.
  intros api d s u surge newIS olds newIS' olds' Hd Hs Hn Hst H.
  pose proof (reconcile_new_surge (api_new api) d s u surge olds newIS Hd Hs Hst) as HB. cbv zeta in HB.
  pose proof (rolling_new_cases _ _ _ _ _ _ H) as (H1 & H2). rewrite <- H1 in HB.
  pose proof (relp_requested _ _ (rolling_old_only_shrink _ _ _ _ _ _ Hn H)) as HR.
  unfold requested, sum in *; simpl in *. lia.
Qed.

(** *** C05 *)
Lemma settle_spec : forall s, ms_spec (settle s) = ms_spec s.
Proof. reflexivity. Qed.

Lemma settle_settled : forall s, 0 <= ms_spec s -> settled (settle s).
Proof. intros; unfold settled; simpl; lia. Qed.

Lemma requested_settle : forall l, requested (map settle l) = requested l.
Proof. induction l; unfold requested, sum in *; simpl in *; lia. Qed.

Lemma settled_wf : forall l, Forall settled l -> nonneg_specs l.
Proof. intros l H; eapply Forall_impl; [|exact H]. unfold settled; simpl; intros; lia. Qed.

Lemma cleanup_id : forall ok d maxC l total, Forall settled l ->
  cleanupLoop ok d maxC total l = (l, total, false).
Proof.
  intros ok d maxC l total H. induction H as [|t l Ht H IH]; [reflexivity|].
  cbn [cleanupLoop]. destruct (maxC <=? total); [reflexivity|].
  destruct (ms_spec t =? 0). { rewrite IH. reflexivity. }
  unfold settled in Ht. destruct (ms_spec t =? ms_avail t) eqn:E; [|lia].
  rewrite IH. reflexivity.
Qed.

Lemma scale_down_exact : forall d budget l total,
  Forall (fun s => 0 <= ms_spec s) l -> total <= budget ->
  exists l', scaleDownLoop (fun _ => true) d budget total l = (l', total + Z.min (requested l) (budget - total), false) /\
    requested l' = requested l - Z.min (requested l) (budget - total) /\
    Forall (fun s => 0 <= ms_spec s) l'.
Proof.
  intros d budget l. induction l as [|t rest IH]; intros total Hn Ht; cbn [scaleDownLoop].
  - exists []. unfold requested, sum; simpl. split; [f_equal; f_equal; lia|]. split; [lia|constructor].
  - inversion Hn as [|? ? H1 H2]; subst.
    assert (0 <= requested rest) as Hr by (apply sum_nonneg; assumption).
    assert (requested (t :: rest) = ms_spec t + requested rest) as Hc by reflexivity.
    destruct (budget <=? total) eqn:E1.
    { exists (t :: rest). rewrite Hc. split; [f_equal; f_equal; lia|]. split; [lia|assumption]. }
    destruct (ms_spec t =? 0) eqn:E2.
    { destruct (IH total H2 Ht) as (l' & A & B & C). rewrite A. exists (t :: l'). rewrite Hc.
      split; [f_equal; f_equal; lia|]. split; [|constructor; assumption].
      assert (requested (t :: l') = ms_spec t + requested l') as Hc' by reflexivity. lia. }
    cbv zeta.
    destruct (_ >? ms_spec t) eqn:E3; [lia|].
    unfold scaleMachineSetAndRecordEvent.
    destruct (ms_spec t =? ms_spec t - Z.min (ms_spec t) (budget - total)) eqn:E4; [lia|].
    cbn [sr_err sr_ms].
    destruct (IH (total + Z.min (ms_spec t) (budget - total)) H2 ltac:(lia)) as (l' & A & B & C).
    rewrite A. eexists. rewrite Hc. split; [f_equal; f_equal; lia|]. split.
    + match goal with |- requested (?a :: l') = _ =>
        assert (requested (a :: l') = ms_spec a + requested l') as Hc' by reflexivity end.
      rewrite Hc'. simpl. lia.
    + constructor; [simpl; lia|assumption].
Qed.

Lemma requested_filter : forall l, requested l = requested (inactive l) + requested (FilterActiveMachineSets l).
Proof.
  intros. unfold requested. rewrite (sum_perm _ ms_spec _ _ (filter_split_perm _ (fun s => ms_spec s >? 0) l)), sum_app.
  reflexivity.
Qed.

Lemma requested_inactive : forall l, Forall (fun s => 0 <= ms_spec s) l -> requested (inactive l) = 0.
Proof.
  intros l H. induction H as [|x l Hx H IH]; [reflexivity|].
  unfold inactive in *. simpl. destruct (ms_spec x >? 0) eqn:E; simpl; [exact IH|].
  unfold requested, sum in *; simpl. lia.
Qed.

Lemma old_round : forall d newIS olds,
  settled newIS -> Forall settled olds ->
  exists o b, reconcileOldMachineSets (fun _ => true) (fun _ => true) d (olds ++ [newIS]) (FilterActiveMachineSets olds) newIS = (o, b) /\
    requested o = requested olds -
        Z.max 0 (Z.min (requested olds) (requested olds + ms_spec newIS - (md_replicas d - MaxUnavailable d))) /\
    Forall (fun s => 0 <= ms_spec s) o.
Proof.
  intros d newIS olds Hn Ho.
  assert (Forall (fun s => 0 <= ms_spec s) olds) as Hp.
  { eapply Forall_impl; [|exact Ho]. unfold settled; simpl; intros; lia. }
  pose proof (requested_filter olds) as Hf. rewrite (requested_inactive _ Hp) in Hf.
  set (act := FilterActiveMachineSets olds) in *.
  assert (Forall settled act) as Ha.
  { unfold act. rewrite Forall_forall in *. intros x Hx. apply filter_In in Hx. apply Ho; tauto. }
  assert (Forall (fun s => 0 <= ms_spec s) act) as Hpa.
  { eapply Forall_impl; [|exact Ha]. unfold settled; simpl; intros; lia. }
  assert (0 <= requested act) as Hr by (apply sum_nonneg; assumption).
  unfold reconcileOldMachineSets. rewrite !count_spec.
  destruct (requested act =? 0) eqn:E0.
  { exists act, false. split; [reflexivity|]. split; [lia|assumption]. }
  cbv zeta.
  assert (requested (olds ++ [newIS]) = requested olds + ms_spec newIS) as Hall.
  { unfold requested. rewrite sum_app. unfold sum; simpl; lia. }
  rewrite ?count_spec, Hall. unfold settled in Hn.
  destruct (_ <=? 0) eqn:E1.
  { exists act, false. split; [reflexivity|]. split; [lia|assumption]. }
  unfold cleanupUnhealthyReplicas.
  assert (Forall settled (isort byCreation act)) as Hs.
  { eapply Permutation_Forall; [apply isort_perm|exact Ha]. }
  rewrite (cleanup_id _ _ _ _ _ Hs).
  unfold scaleDownOld. cbv zeta. rewrite count_avail.
  assert (available (isort byCreation act ++ [newIS]) = requested act + ms_spec newIS) as Hav.
  { unfold available, requested. rewrite sum_app.
    rewrite <- (sum_perm _ ms_avail _ _ (isort_perm byCreation act)).
    rewrite (sum_eq _ ms_avail ms_spec act).
    - unfold sum; simpl; lia.
    - eapply Forall_impl; [|exact Ha]. unfold settled; simpl; intros; lia. }
  rewrite Hav.
  destruct (_ <=? md_replicas d - MaxUnavailable d) eqn:E2; [lia|].
  set (l := isort byCreation (isort byCreation act)).
  assert (requested l = requested act) as Hl.
  { unfold l, requested. rewrite <- (sum_perm _ ms_spec _ _ (isort_perm byCreation (isort byCreation act))).
    rewrite <- (sum_perm _ ms_spec _ _ (isort_perm byCreation act)). reflexivity. }
  assert (Forall (fun s => 0 <= ms_spec s) l) as Hpl.
  { unfold l. eapply Permutation_Forall; [apply isort_perm|].
    eapply Permutation_Forall; [apply isort_perm|exact Hpa]. }
  destruct (scale_down_exact d (requested act + ms_spec newIS - (md_replicas d - MaxUnavailable d)) l 0 Hpl ltac:(lia))
    as (l' & A & B & C).
  rewrite A. eexists _, _. split; [reflexivity|]. split; [|exact C]. lia.
Qed.

(** What one round does to the two numbers that matter. *)
Lemma round_numbers : forall d s u surge newIS olds,
  md_strategy d = RollingUpdate s u -> is_surge s (md_replicas d) surge ->
  settled newIS -> Forall settled olds ->
  let st' := round d (newIS, olds) in
  let n := ms_spec newIS in let o := requested olds in
  let n' := ms_spec (fst st') in let o' := requested (snd st') in
  settled (fst st') /\ Forall settled (snd st') \/ md_replicas d < 0.
Proof.
  intros d s u surge newIS olds Hd Hs Hn Ho. cbv zeta.
  destruct (Z_lt_ge_dec (md_replicas d) 0) as [Hneg|Hpos]; [right; assumption|left].
  unfold round. cbn [fst snd].
  destruct (rolloutRolling allOk d newIS olds) as [n' o'] eqn:E. cbn [fst snd].
  pose proof (rolling_old_only_shrink _ _ _ _ _ _ (settled_wf _ Ho) E) as HR.
  pose proof (rolling_new_cases _ _ _ _ _ _ E) as (H1 & _).
  pose proof (reconcile_new_bounds true d (olds ++ [newIS]) newIS (or_introl (ex_intro _ s (ex_intro _ u Hd)))) as HB.
  cbv zeta in HB. unfold allOk in H1; cbn [api_new] in H1. rewrite <- H1 in HB. unfold settled in Hn.
  split.
  - apply settle_settled. lia.
  - rewrite Forall_forall. intros x Hx. apply in_map_iff in Hx. destruct Hx as (y & <- & Hy).
    apply settle_settled. destruct HR as (m & _ & F).
    clear -F Hy. induction F as [|a b l l' Hab F IH]; [destruct Hy|].
    destruct Hy as [<-|Hy]; [unfold rel in Hab; lia|auto].
Qed.

Lemma round_step : forall d s u surge newIS olds,
  md_strategy d = RollingUpdate s u -> is_surge s (md_replicas d) surge ->
  0 <= md_replicas d -> 0 <= surge -> 0 <= MaxUnavailable d <= md_replicas d ->
  (0 < md_replicas d -> 0 < surge + MaxUnavailable d) ->
  settled newIS -> Forall settled olds ->
  let st' := round d (newIS, olds) in
  let n := ms_spec newIS in let o := requested olds in
  let n' := ms_spec (fst st') in let o' := requested (snd st') in
  let R := md_replicas d in
  (R < n -> n' = R /\ o' = o) /\
  (n <= R -> n <= n' <= R /\ 0 <= o' <= o /\
     (n' + o' < n + o -> R - MaxUnavailable d <= n' + o') /\
     (n' + o' <= Z.max (n + o) (R + surge)) /\
     (n < R \/ 0 < o -> (R - n') + o' < (R - n) + o) /\
     (n = R /\ o = 0 -> n' = R /\ o' = 0)).
Proof.
  intros d s u surge newIS olds Hd Hs HR Hsu Hmu Hb Hn Ho. cbv zeta.
  assert (GetValueFromIntOrPercent s (md_replicas d) true = Some surge) as Hg.
  { destruct s as [[z|p|]|]; cbn [is_surge GetValueFromIntOrPercent] in *; try contradiction; f_equal; lia. }
  assert (Forall (fun s => 0 <= ms_spec s) olds) as Hp.
  { eapply Forall_impl; [|exact Ho]. unfold settled; simpl; intros; lia. }
  assert (0 <= requested olds) as Hro by (apply sum_nonneg; assumption).
  assert (GetActualReplicaCountForMachineSets (olds ++ [newIS]) = requested olds + ms_spec newIS) as Hact.
  { rewrite count_actual, sum_app. rewrite (sum_eq _ ms_status ms_spec olds).
    - unfold settled in Hn. unfold requested, sum; simpl; lia.
    - eapply Forall_impl; [|exact Ho]. unfold settled; simpl; intros; lia. }
  assert (0 <= ms_spec newIS) as Hn0 by (unfold settled in Hn; lia).
  destruct (old_round d newIS olds Hn Ho) as (o & b & EO & Hreq & Hpo).
  unfold round, rolloutRolling, reconcileNewMachineSet. cbn [fst snd].
  destruct (ms_spec newIS =? md_replicas d) eqn:E1.
  - cbn [sr_err sr_scaled]. unfold allOk; cbn [api_clean api_down]. rewrite EO. cbn [fst snd].
    rewrite requested_settle, settle_spec.
    assert (requested (inactive olds ++ o) = requested o) as Ho2.
    { unfold requested. rewrite sum_app. change (requested (inactive olds) + sum ms_spec o = sum ms_spec o).
      rewrite requested_inactive by assumption. reflexivity. }
    rewrite Ho2. split; [lia|]. intros _. lia.
  - destruct (ms_spec newIS >? md_replicas d) eqn:E2.
    + unfold scaleMachineSetAndRecordEvent. rewrite E1. unfold allOk; cbn [api_new].
      cbn [sr_err sr_scaled sr_ms]. cbn [fst snd]. rewrite requested_settle, settle_spec. simpl. lia.
    + unfold NewISNewReplicas. rewrite Hd, Hg, Hact. cbv zeta.
      destruct (md_replicas d + surge <=? requested olds + ms_spec newIS) eqn:E3.
      * unfold scaleMachineSetAndRecordEvent. rewrite Z.eqb_refl. cbn [sr_err sr_scaled].
        unfold allOk; cbn [api_clean api_down]. rewrite EO. cbn [fst snd].
        rewrite requested_settle, settle_spec.
        assert (requested (inactive olds ++ o) = requested o) as Ho2.
        { unfold requested. rewrite sum_app. change (requested (inactive olds) + sum ms_spec o = sum ms_spec o).
          rewrite requested_inactive by assumption. reflexivity. }
        rewrite Ho2. split; [lia|]. intros _. lia.
      * unfold scaleMachineSetAndRecordEvent.
        match goal with |- context [?a =? ?b] => destruct (a =? b) eqn:E4 end; [lia|].
        unfold allOk; cbn [api_new sr_err sr_scaled sr_ms fst snd]. rewrite requested_settle, settle_spec.
        cbn [resize set_size ms_spec]. unfold resize, set_size. cbn [ms_spec]. lia.
Qed.

Lemma rounds_settled : forall d s u surge k newIS olds,
  md_strategy d = RollingUpdate s u -> is_surge s (md_replicas d) surge -> 0 <= md_replicas d ->
  settled newIS -> Forall settled olds ->
  settled (fst (rounds k d (newIS, olds))) /\ Forall settled (snd (rounds k d (newIS, olds))).
Proof.
  intros d s u surge k newIS olds Hd Hs HR Hn Ho. induction k as [|k (A & B)]; [split; assumption|].
  cbn [rounds]. destruct (rounds k d (newIS, olds)) as [n o]; cbn [fst snd] in *.
  destruct (round_numbers d s u surge n o Hd Hs A B) as [H|H]; [exact H|lia].
Qed.

Lemma rounds_all : forall d s u surge newIS olds,
  md_strategy d = RollingUpdate s u -> is_surge s (md_replicas d) surge ->
  0 <= md_replicas d -> 0 <= surge -> 0 <= MaxUnavailable d <= md_replicas d ->
  (0 < md_replicas d -> 0 < surge + MaxUnavailable d) ->
  settled newIS -> Forall settled olds ->
  forall k, let st := rounds k d (newIS, olds) in
  let R := md_replicas d in
  let n := ms_spec (fst st) in let o := requested (snd st) in
  0 <= o /\ 0 <= n /\
  n + o <= Z.max (ms_spec newIS + requested olds) (R + surge) /\
  Z.min (ms_spec newIS + requested olds) (R - MaxUnavailable d) <= n + o /\
  (k = 0%nat /\ n = ms_spec newIS /\ o = requested olds \/
   n <= R /\ (R - n) + o <= Z.max 0 (Z.abs (R - ms_spec newIS) + requested olds - Z.of_nat k + (if R <? ms_spec newIS then 1 else 0))).
Proof.
  intros d s u surge newIS olds Hd Hs HR Hsu Hmu Hb Hn Ho k.
  assert (0 <= requested olds) as Hro.
  { apply sum_nonneg. eapply Forall_impl; [|exact Ho]. unfold settled; simpl; intros; lia. }
  assert (0 <= ms_spec newIS) as Hn0 by (unfold settled in Hn; lia).
  induction k as [|k IH]; cbv zeta in *.
  - cbn [rounds fst snd]. repeat split; try lia. 
  - cbn [rounds].
    destruct (rounds_settled d s u surge k newIS olds Hd Hs HR Hn Ho) as (A & B).
    destruct (rounds k d (newIS, olds)) as [n o]; cbn [fst snd] in *.
    pose proof (round_step d s u surge n o Hd Hs HR Hsu Hmu Hb A B) as HS. cbv zeta in HS.
    set (n' := ms_spec (fst (round d (n, o)))) in *. set (o' := requested (snd (round d (n, o)))) in *.
    destruct HS as (S1 & S2).
    destruct (Z_lt_ge_dec (md_replicas d) (ms_spec n)) as [Hlt|Hge].
    + specialize (S1 Hlt). clear S2 Hb. destruct IH as (I1 & I2 & I3 & I4 & I5). destruct S1 as (T1 & T2).
      split; [lia|]. split; [lia|]. split; [lia|]. split; [lia|]. right. split; [lia|].
      destruct I5 as [(K0 & K1 & K2)|(K1 & K2)]; [|lia]. clear I3 I4.
      rewrite (proj2 (Z.ltb_lt (md_replicas d) (ms_spec newIS))) by lia. lia.
    + clear S1. destruct (S2 ltac:(lia)) as (T1 & T2 & T3 & T4 & T5 & T6). clear S2 Hb.
      destruct IH as (I1 & I2 & I3 & I4 & I5).
      split; [lia|]. split; [lia|]. split; [clear T3 T5 T6 I5; lia|].
      split; [clear T4 T5 T6 I5 I3; lia|]. right. split; [lia|]. clear T3 T4 I3 I4.
      destruct (Z.ltb_spec (md_replicas d) (ms_spec newIS)) as [E|E].
      * destruct I5 as [(K0 & K1 & K2)|(K1 & K2)]; [lia|].
        destruct (Z_lt_dec 0 (md_replicas d - ms_spec n + requested o)) as [P|P]; [clear T6|clear T5];
          [specialize (T5 ltac:(lia)); lia | specialize (T6 ltac:(lia)); lia].
      * destruct (Z_lt_dec 0 (md_replicas d - ms_spec n + requested o)) as [P|P]; [clear T6|clear T5];
          [specialize (T5 ltac:(lia)) | specialize (T6 ltac:(lia))];
          (destruct I5 as [(K0 & K1 & K2)|(K1 & K2)]; lia).
Qed.

Lemma requested_zero : forall l, Forall settled l -> requested l = 0 -> Forall (fun s => ms_spec s = 0) l.
Proof.
  intros l H. induction H as [|x l Hx H IH]; intro E; constructor.
  - assert (0 <= requested l). { apply sum_nonneg. eapply Forall_impl; [|exact H]. unfold settled; simpl; intros; lia. }
    unfold requested, sum, settled in *; simpl in *. lia.
  - apply IH. assert (0 <= requested l). { apply sum_nonneg. eapply Forall_impl; [|exact H]. unfold settled; simpl; intros; lia. }
    unfold requested, sum, settled in *; simpl in *. lia.
Qed.

Lemma is_budget_fun : forall d s u surge unavail,
  md_strategy d = RollingUpdate s u -> good_budget s -> good_budget u -> 0 < md_replicas d ->
  is_budget s u (md_replicas d) surge unavail -> surge = MaxSurge d /\ unavail = MaxUnavailable d.
Proof.
  intros d s u surge unavail Hd Hs Hu Hn (x & A & B & C).
  destruct (budget_props d s u Hd Hs Hu Hn) as ((y & A' & B' & C') & _).
  pose proof (is_surge_fun _ _ _ _ A A'). pose proof (is_unavail_fun _ _ _ _ B B'). subst. auto.
Qed.

(** Unavailability when no replicas are wanted. *)
Lemma unavail_zero : forall d s u, md_strategy d = RollingUpdate s u -> md_replicas d = 0 -> MaxUnavailable d = 0.
Proof. intros d s u H H0. unfold MaxUnavailable. rewrite H, H0. reflexivity. Qed.

Lemma budget_mono : forall d1 d2 s1 u1 s2 u2,
  md_strategy d1 = RollingUpdate s1 u1 -> md_strategy d2 = RollingUpdate s2 u2 ->
  md_replicas d1 = md_replicas d2 -> 0 < md_replicas d1 ->
  good_budget s1 -> good_budget u1 -> good_budget s2 -> good_budget u2 ->
  (budget_le s1 s2 -> MaxSurge d1 <= MaxSurge d2) /\
  (s1 = s2 -> budget_le u1 u2 -> MaxUnavailable d1 <= MaxUnavailable d2).
Proof.
  intros d1 d2 s1 u1 s2 u2 H1 H2 HR Hp G1 G2 G3 G4.
  destruct (budget_props d1 s1 u1 H1 G1 G2 Hp) as ((x1 & A1 & B1 & C1) & P1).
  destruct (budget_props d2 s2 u2 H2 G3 G4 ltac:(lia)) as ((x2 & A2 & B2 & C2) & P2).
  rewrite <- HR in *. split.
  - intro L. destruct s1 as [[z|p|]|], s2 as [[z'|p'|]|]; cbn [budget_le is_surge] in *; try tauto; [lia|nia].
  - intros -> L. pose proof (is_surge_fun _ _ _ _ A1 A2) as E. rewrite E in *.
    assert (x1 <= x2) as Lx.
    { destruct u1 as [[z|p|]|], u2 as [[z'|p'|]|]; cbn [budget_le is_unavail] in *; try tauto; [lia|nia]. }
    rewrite C1, C2.
    assert (0 <= x1). { destruct u1 as [[z|p|]|]; cbn [good_budget is_unavail] in *; try tauto; [lia|nia]. }
    destruct ((MaxSurge d2 =? 0) && (x1 =? 0)) eqn:EA; destruct ((MaxSurge d2 =? 0) && (x2 =? 0)) eqn:EB; lia.
Qed.

Lemma c04_lemma : forall api d s u surge unavail newIS olds newIS' olds',
  md_strategy d = RollingUpdate s u -> good_budget s -> good_budget u -> 0 < md_replicas d ->
  is_budget s u (md_replicas d) surge unavail ->
  Forall (fun s => 0 <= ms_avail s <= ms_spec s) olds ->
  rolloutRolling api d newIS olds = (newIS', olds') ->
  Z.min (md_replicas d - unavail) (available (newIS :: olds)) <= ms_avail newIS' + sum kept olds'.
Proof.
  intros api d s u surge unavail newIS olds newIS' olds' Hd Hs Hu Hn HB Ha H.
  destruct (is_budget_fun _ _ _ _ _ Hd Hs Hu Hn HB) as (-> & ->).
  assert (nonneg_specs olds) as Hw. { eapply Forall_impl; [|exact Ha]. simpl; intros; lia. }
  destruct (rolling_floor _ _ _ _ _ _ Hw Ha H) as (_ & _ & F).
  assert (available (newIS :: olds) = ms_avail newIS + available olds) by reflexivity. lia.
Qed.

Lemma c05_lemma : forall d s u surge unavail newIS olds,
  md_strategy d = RollingUpdate s u -> good_budget s -> good_budget u -> 0 < md_replicas d ->
  is_budget s u (md_replicas d) surge unavail ->
  settled newIS -> Forall settled olds ->
  forall k, let st := rounds k d (newIS, olds) in
  requested (fst st :: snd st) <= Z.max (requested (newIS :: olds)) (md_replicas d + surge) /\
  Z.min (requested (newIS :: olds)) (md_replicas d - unavail) <= available (fst st :: snd st) /\
  (Z.abs (md_replicas d - ms_spec newIS) + requested olds < Z.of_nat k ->
     ms_spec (fst st) = md_replicas d /\ Forall (fun s => ms_spec s = 0) (snd st)).
Proof.
  intros d s u surge unavail newIS olds Hd Hs Hu HR HB Hn Ho k. cbv zeta.
  destruct (is_budget_fun _ _ _ _ _ Hd Hs Hu HR HB) as (-> & ->).
  destruct (budget_props d s u Hd Hs Hu HR) as ((x & A & _) & P1 & P2 & P3).
  pose proof (rounds_all d s u (MaxSurge d) newIS olds Hd A ltac:(lia) P1 P2 ltac:(intros; lia) Hn Ho k) as HA.
  cbv zeta in HA.
  destruct (rounds_settled d s u (MaxSurge d) k newIS olds Hd A ltac:(lia) Hn Ho) as (S1 & S2).
  destruct (rounds k d (newIS, olds)) as [n o]. cbn [fst snd] in *.
  assert (forall x l, requested (x :: l) = ms_spec x + requested l) as Hc by reflexivity.
  assert (available (n :: o) = requested (n :: o)) as Hav.
  { apply sum_eq. constructor; [unfold settled in S1; tauto|].
    eapply Forall_impl; [|exact S2]. unfold settled; simpl; intros; tauto. }
  rewrite Hav, !Hc.
  destruct HA as (B1 & B2 & B3 & B4 & B5). split; [lia|]. split; [lia|]. intro Hk.
  assert (0 <= requested olds) as Hro.
  { apply sum_nonneg. eapply Forall_impl; [|exact Ho]. unfold settled; simpl; intros; lia. }
  assert (requested o = 0 /\ ms_spec n = md_replicas d) as (E1 & E2).
  { destruct (md_replicas d <? ms_spec newIS) eqn:E; lia. }
  split; [exact E2|]. apply requested_zero; assumption.
Qed.

(** *** Creation of the new set *)
Lemma created_surge : forall d s u surge name now olds m,
  md_strategy d = RollingUpdate s u -> is_surge s (md_replicas d) surge -> 0 <= md_replicas d ->
  Forall (fun x => ms_spec x <= ms_status x) olds ->
  createdMS d name now olds = Some m ->
  0 <= ms_spec m <= md_replicas d /\
  requested (m :: olds) <= Z.max (requested olds) (md_replicas d + surge).
Proof.
  intros d s u surge name now olds m Hd Hs Hr Hst H. unfold createdMS in H. cbv zeta in H.
  assert (GetValueFromIntOrPercent s (md_replicas d) true = Some surge) as Hg.
  { destruct s as [[z|p|]|]; cbn [is_surge GetValueFromIntOrPercent] in *; try contradiction; f_equal; lia. }
  unfold NewISNewReplicas in H. rewrite Hd, Hg in H. cbv zeta in H.
  assert (requested olds <= GetActualReplicaCountForMachineSets olds) as Hle.
  { rewrite count_actual. apply sum_le. exact Hst. }
  rewrite count_actual, sum_app in H. rewrite count_actual in Hle. cbn [sum fold_right ms_status] in H.
  unfold requested in *.
  destruct (_ <=? _) eqn:E in H; injection H as <-; cbn [sum fold_right ms_spec set_size] in *; unfold sum in *; lia.
Qed.

(** *** What the old sets keep *)
Lemma cleanup_loop_bound : forall ok d maxC l total l' c e,
  nonneg_specs l -> total <= maxC -> cleanupLoop ok d maxC total l = (l', c, e) ->
  requested l - requested l' <= maxC - total.
Proof.
  intros ok d maxC l. induction l as [|t rest IH]; intros total l' c e Hn Ht H; cbn [cleanupLoop] in H.
  - injection H as <- <- <-. lia.
  - inversion Hn as [|? ? Hn1 Hn2]; subst.
    destruct (maxC <=? total) eqn:E1. { injection H as <- <- <-. lia. }
    destruct (ms_spec t =? 0) eqn:E2; [|destruct (ms_spec t =? ms_avail t) eqn:E3].
    + destruct (cleanupLoop ok d maxC total rest) as [[r' c'] e'] eqn:ER. injection H as <- <- <-.
      pose proof (IH _ _ _ _ Hn2 Ht ER). unfold requested, sum in *; simpl; lia.
    + destruct (cleanupLoop ok d maxC total rest) as [[r' c'] e'] eqn:ER. injection H as <- <- <-.
      pose proof (IH _ _ _ _ Hn2 Ht ER). unfold requested, sum in *; simpl; lia.
    + cbv zeta in H. destruct (_ >? ms_spec t) eqn:E4. { injection H as <- <- <-. lia. }
      destruct (scale_spec (ok t) d t (ms_spec t - Z.min (maxC - total) (ms_spec t - ms_avail t))) as (S1 & _).
      destruct (sr_err _) eqn:E5. { injection H as <- <- <-. lia. }
      specialize (S1 eq_refl).
      destruct (cleanupLoop ok d maxC (total + _) rest) as [[r' c'] e'] eqn:ER. injection H as <- <- <-.
      assert (total + Z.min (maxC - total) (ms_spec t - ms_avail t) <= maxC) as Hp by lia.
      pose proof (IH _ _ _ _ Hn2 Hp ER). unfold requested, sum in *; simpl in *; lia.
Qed.

Lemma kept_requested : forall l, sum kept l <= requested l.
Proof. intros l. apply sum_le. apply Forall_forall. intros x _. unfold kept. lia. Qed.

Lemma reconcile_old_keeps : forall okC okD d allISs olds newIS olds' b,
  nonneg_specs olds -> Forall (fun s => ms_avail s <= ms_spec s) olds ->
  requested allISs <= requested olds + ms_spec newIS ->
  reconcileOldMachineSets okC okD d allISs olds newIS = (olds', b) ->
  Z.min (md_replicas d - MaxUnavailable d) (requested olds + ms_avail newIS) <= requested olds' + ms_avail newIS.
Proof.
  intros okC okD d allISs olds newIS olds' b Hn Ha Hall H.
  unfold reconcileOldMachineSets in H.
  destruct (GetReplicaCountForMachineSets olds =? 0). { injection H as <- <-. lia. }
  cbv zeta in H. rewrite count_spec in H.
  destruct (_ <=? 0) eqn:E1. { injection H as <- <-. lia. }
  unfold cleanupUnhealthyReplicas in H.
  destruct (cleanupLoop okC d _ 0 (isort byCreation olds)) as [[o1 c1] e1] eqn:EC.
  pose proof (isort_perm byCreation olds) as HP.
  pose proof (nonneg_perm _ _ HP Hn) as Hn0.
  assert (requested (isort byCreation olds) = requested olds) as HR0.
  { symmetry. apply sum_perm; exact HP. }
  assert (0 <= requested allISs - (md_replicas d - MaxUnavailable d) - (ms_spec newIS - ms_avail newIS)) as Hp by lia.
  pose proof (cleanup_loop_bound _ _ _ _ _ _ _ _ Hn0 Hp EC) as HB. rewrite HR0 in HB.
  destruct (cleanup_loop_spec _ _ _ _ _ _ _ _ Hn0 (Z.le_refl 0) EC) as (A & _).
  destruct e1. { injection H as <- <-. lia. }
  assert (Forall2 rel o1 (isort byCreation olds)) as R1.
  { eapply F2_weaken; [|exact A]. simpl; tauto. }
  pose proof (rel_nonneg _ _ R1) as Hn1.
  assert (available o1 = available olds) as HA1.
  { rewrite (rel_avail_sum _ _ R1). symmetry. apply sum_perm; exact HP. }
  assert (available olds <= requested o1) as HK.
  { assert (sum kept olds = available olds) as Hk.
    { apply sum_eq. eapply Forall_impl; [|exact Ha]. unfold kept; simpl; intros; lia. }
    pose proof (kept_cleanup _ _ A) as K. rewrite <- (sum_perm _ kept _ _ HP) in K.
    pose proof (kept_requested o1). lia. }
  unfold scaleDownOld in H. cbv zeta in H. rewrite count_avail in H.
  assert (available (o1 ++ [newIS]) = available olds + ms_avail newIS) as HA2.
  { unfold available in *. rewrite sum_app. simpl. lia. }
  rewrite HA2 in H.
  destruct (_ <=? md_replicas d - MaxUnavailable d) eqn:E2. { injection H as <- <-. lia. }
  destruct (scaleDownLoop okD d _ 0 (isort byCreation o1)) as [[o2 c2] e2] eqn:ED.
  pose proof (isort_perm byCreation o1) as HP1.
  destruct (scale_down_loop_spec _ _ _ _ _ _ _ _ (nonneg_perm _ _ HP1 Hn1) (Z.le_refl 0) ED) as (B & C & _).
  specialize (C ltac:(lia)).
  assert (requested (isort byCreation o1) = requested o1) as HR1.
  { symmetry. apply sum_perm; exact HP1. }
  rewrite HR1 in C.
  destruct e2; injection H as <- <-; lia.
Qed.

Lemma rolling_keeps : forall api d newIS olds newIS' olds',
  nonneg_specs olds -> Forall (fun s => ms_avail s <= ms_spec s) olds ->
  rolloutRolling api d newIS olds = (newIS', olds') ->
  Z.min (md_replicas d - MaxUnavailable d) (requested olds + ms_avail newIS) <= requested olds' + ms_avail newIS.
Proof.
  intros api d newIS olds newIS' olds' Hn Ha H. unfold rolloutRolling in H.
  destruct (sr_err _). { injection H as <- <-. lia. }
  destruct (sr_scaled _). { injection H as <- <-. lia. }
  destruct (reconcileOldMachineSets _ _ _ _ _ _) as [o b] eqn:EO. injection H as <- <-.
  assert (nonneg_specs (FilterActiveMachineSets olds)) as Hn1.
  { unfold nonneg_specs, FilterActiveMachineSets in *. rewrite !Forall_forall in *.
    intros x Hx; apply filter_In in Hx; apply Hn; tauto. }
  assert (Forall (fun s => ms_avail s <= ms_spec s) (FilterActiveMachineSets olds)) as Ha1.
  { rewrite Forall_forall in *. intros x Hx; apply filter_In in Hx. apply Ha; tauto. }
  assert (requested (inactive olds) = 0) as HI.
  { apply requested_inactive. eapply Forall_impl; [|exact Hn]. simpl; tauto. }
  pose proof (requested_filter olds) as HF.
  apply reconcile_old_keeps in EO; [| assumption | assumption |].
  - unfold requested in *. rewrite sum_app. lia.
  - unfold requested in *. rewrite sum_app. cbn [sum fold_right]. lia.
Qed.

Lemma c69_lemma : forall api d s u surge unavail newIS olds newIS' olds',
  md_strategy d = RollingUpdate s u -> good_budget s -> good_budget u -> 0 < md_replicas d ->
  is_budget s u (md_replicas d) surge unavail ->
  Forall (fun x => 0 <= ms_avail x <= ms_spec x) olds ->
  rolloutRolling api d newIS olds = (newIS', olds') ->
  Z.min (md_replicas d - unavail) (requested olds + ms_avail newIS) <= requested olds' + ms_avail newIS.
Proof.
  intros api d s u surge unavail newIS olds newIS' olds' Hd Hs Hu Hr Hb Ha H.
  destruct (is_budget_fun _ _ _ _ _ Hd Hs Hu Hr Hb) as (-> & ->).
  eapply rolling_keeps; [| |exact H].
  - eapply Forall_impl; [|exact Ha]. simpl; intros; lia.
  - eapply Forall_impl; [|exact Ha]. simpl; intros; lia.
Qed.

(** What a pass reports. *)
Lemma old_reports : forall okC okD d allISs olds newIS olds' b,
  nonneg_specs olds -> Forall (fun s => ms_avail s <= ms_spec s) olds ->
  reconcileOldMachineSets okC okD d allISs olds newIS = (olds', b) ->
  (b = true -> requested olds' < requested olds) /\
  ((forall s, okC s = true) -> (forall s, okD s = true) -> requested olds' < requested olds -> b = true).
Proof.
  intros okC okD d allISs olds newIS olds' b Hn Ha H. unfold reconcileOldMachineSets in H.
  destruct (GetReplicaCountForMachineSets olds =? 0).
  { injection H as <- <-. split; [discriminate|lia]. }
  cbv zeta in H. destruct (_ <=? 0) eqn:E1.
  { injection H as <- <-. split; [discriminate|lia]. }
  unfold cleanupUnhealthyReplicas in H.
  destruct (cleanupLoop okC d _ 0 (isort byCreation olds)) as [[o1 c1] e1] eqn:EC.
  pose proof (isort_perm byCreation olds) as HP.
  destruct (cleanup_loop_spec _ _ _ _ _ _ _ _ (nonneg_perm _ _ HP Hn) (Z.le_refl 0) EC) as (A & A2).
  assert (NE1 : (forall s, okC s = true) -> e1 = false).
  { intro K. revert EC. assert (NN : nonneg_specs (isort byCreation olds)) by (apply (nonneg_perm olds); assumption).
    assert (AA : Forall (fun s => ms_avail s <= ms_spec s) (isort byCreation olds)).
    { rewrite Forall_forall in *. intros x Hx. apply Ha. eapply Permutation_in; [apply Permutation_sym; exact HP|exact Hx]. }
    remember (GetReplicaCountForMachineSets allISs - (md_replicas d - MaxUnavailable d) - (ms_spec newIS - ms_avail newIS)) as mx eqn:Emx. clear Emx.
    clear - K NN AA. assert (T : 0 <= 0) by lia. revert T. generalize 0 at 2 3 as total. revert o1 c1 e1.
    induction (isort byCreation olds) as [|t rest IH]; intros o1 c1 e1 total T EC; cbn [cleanupLoop] in EC.
    - injection EC as <- <- <-. reflexivity.
    - inversion NN as [|? ? N1 N2]; subst. inversion AA as [|? ? A1 A2]; subst. specialize (IH N2 A2).
      destruct (mx <=? total) eqn:Em; [injection EC as <- <- <-; reflexivity|].
      destruct (ms_spec t =? 0); [destruct (cleanupLoop okC d mx total rest) as [[r' c'] e'] eqn:ER; injection EC as <- <- <-; eapply IH; eauto|].
      destruct (ms_spec t =? ms_avail t); [destruct (cleanupLoop okC d mx total rest) as [[r' c'] e'] eqn:ER; injection EC as <- <- <-; eapply IH; eauto|].
      cbv zeta in EC. destruct (_ >? ms_spec t) eqn:E4; [lia|]. unfold scaleMachineSetAndRecordEvent in EC. rewrite K in EC.
      destruct (ms_spec t =? _); cbn [sr_err sr_ms] in EC; destruct (cleanupLoop okC d mx (total + _) rest) as [[r' c'] e'] eqn:ER; injection EC as <- <- <-; eapply IH; [|exact ER| |exact ER]; lia. }
  assert (R1 : requested o1 <= requested olds).
  { assert (relp o1 olds) as R by (exists (isort byCreation olds); split; [apply Permutation_sym; exact HP|]; eapply F2_weaken; [|exact A]; simpl; tauto).
    apply relp_requested in R. lia. }
  assert (HR : requested (isort byCreation olds) = requested olds) by (symmetry; apply sum_perm; exact HP).
  destruct e1.
  { injection H as <- <-. split; [discriminate|]. intros K _ _. specialize (NE1 K). discriminate. }
  specialize (A2 eq_refl). destruct A2 as (A3 & A4). rewrite HR in A4.
  assert (nonneg_specs o1) as Hn1. { eapply rel_nonneg. eapply F2_weaken; [|exact A]. simpl. tauto. }
  unfold scaleDownOld in H. cbv zeta in H.
  destruct (_ <=? md_replicas d - MaxUnavailable d) eqn:E2.
  { injection H as <- <-. rewrite Z.gtb_ltb. split; intros; lia. }
  destruct (scaleDownLoop okD d _ 0 (isort byCreation o1)) as [[o2 c2] e2] eqn:ED.
  pose proof (isort_perm byCreation o1) as HP1.
  assert (HR1 : requested (isort byCreation o1) = requested o1) by (symmetry; apply sum_perm; exact HP1).
  destruct (scale_down_loop_spec _ _ _ _ _ _ _ _ (nonneg_perm _ _ HP1 Hn1) (Z.le_refl 0) ED) as (B & C & D).
  assert (NE2 : (forall s, okD s = true) -> e2 = false).
  { intro K. revert ED. assert (NN : nonneg_specs (isort byCreation o1)) by (apply (nonneg_perm o1); assumption).
    remember (GetAvailableReplicaCountForMachineSets (o1 ++ [newIS]) - (md_replicas d - MaxUnavailable d)) as bud eqn:Eb. clear Eb.
    clear - K NN. generalize 0 at 1 as total. revert o2 c2 e2.
    induction (isort byCreation o1) as [|t rest IH]; intros o2 c2 e2 total ED; cbn [scaleDownLoop] in ED.
    - injection ED as <- <- <-. reflexivity.
    - inversion NN as [|? ? N1 N2]; subst. specialize (IH N2).
      destruct (bud <=? total) eqn:Em; [injection ED as <- <- <-; reflexivity|].
      destruct (ms_spec t =? 0); [destruct (scaleDownLoop okD d bud total rest) as [[r' c'] e'] eqn:ER; injection ED as <- <- <-; eapply IH; eauto|].
      cbv zeta in ED. destruct (_ >? ms_spec t) eqn:E4; [lia|]. unfold scaleMachineSetAndRecordEvent in ED. rewrite K in ED.
      destruct (ms_spec t =? _); cbn [sr_err sr_ms] in ED; destruct (scaleDownLoop okD d bud (total + _) rest) as [[r' c'] e'] eqn:ER; injection ED as <- <- <-; eapply IH; exact ER. }
  destruct e2; injection H as <- <-.
  { split; [discriminate|]. intros _ K _. specialize (NE2 K). discriminate. }
  specialize (D eq_refl). rewrite HR1 in D. rewrite Z.gtb_ltb. split; intros; lia.
Qed.

Lemma sizable_iff : forall d allISs n, (exists m, NewISNewReplicas d allISs n = Some m) <-> sizable d.
Proof.
  intros d allISs n. unfold NewISNewReplicas, sizable. destruct (md_strategy d) as [|s u|s u|o].
  - split; [auto|]. intros _. eexists. reflexivity.
  - destruct s as [[z|p|]|]; cbn [GetValueFromIntOrPercent is_surge].
    + split; [intros _; eexists; reflexivity|]. intros _. destruct (_ <=? _); eexists; reflexivity.
    + split; [intros _; exists (- ((- (p * md_replicas d)) / 100)); split; [pose proof (Z.mul_div_le (- (p * md_replicas d)) 100); lia | pose proof (Z.mul_succ_div_gt (- (p * md_replicas d)) 100); lia]|].
      intros _. destruct (_ <=? _); eexists; reflexivity.
    + split; [intros (m & H); discriminate|intros (x & [])].
    + split; [intros (m & H); discriminate|intros (x & [])].
  - split; [intros (m & H); discriminate|intros []].
  - split; [intros (m & H); discriminate|intros []].
Qed.

Lemma new_reports : forall ok d allISs newIS,
  let r := reconcileNewMachineSet ok d allISs newIS in
  (sr_scaled r = true <-> ms_spec (sr_ms r) <> ms_spec newIS) /\
  (sr_err r = true -> sr_ms r = newIS /\ sr_scaled r = false /\
     (ok = false \/ ~ sizable d)) /\
  (ms_spec newIS < md_replicas d -> ~ sizable d -> sr_err r = true).
Proof.
  intros ok d allISs newIS.
  assert (NS : forall P : Prop, (ok = false \/ forall n, NewISNewReplicas d allISs (ms_spec newIS) <> Some n) -> (ok = false \/ ~ sizable d)).
  { intros _ [H | H]; [left; exact H|]. right. intro S. apply (sizable_iff d allISs (ms_spec newIS)) in S. destruct S as (m & S). exact (H m S). }
  assert (SN : ~ sizable d -> forall n, NewISNewReplicas d allISs (ms_spec newIS) <> Some n).
  { intros S n H. apply S. apply (sizable_iff d allISs (ms_spec newIS)). exists n. exact H. }
  assert (G : let r := reconcileNewMachineSet ok d allISs newIS in
    (sr_scaled r = true <-> ms_spec (sr_ms r) <> ms_spec newIS) /\
    (sr_err r = true -> sr_ms r = newIS /\ sr_scaled r = false /\
     (ok = false \/ forall n, NewISNewReplicas d allISs (ms_spec newIS) <> Some n)) /\
    (ms_spec newIS < md_replicas d -> (forall n, NewISNewReplicas d allISs (ms_spec newIS) <> Some n) -> sr_err r = true)).
  2: { cbv zeta in G |- *. destruct G as (G1 & G2 & G3). split; [exact G1|]. split; [|auto].
       intros E. destruct (G2 E) as (A & B & C). split; [exact A|]. split; [exact B|]. exact (NS True C). }
  clear NS SN. unfold reconcileNewMachineSet, scaleMachineSetAndRecordEvent.
  destruct (ms_spec newIS =? md_replicas d) eqn:E1; cbn [sr_ms sr_scaled sr_err].
  { split; [split; [discriminate|congruence]|]. split; [discriminate|lia]. }
  destruct (ms_spec newIS >? md_replicas d) eqn:E2.
  { destruct ok; cbn [sr_ms sr_scaled sr_err resize set_size ms_spec].
    - split; [split; [intros; cbn; lia|auto]|]. split; [discriminate|lia].
    - split; [split; [discriminate|congruence]|]. split; [auto|lia]. }
  destruct (NewISNewReplicas d allISs (ms_spec newIS)) as [n|] eqn:EN.
  - destruct (ms_spec newIS =? n) eqn:E3; cbn [sr_ms sr_scaled sr_err].
    { split; [split; [discriminate|congruence]|]. split; [discriminate|]. intros _ X. exfalso. exact (X n eq_refl). }
    destruct ok; cbn [sr_ms sr_scaled sr_err resize].
    + split; [split; [intros; cbn; lia|auto]|]. split; [discriminate|]. intros _ X. exfalso. exact (X n eq_refl).
    + split; [split; [discriminate|congruence]|]. split; [auto|]. auto.
  - cbn [sr_ms sr_scaled sr_err]. split; [split; [discriminate|congruence]|]. split; [|reflexivity]. intros _. split; [reflexivity|]. split; [reflexivity|]. right. discriminate.
Qed.
