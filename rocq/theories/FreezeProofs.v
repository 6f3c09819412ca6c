(** Proofs about the overshoot freeze. *)
Require Import Coq.ZArith.ZArith Coq.Lists.List Coq.Strings.String Coq.Bool.Bool Coq.micromega.Lia.
Require Import Coq.micromega.ZifyBool Coq.btauto.Btauto.
From Verif Require Import Types RolloutModel StatusModel OwnSpec OwnProofs FreezeModel FreezeSpec.
Import ListNotations.
Open Scope string_scope.
Open Scope list_scope.
Open Scope Z_scope.

Ltac Zify.zify_post_hook ::= Z.div_mod_to_equations.

Lemma frozen_marked : forall o, frozen o = true <-> marked o.
Proof.
  unfold frozen, marked. intros [v|]; split; intros H; try discriminate.
  - apply String.eqb_eq in H. now subst.
  - inversion H. reflexivity.
Qed.
Lemma frozen_not : forall o, frozen o = false <-> ~ marked o.
Proof. intros. rewrite <- frozen_marked. destruct (frozen o); intuition congruence. Qed.

Lemma filter_one : forall n l, NoDup l ->
  Z.of_nat (List.length (filter (String.eqb n) l)) = if existsb (String.eqb n) l then 1 else 0.
Proof.
  induction l as [|a l IH]; intros ND; auto. inversion ND; subst. cbn [filter existsb].
  destruct (String.eqb n a) eqn:E; cbn [orb List.length].
  - apply String.eqb_eq in E. subst a. rewrite Nat2Z.inj_succ, IH by auto.
    destruct (existsb (String.eqb n) l) eqn:X; [|lia].
    apply existsb_exists in X. destruct X as [b [I Q]]. apply String.eqb_eq in Q. subst b. contradiction.
  - auto.
Qed.

Lemma existsb_eqb : forall n l, existsb (String.eqb n) l = true <-> In n l.
Proof.
  intros. rewrite existsb_exists. split.
  - intros [x [A B]]. apply String.eqb_eq in B. now subst.
  - intros. exists n. split; auto. apply String.eqb_refl.
Qed.

Lemma count_counted : forall s l, single_refs l -> counted (backs s) l (fullyLabeledReplicasCount (f_tmpl s) (f_name s) l).
Proof.
  induction l as [|m l IH]; intros H; [constructor|]. inversion H; subst. specialize (IH H3). cbn [fullyLabeledReplicasCount].
  destruct (selectorMatches (f_tmpl s) (fm_labels m)) eqn:E.
  - rewrite filter_one by auto. destruct (existsb (String.eqb (f_name s)) (fm_owners m)) eqn:X.
    + rewrite Z.add_comm. constructor; auto. split; [now apply selector_matches|now apply existsb_eqb].
    + rewrite Z.add_0_l. constructor; auto. intros [_ I]. apply existsb_eqb in I. congruence.
  - rewrite Z.add_0_l. constructor; auto. intros [M _]. apply selector_matches in M. congruence.
Qed.

Lemma counted_fun : forall A (P : A -> Prop) l a b, counted P l a -> counted P l b -> a = b.
Proof. intros A P l a b H. revert b. induction H; intros b' H'; inversion H'; subst; try contradiction; auto. f_equal. auto. Qed.

Lemma labelled_all : forall s k v, has_label (allLabels s) k v <-> labelled s k v.
Proof.
  intros. unfold allLabels, labelled. destruct (f_freeze s) as [x|]; [|tauto]. split.
  - intros H. inversion H; subst; auto.
  - intros [[-> ->]|[N H]]; [constructor|]. constructor; auto.
Qed.

Lemma selects_b : forall d s,
  match d_sel d with [] => false | _ => selectorMatches (d_sel d) (allLabels s) end = true <-> selects d s.
Proof.
  intros. unfold selects. destruct (d_sel d) as [|p r] eqn:E.
  - split; [discriminate|]. intros [H _]. congruence.
  - rewrite selector_matches. unfold matches. setoid_rewrite labelled_all. intuition congruence.
Qed.

Lemma deps_for : forall deps s,
  getMachineDeploymentsForMachineSet deps (allLabels s)
  = filter (fun d => match d_sel d with [] => false | _ => selectorMatches (d_sel d) (allLabels s) end) deps.
Proof.
  intros. unfold getMachineDeploymentsForMachineSet. destruct (allLabels s) as [|p r] eqn:E; auto.
  symmetry. induction deps as [|d deps IH]; auto. cbn [filter]. rewrite IH.
  destruct (d_sel d) as [|[k v] q] eqn:Q; auto.
Qed.

Lemma first_of_filter : forall A (f : A -> bool) l a r, filter f l = a :: r ->
  exists l1 l2, l = l1 ++ a :: l2 /\ f a = true /\ forall x, In x l1 -> f x = false.
Proof.
  induction l as [|x l IH]; intros a r H; [discriminate|]. cbn [filter] in H. destruct (f x) eqn:E.
  - inversion H; subst. exists [], l. repeat split; auto. intros y [].
  - destruct (IH _ _ H) as [l1 [l2 [A1 [A2 A3]]]]. exists (x :: l1), l2. subst. repeat split; auto.
    intros y [<-|I]; auto.
Qed.

Lemma deps_first : forall deps s d r, getMachineDeploymentsForMachineSet deps (allLabels s) = d :: r -> parent deps s d.
Proof.
  intros. rewrite deps_for in H. apply first_of_filter in H. destruct H as [l1 [l2 [A [B C]]]].
  exists l1, l2. split; auto. split; [now apply selects_b|]. intros d' I S. apply selects_b in S. rewrite C in S; auto. discriminate.
Qed.
Lemma deps_none : forall deps s, getMachineDeploymentsForMachineSet deps (allLabels s) = [] -> parentless deps s.
Proof.
  intros deps s H d I S. rewrite deps_for in H. apply selects_b in S.
  assert (In d (filter (fun d => match d_sel d with [] => false | _ => selectorMatches (d_sel d) (allLabels s) end) deps)) by (apply filter_In; auto).
  rewrite H in H0. destruct H0.
Qed.

Lemma surge_value : forall x r n, GetValueFromIntOrPercent x r true = Some n -> exists y, x = Some y /\ surge y r n.
Proof.
  intros [[z|p|]|] r n H; cbn [GetValueFromIntOrPercent] in H; try discriminate; injection H as <-; eexists; (split; [reflexivity|]); cbn [surge]; auto.
  generalize (p * r). intros q. split; lia.
Qed.

Lemma limit_upper : forall up deps s z, higherThreshold up deps s = LimitIs z -> upper up deps s z.
Proof.
  intros up deps s z H. unfold higherThreshold in H.
  destruct (getMachineDeploymentsForMachineSet deps (allLabels s)) as [|d r] eqn:E.
  - inversion H; subst. left. split; auto. now apply deps_none.
  - destruct (d_surge d) as [x|] eqn:S; [|discriminate].
    destruct (GetValueFromIntOrPercent x (d_replicas d) true) as [n|] eqn:V; [|discriminate]. inversion H; subst.
    apply surge_value in V. destruct V as [y [-> V]]. right. exists d, y, n. split; [|auto]. eapply deps_first; eauto.
Qed.

Lemma check_freeze : forall up down v l s, checkLoop up down v l = VFreeze s ->
  In s l /\ ~ marked (f_freeze s) /\ exists z, upper up (v_deps v) s z /\ higherThreshold up (v_deps v) s = LimitIs z /\
    z <= fullyLabeledReplicasCount (f_tmpl s) (f_name s) (v_machines v).
Proof.
  induction l as [|a l IH]; intros s H; [discriminate|]. cbn [checkLoop] in H.
  destruct (higherThreshold up (v_deps v) a) as [z| |] eqn:E; try discriminate.
  destruct (negb (frozen (f_freeze a)) && (z <=? _)) eqn:B.
  - inversion H; subst. apply andb_true_iff in B. destruct B as [B1 B2]. apply negb_true_iff in B1. apply frozen_not in B1.
    repeat split; auto. now left. exists z. split; [now apply limit_upper|]. split; auto. lia.
  - destruct ((_ <=? z - down) && _) eqn:C; [discriminate|]. destruct (IH _ H) as [A1 A2]. split; [now right|auto].
Qed.

Lemma check_unfreeze : forall up down v l s, checkLoop up down v l = VUnfreeze s ->
  In s l /\ (marked (f_freeze s) \/ f_cond s = true) /\ exists z, upper up (v_deps v) s z /\ higherThreshold up (v_deps v) s = LimitIs z /\
    fullyLabeledReplicasCount (f_tmpl s) (f_name s) (v_machines v) <= z - down.
Proof.
  induction l as [|a l IH]; intros s H; [discriminate|]. cbn [checkLoop] in H.
  destruct (higherThreshold up (v_deps v) a) as [z| |] eqn:E; try discriminate.
  destruct (negb (frozen (f_freeze a)) && (z <=? _)) eqn:B; [discriminate|].
  destruct ((_ <=? z - down) && _) eqn:C.
  - inversion H; subst. apply andb_true_iff in C. destruct C as [C1 C2]. apply orb_true_iff in C2.
    split; [now left|]. split. { destruct C2 as [C2|C2]; [left; now apply frozen_marked|now right]. }
    exists z. split; [now apply limit_upper|]. split; auto. lia.
  - destruct (IH _ H) as [A1 A2]. split; [now right|auto].
Qed.

(** Effect of one write on the i-th set. *)
Lemma write_nth : forall w x i s, nth_error (fw_sets w) i = Some s ->
  exists s', nth_error (fw_sets (write w x)) i = Some s' /\ f_name s' = f_name s /\
    f_replicas s' = f_replicas s /\ f_tmpl s' = f_tmpl s /\ f_labels s' = f_labels s /\
    ((exists b, x = WSetLabel (f_name s) b /\ f_freeze s' = if b then Some "True" else None) \/ f_freeze s' = f_freeze s) /\
    ((exists b, x = WSetCond (f_name s) b /\ f_cond s' = b) \/ f_cond s' = f_cond s).
Proof.
  intros. destruct x as [n b|n b|n|n b|n b]; cbn [write onFSet onFDep fw_sets].
  1,2,3: (rewrite nth_error_map, H; cbn [option_map]; destruct (String.eqb (f_name s) n) eqn:E;
    [apply String.eqb_eq in E; subst n|]; eexists; (split; [reflexivity|]); cbn; repeat split; auto).
  - left. exists b. auto.
  - left. exists b. auto.
  - exists s. repeat split; auto.
  - exists s. repeat split; auto.
Qed.

Lemma writes_nth : forall l w i s, nth_error (fw_sets w) i = Some s ->
  exists s', nth_error (fw_sets (fold_left write l w)) i = Some s' /\ f_name s' = f_name s /\
    f_replicas s' = f_replicas s /\ f_tmpl s' = f_tmpl s /\ f_labels s' = f_labels s /\
    ((exists b, In (WSetLabel (f_name s) b) l /\ f_freeze s' = if b then Some "True" else None) \/ f_freeze s' = f_freeze s) /\
    ((exists b, In (WSetCond (f_name s) b) l /\ f_cond s' = b) \/ f_cond s' = f_cond s).
Proof.
  induction l as [|x l IH]; intros w i s H; cbn [fold_left].
  - exists s. repeat split; auto.
  - destruct (write_nth w x i s H) as [s1 [A [B [B2 [B3 [B4 [C D]]]]]]]. destruct (IH _ _ _ A) as [s2 [E [F [F2 [F3 [F4 [G K]]]]]]].
    exists s2. split; auto. split; [congruence|]. split; [congruence|]. split; [congruence|]. split; [congruence|]. rewrite B in G, K. split.
    + destruct G as [[b [G1 G2]]|G]; [left; exists b; split; auto; now right|].
      destruct C as [[b [C1 C2]]|C]; [left; exists b; split; [left; auto|congruence]|right; congruence].
    + destruct K as [[b [G1 G2]]|K]; [left; exists b; split; auto; now right|].
      destruct D as [[b [C1 C2]]|D]; [left; exists b; split; [left; auto|congruence]|right; congruence].
Qed.

Lemma firstn_in : forall A n (l : list A) x, In x (firstn n l) -> In x l.
Proof. induction n; intros l x H; [destruct H|]. destruct l; auto. destruct H; [now left|right; auto]. Qed.

(** The set writes of each part. *)
Lemma no_set_writes_dep : forall d n b, ~ In (WSetLabel n b) (freezeMachineDeployment d) /\ ~ In (WSetLabel n b) (unfreezeMachineDeployment d).
Proof. intros. split; cbn; intuition discriminate. Qed.

Lemma check_labels : forall up down v w n b, In (WSetLabel n b) (checkWrites up down v w) ->
  exists s, f_name s = n /\ check up down v = if b then VFreeze s else VUnfreeze s.
Proof.
  intros up down v w n b H. unfold checkWrites in H. destruct (check up down v) as [|s|s| |]; try (destruct H; fail).
  - unfold freezeMachineSetAndDeployment in H. apply in_app_or in H. destruct H as [H|H].
    + cbn in H. destruct H as [H|[H|[]]]; inversion H; subst. exists s. auto.
    + destruct (getMachineDeploymentsForMachineSet _ _) as [|d r]; [destruct H|]. now apply no_set_writes_dep in H.
  - unfold unfreezeMachineSetAndDeployment in H. apply in_app_or in H. destruct H as [H|H].
    + destruct (getMachineDeploymentsForMachineSet _ _) as [|d r]; [destruct H|]. now apply no_set_writes_dep in H.
    + cbn in H. destruct H as [H|[H|[]]]; inversion H; subst. exists s. auto.
Qed.

Lemma sync_labels : forall sets deps n b, ~ In (WSetLabel n b) (syncWrites sets deps).
Proof.
  intros sets deps n b H. unfold syncWrites in H. apply in_flat_map in H. destruct H as [d [_ H]]. cbv zeta in H.
  repeat match type of H with In _ (if ?c then _ else _) => destruct c end; try (destruct H; fail);
    now apply no_set_writes_dep in H.
Qed.
Lemma unfreeze_deps_labels : forall sets deps n b, ~ In (WSetLabel n b) (unfreezeDepsWrites sets deps).
Proof.
  intros sets deps n b H. unfold unfreezeDepsWrites in H. apply in_flat_map in H. destruct H as [d [_ H]].
  destruct (d_unfreeze d); [|destruct H]. apply in_app_or in H. destruct H as [H|H]; [now apply no_set_writes_dep in H|].
  destruct (sets d) as [l|]; [|destruct H]. apply in_map_iff in H. destruct H as [s [H _]]. discriminate.
Qed.
Lemma unfreeze_sets_labels : forall l n b, In (WSetLabel n b) (unfreezeSetsWrites l) ->
  b = false /\ exists s, In s l /\ f_name s = n /\ f_unfreeze s = true.
Proof.
  intros l n b H. unfold unfreezeSetsWrites in H. apply in_flat_map in H. destruct H as [s [I H]].
  destruct (f_unfreeze s) eqn:E; [|destruct H]. cbn in H. destruct H as [H|[H|[]]]; inversion H; subst. split; auto. exists s. auto.
Qed.

Lemma label_set : forall up down w o i s s', (forall w', o <> FEdit w') ->
  nth_error (fw_sets w) i = Some s -> nth_error (fw_sets (fstep up down w o)) i = Some s' ->
  ~ marked (f_freeze s) -> marked (f_freeze s') ->
  exists v k s0 z, o = FCheck v k /\ In s0 (v_sets v) /\ f_name s0 = f_name s /\ ~ marked (f_freeze s0) /\
    upper up (v_deps v) s0 z /\ (forall n, single_refs (v_machines v) -> counted (backs s0) (v_machines v) n -> z <= n).
Proof.
  intros up down w o i s s' HE HS HS' HN HM.
  destruct o as [v k|sets deps k|sets deps k|l k|w']; cbn [fstep] in HS'; [| | | |exfalso; eapply HE; eauto].
  - destruct (writes_nth (firstn k (checkWrites up down v w)) w i s HS) as [s2 [A [B [_ [_ [_ [C _]]]]]]].
    rewrite A in HS'. inversion HS'; subst s2. destruct C as [[b [C1 C2]]|C]; [|rewrite C in HM; contradiction].
    destruct b; [|rewrite C2 in HM; discriminate].
    apply firstn_in, check_labels in C1. destruct C1 as [s0 [D1 D2]]. unfold check in D2. apply check_freeze in D2.
    destruct D2 as [E1 [E2 [z [E3 [_ E4]]]]]. exists v, k, s0, z. split; [auto|]. split; [auto|]. split; [congruence|]. split; [auto|]. split; [auto|].
    intros n SR CN. rewrite <- (counted_fun _ _ _ _ _ (count_counted s0 _ SR) CN). auto.
  - destruct (writes_nth (firstn k (syncWrites sets deps)) w i s HS) as [s2 [A [B [_ [_ [_ [C _]]]]]]].
    rewrite A in HS'. inversion HS'; subst s2. destruct C as [[b [C1 C2]]|C]; [|rewrite C in HM; contradiction].
    apply firstn_in in C1. now apply sync_labels in C1.
  - destruct (writes_nth (firstn k (unfreezeDepsWrites sets deps)) w i s HS) as [s2 [A [B [_ [_ [_ [C _]]]]]]].
    rewrite A in HS'. inversion HS'; subst s2. destruct C as [[b [C1 C2]]|C]; [|rewrite C in HM; contradiction].
    apply firstn_in in C1. now apply unfreeze_deps_labels in C1.
  - destruct (writes_nth (firstn k (unfreezeSetsWrites l)) w i s HS) as [s2 [A [B [_ [_ [_ [C _]]]]]]].
    rewrite A in HS'. inversion HS'; subst s2. destruct C as [[b [C1 C2]]|C]; [|rewrite C in HM; contradiction].
    apply firstn_in, unfreeze_sets_labels in C1. destruct C1 as [-> _]. rewrite C2 in HM. discriminate.
Qed.

Lemma label_removed : forall up down w o i s s', (forall w', o <> FEdit w') ->
  nth_error (fw_sets w) i = Some s -> nth_error (fw_sets (fstep up down w o)) i = Some s' ->
  marked (f_freeze s) -> ~ marked (f_freeze s') ->
  (exists v k s0 z, o = FCheck v k /\ In s0 (v_sets v) /\ f_name s0 = f_name s /\ (marked (f_freeze s0) \/ f_cond s0 = true) /\
    upper up (v_deps v) s0 z /\ (forall n, single_refs (v_machines v) -> counted (backs s0) (v_machines v) n -> n <= z - down)) \/
  (exists l k s0, o = FUnfreezeSets l k /\ In s0 l /\ f_name s0 = f_name s /\ f_unfreeze s0 = true).
Proof.
  intros up down w o i s s' HE HS HS' HM HN.
  destruct o as [v k|sets deps k|sets deps k|l k|w']; cbn [fstep] in HS'; [| | | |exfalso; eapply HE; eauto].
  - destruct (writes_nth (firstn k (checkWrites up down v w)) w i s HS) as [s2 [A [B [_ [_ [_ [C _]]]]]]].
    rewrite A in HS'. inversion HS'; subst s2. destruct C as [[b [C1 C2]]|C]; [|rewrite C in HN; contradiction].
    destruct b; [exfalso; apply HN; exact C2|].
    apply firstn_in, check_labels in C1. destruct C1 as [s0 [D1 D2]]. unfold check in D2. apply check_unfreeze in D2.
    destruct D2 as [E1 [E2 [z [E3 [_ E4]]]]]. left. exists v, k, s0, z. split; [auto|]. split; [auto|]. split; [congruence|]. split; [auto|]. split; [auto|].
    intros n SR CN. rewrite <- (counted_fun _ _ _ _ _ (count_counted s0 _ SR) CN). auto.
  - destruct (writes_nth (firstn k (syncWrites sets deps)) w i s HS) as [s2 [A [B [_ [_ [_ [C _]]]]]]].
    rewrite A in HS'. inversion HS'; subst s2. destruct C as [[b [C1 C2]]|C]; [|rewrite C in HN; contradiction].
    apply firstn_in in C1. now apply sync_labels in C1.
  - destruct (writes_nth (firstn k (unfreezeDepsWrites sets deps)) w i s HS) as [s2 [A [B [_ [_ [_ [C _]]]]]]].
    rewrite A in HS'. inversion HS'; subst s2. destruct C as [[b [C1 C2]]|C]; [|rewrite C in HN; contradiction].
    apply firstn_in in C1. now apply unfreeze_deps_labels in C1.
  - destruct (writes_nth (firstn k (unfreezeSetsWrites l)) w i s HS) as [s2 [A [B [_ [_ [_ [C _]]]]]]].
    rewrite A in HS'. inversion HS'; subst s2. destruct C as [[b [C1 C2]]|C]; [|rewrite C in HN; contradiction].
    apply firstn_in, unfreeze_sets_labels in C1. destruct C1 as [-> [s0 [I [N U]]]]. right. exists l, k, s0. split; auto.
Qed.

Lemma filter_head : forall A (f : A -> bool) l1 a l2, (forall x, In x l1 -> f x = false) -> f a = true ->
  exists r, filter f (l1 ++ a :: l2) = a :: r.
Proof.
  induction l1 as [|x l1 IH]; intros a l2 H HA; cbn [app filter].
  - rewrite HA. eauto.
  - rewrite (H x) by now left. apply IH; auto. intros. apply H. now right.
Qed.

Lemma surge_fun : forall x r a b, surge x r a -> surge x r b -> a = b.
Proof. intros [z|p|] r a b H1 H2; cbn [surge] in *; try congruence; try contradiction. revert H1 H2. generalize (p * r). intros; lia. Qed.

Lemma upper_limit : forall up deps s z, upper up deps s z -> higherThreshold up deps s = LimitIs z.
Proof.
  intros up deps s z [[H ->]|[d [x [n [[l1 [l2 [E [S F]]]] [HS [HV ->]]]]]]]; unfold higherThreshold; rewrite deps_for.
  - replace (filter _ deps) with (@nil FDep); auto. symmetry.
    induction deps as [|d deps IH]; auto. cbn [filter].
    destruct (match d_sel d with [] => false | _ => selectorMatches (d_sel d) (allLabels s) end) eqn:Q.
    + exfalso. apply selects_b in Q. apply (H d); auto. now left.
    + apply IH. intros d' I. apply H. now right.
  - subst deps. destruct (filter_head _ (fun d => match d_sel d with [] => false | _ => selectorMatches (d_sel d) (allLabels s) end) l1 d l2) as [r R].
    + intros d' I. destruct (match d_sel d' with [] => false | _ => selectorMatches (d_sel d') (allLabels s) end) eqn:Q; auto.
      apply selects_b in Q. exfalso. exact (F d' I Q).
    + now apply selects_b.
    + rewrite R, HS. destruct (GetValueFromIntOrPercent (Some x) (d_replicas d) true) as [m|] eqn:V.
      * apply surge_value in V. destruct V as [y [Y V]]. inversion Y; subst y. now rewrite (surge_fun _ _ _ _ V HV).
      * destruct x; cbn in V; try discriminate. destruct HV.
Qed.

Lemma upper_fun : forall up deps s a b, upper up deps s a -> upper up deps s b -> a = b.
Proof. intros. apply upper_limit in H, H0. congruence. Qed.

(** Writes not naming a set leave it alone. *)
Definition wname (x : Write) : option string :=
  match x with WSetCond n _ | WSetLabel n _ | WSetAnnotate n => Some n | _ => None end.

Lemma write_untouched : forall w x i s, nth_error (fw_sets w) i = Some s -> wname x <> Some (f_name s) ->
  nth_error (fw_sets (write w x)) i = Some s.
Proof.
  intros w x i s H N. destruct x as [n b|n b|n|n b|n b]; cbn [write onFSet onFDep fw_sets wname] in *; auto;
    rewrite nth_error_map, H; cbn [option_map]; destruct (String.eqb (f_name s) n) eqn:E; auto;
    apply String.eqb_eq in E; subst n; congruence.
Qed.
Lemma writes_untouched : forall l w i s, nth_error (fw_sets w) i = Some s ->
  (forall x, In x l -> wname x <> Some (f_name s)) -> nth_error (fw_sets (fold_left write l w)) i = Some s.
Proof.
  induction l as [|x l IH]; intros w i s H N; cbn [fold_left]; auto.
  apply IH; [|intros; apply N; now right]. apply write_untouched; auto. apply N. now left.
Qed.

Lemma check_names : forall up down v w x n, In x (checkWrites up down v w) -> wname x = Some n ->
  exists s, f_name s = n /\ (check up down v = VFreeze s \/ check up down v = VUnfreeze s).
Proof.
  intros up down v w x n H N. unfold checkWrites in H. destruct (check up down v) as [|s|s| |]; try (destruct H; fail); exists s.
  - unfold freezeMachineSetAndDeployment in H. apply in_app_or in H. destruct H as [H|H].
    + cbn in H. destruct H as [H|[H|[]]]; subst x; cbn in N; inversion N; auto.
    + destruct (getMachineDeploymentsForMachineSet _ _) as [|d r]; [destruct H|]. cbn in H. destruct H as [H|[H|[]]]; subst x; discriminate.
  - unfold unfreezeMachineSetAndDeployment in H. apply in_app_or in H. destruct H as [H|H].
    + destruct (getMachineDeploymentsForMachineSet _ _) as [|d r]; [destruct H|]. cbn in H. destruct H as [H|[H|[]]]; subst x; discriminate.
    + cbn in H. destruct H as [H|[H|[]]]; subst x; cbn in N; inversion N; auto.
Qed.

Lemma names_eq : forall l a b, NoDup (map f_name l) -> In a l -> In b l -> f_name a = f_name b -> a = b.
Proof.
  induction l as [|x l IH]; intros a b ND IA IB E; [destruct IA|]. cbn in ND. inversion ND; subst.
  destruct IA as [->|IA], IB as [->|IB]; auto.
  - exfalso. apply H1. rewrite E. now apply in_map.
  - exfalso. apply H1. rewrite <- E. now apply in_map.
Qed.

Lemma between : forall up down w v k i s s0 z n, NoDup (map f_name (v_sets v)) -> single_refs (v_machines v) ->
  nth_error (fw_sets w) i = Some s -> In s0 (v_sets v) -> f_name s0 = f_name s ->
  upper up (v_deps v) s0 z -> counted (backs s0) (v_machines v) n -> z - down < n < z ->
  nth_error (fw_sets (fstep up down w (FCheck v k))) i = Some s.
Proof.
  intros up down w v k i s s0 z n ND SR HS HI HN HU HC HB. cbn [fstep]. apply writes_untouched; auto.
  intros x IX NX. apply firstn_in in IX. apply (check_names _ _ _ _ _ _ IX) in NX. destruct NX as [s1 [N1 [Q|Q]]]; unfold check in Q.
  - apply check_freeze in Q. destruct Q as [I1 [_ [z1 [U1 [_ L]]]]].
    assert (s1 = s0) by (eapply names_eq; eauto; congruence). subst s1.
    rewrite (upper_fun _ _ _ _ _ U1 HU) in L. rewrite (counted_fun _ _ _ _ _ (count_counted s0 _ SR) HC) in L. lia.
  - apply check_unfreeze in Q. destruct Q as [I1 [_ [z1 [U1 [_ L]]]]].
    assert (s1 = s0) by (eapply names_eq; eauto; congruence). subst s1.
    rewrite (upper_fun _ _ _ _ _ U1 HU) in L. rewrite (counted_fun _ _ _ _ _ (count_counted s0 _ SR) HC) in L. lia.
Qed.

Lemma gap : forall up down w1 w2 v1 v2 k1 k2 i s1 s1' s2 s2' a b z n1 n2,
  NoDup (map f_name (v_sets v1)) -> NoDup (map f_name (v_sets v2)) -> single_refs (v_machines v1) -> single_refs (v_machines v2) ->
  nth_error (fw_sets w1) i = Some s1 -> nth_error (fw_sets (fstep up down w1 (FCheck v1 k1))) i = Some s1' ->
  ~ marked (f_freeze s1) -> marked (f_freeze s1') ->
  nth_error (fw_sets w2) i = Some s2 -> nth_error (fw_sets (fstep up down w2 (FCheck v2 k2))) i = Some s2' ->
  marked (f_freeze s2) -> ~ marked (f_freeze s2') ->
  In a (v_sets v1) -> f_name a = f_name s1 -> In b (v_sets v2) -> f_name b = f_name s2 ->
  upper up (v_deps v1) a z -> upper up (v_deps v2) b z ->
  counted (backs a) (v_machines v1) n1 -> counted (backs b) (v_machines v2) n2 -> down <= n1 - n2.
Proof.
  intros up down w1 w2 v1 v2 k1 k2 i s1 s1' s2 s2' a b z n1 n2 ND1 ND2 SR1 SR2 A1 A2 A3 A4 B1 B2 B3 B4 IA NA IB NB UA UB CA CB.
  destruct (label_set up down w1 (FCheck v1 k1) i s1 s1' ltac:(intros; discriminate) A1 A2 A3 A4) as [v [k [x [zx [E [I [N [_ [U L]]]]]]]]].
  inversion E; subst v k. assert (x = a) by (apply (names_eq (v_sets v1)); auto; congruence). subst x.
  destruct (label_removed up down w2 (FCheck v2 k2) i s2 s2' ltac:(intros; discriminate) B1 B2 B3 B4) as [[v [k [y [zy [E2 [I2 [N2 [_ [U2 L2]]]]]]]]]|[l [k [y [E2 _]]]]]; [|discriminate].
  inversion E2; subst v k. assert (y = b) by (apply (names_eq (v_sets v2)); auto; congruence). subst y.
  specialize (L _ SR1 CA). specialize (L2 _ SR2 CB).
  rewrite (upper_fun _ _ _ _ _ U UA) in L. rewrite (upper_fun _ _ _ _ _ U2 UB) in L2. lia.
Qed.

(** Liveness: every pass settles one more set. *)
Definition core (d : FDep) := (d_sel d, d_surge d, d_replicas d).

Lemma sel_free : forall sel s s', f_labels s = f_labels s' -> (forall v, ~ In ("freeze", v) sel) ->
  selectorMatches sel (allLabels s) = selectorMatches sel (allLabels s').
Proof.
  intros sel s s' E NF. unfold selectorMatches. induction sel as [|[k v] sel IH]; auto. cbn [forallb].
  rewrite IH by (intros x I; apply (NF x); now right).
  assert (K : String.eqb "freeze" k = false). { apply String.eqb_neq. intros <-. apply (NF v). now left. }
  assert (A : forall q, lookup k (allLabels q) = lookup k (f_labels q)).
  { intros q. unfold allLabels. destruct (f_freeze q); auto. cbn [lookup]. now rewrite K. }
  now rewrite !A, E.
Qed.

Lemma limit_core : forall up deps deps' s s', map core deps = map core deps' -> f_labels s = f_labels s' -> f_replicas s = f_replicas s' ->
  label_free deps -> higherThreshold up deps s = higherThreshold up deps' s'.
Proof.
  intros up deps deps' s s' E L R NF. unfold higherThreshold. rewrite !deps_for.
  assert (H : map core (filter (fun d => match d_sel d with [] => false | _ => selectorMatches (d_sel d) (allLabels s) end) deps)
            = map core (filter (fun d => match d_sel d with [] => false | _ => selectorMatches (d_sel d) (allLabels s') end) deps')).
  { revert deps' E. induction deps as [|d deps IH]; intros [|d' deps'] E; cbn in E; try discriminate; auto.
    injection E as E1 E2 E3 E4. cbn [filter]. rewrite <- E1.
    assert (IH' := IH (fun d0 v I => NF d0 v (or_intror I)) _ E4). clear IH.
    rewrite <- (sel_free (d_sel d) s s' L) by (intros v; apply NF; now left).
    destruct (d_sel d) eqn:Q; [exact IH'|].
    destruct (selectorMatches (p :: l) (allLabels s)); cbn [map]; [|exact IH'].
    rewrite IH'. unfold core at 1 3. now rewrite Q, E1, E2, E3. }
  destruct (filter _ deps) as [|a r], (filter _ deps') as [|a' r']; cbn [map] in H; try discriminate.
  - now rewrite R.
  - unfold core at 1 3 in H. injection H as H1 H2 H3 _. now rewrite H2, H3.
Qed.

Lemma write_core : forall w x, map core (fw_deps (write w x)) = map core (fw_deps w).
Proof.
  intros w x. destruct x as [n b|n b|n|n b|n b]; cbn [write onFSet onFDep fw_deps]; auto;
    rewrite map_map; apply map_ext; intros d; destruct (String.eqb (d_name d) n); auto.
Qed.
Lemma writes_core : forall l w, map core (fw_deps (fold_left write l w)) = map core (fw_deps w).
Proof. induction l; intros; cbn [fold_left]; auto. rewrite IHl. apply write_core. Qed.

Lemma core_free : forall deps deps', map core deps = map core deps' -> label_free deps -> label_free deps'.
Proof.
  intros deps deps' E NF d v I HI. assert (C : In (core d) (map core deps)) by (rewrite E; now apply in_map).
  apply in_map_iff in C. destruct C as [d0 [C I0]]. unfold core in C. injection C as C1 _ _. apply (NF d0 v I0). now rewrite C1.
Qed.

(** Does the set need action, with the thresholds of [deps]? *)
Definition needs (up down : Z) (deps : list FDep) (machines : list FMachine) (s : FSet) : bool :=
  match higherThreshold up deps s with
  | LimitIs z =>
      let c := fullyLabeledReplicasCount (f_tmpl s) (f_name s) machines in
      (negb (frozen (f_freeze s)) && (z <=? c)) || ((c <=? z - down) && (frozen (f_freeze s) || f_cond s))
  | _ => false
  end.

Lemma settled_needs : forall up down deps machines s, single_refs machines ->
  needs up down deps machines s = false -> settled up down deps machines s.
Proof.
  intros up down deps machines s SR H z n HU HC. unfold needs in H. rewrite (upper_limit _ _ _ _ HU) in H.
  rewrite (counted_fun _ _ _ _ _ (count_counted s _ SR) HC) in H.
  apply orb_false_iff in H. destruct H as [H1 H2]. split.
  - intros. apply frozen_marked. destruct (frozen (f_freeze s)); auto. cbn in H1. lia.
  - intros. replace (n <=? z - down) with true in H2 by lia. cbn in H2. apply orb_false_iff in H2.
    destruct H2. split; auto. now apply frozen_not.
Qed.

Lemma check_first : forall up down v l1 s l2, (forall x, In x (l1 ++ s :: l2) -> exists z, higherThreshold up (v_deps v) x = LimitIs z) ->
  (forall x, In x l1 -> needs up down (v_deps v) (v_machines v) x = false) ->
  needs up down (v_deps v) (v_machines v) s = true ->
  checkLoop up down v (l1 ++ s :: l2) = VFreeze s \/ checkLoop up down v (l1 ++ s :: l2) = VUnfreeze s.
Proof.
  induction l1 as [|a l1 IH]; intros s l2 HL HN HS; cbn [app checkLoop].
  - destruct (HL s (or_introl eq_refl)) as [z E]. unfold needs in HS. rewrite E in *.
    destruct (negb (frozen (f_freeze s)) && _); auto. cbn [orb] in HS. rewrite HS. auto.
  - destruct (HL a (or_introl eq_refl)) as [z E]. assert (Q := HN a (or_introl eq_refl)). unfold needs in Q. rewrite E in *.
    apply orb_false_iff in Q. destruct Q as [Q1 Q2]. rewrite Q1, Q2. apply IH; auto.
    + intros x I. apply HL. now right.
    + intros x I. apply HN. now right.
Qed.

Lemma check_idle : forall up down v l, (forall x, In x l -> needs up down (v_deps v) (v_machines v) x = false) ->
  checkLoop up down v l = VNone \/ checkLoop up down v l = VErr \/ checkLoop up down v l = VPanic.
Proof.
  induction l as [|a l IH]; intros H; cbn [checkLoop]; auto.
  assert (Q := H a (or_introl eq_refl)). unfold needs in Q. destruct (higherThreshold up (v_deps v) a) as [z| |]; auto.
  apply orb_false_iff in Q. destruct Q as [Q1 Q2]. rewrite Q1, Q2. apply IH. intros. apply H. now right.
Qed.

Lemma first_true : forall A (f : A -> bool) l, (forall x, In x l -> f x = false) \/
  exists l1 s l2, l = l1 ++ s :: l2 /\ f s = true /\ forall x, In x l1 -> f x = false.
Proof.
  induction l as [|a l IH]; [left; intros x []|]. destruct (f a) eqn:E.
  - right. exists [], a, l. repeat split; auto. intros x [].
  - destruct IH as [IH|[l1 [s [l2 [A1 [A2 A3]]]]]].
    + left. intros x [<-|I]; auto.
    + right. exists (a :: l1), s, l2. subst. repeat split; auto. intros x [<-|I]; auto.
Qed.

Lemma nodup_app_names : forall (l1 : list FSet) s l2 x, NoDup (map f_name (l1 ++ s :: l2)) -> In x l1 \/ In x l2 -> f_name x <> f_name s.
Proof.
  intros l1 s l2 x ND I. rewrite map_app in ND. cbn [map] in ND. apply NoDup_remove_2 in ND. intros E. apply ND. rewrite <- E.
  apply in_or_app. destruct I; [left|right]; now apply in_map.
Qed.

(** The sets after the writes of a verdict, all of them done. *)
Definition acted (b : bool) (s : FSet) : FSet :=
  mkFSet (f_name s) (f_replicas s) (f_tmpl s) (if b then Some "True" else None) (f_labels s) b (if b then f_unfreeze s else false).

Lemma dep_writes_sets : forall l w, (forall x, In x l -> wname x = None) -> fw_sets (fold_left write l w) = fw_sets w.
Proof.
  induction l as [|x l IH]; intros w H; cbn [fold_left]; auto. rewrite IH by (intros; apply H; now right).
  assert (N := H x (or_introl eq_refl)). destruct x; cbn in N; try discriminate; auto.
Qed.

Lemma two_writes : forall w n b, fw_sets (write (write w (WSetCond n b)) (WSetLabel n b)) =
  map (fun s => if String.eqb (f_name s) n then acted b s else s) (fw_sets w).
Proof.
  intros. cbn [write onFSet fw_sets]. rewrite map_map. apply map_ext. intros s.
  destruct (String.eqb (f_name s) n) eqn:E; cbn [f_name]; rewrite E; auto.
Qed.

Lemma check_effect : forall up down v w s (b : bool), check up down v = (if b then VFreeze s else VUnfreeze s) ->
  fw_sets (fstep up down w (FCheck v 4)) = map (fun x => if String.eqb (f_name x) (f_name s) then acted b x else x) (fw_sets w).
Proof.
  intros up down v w s b H. cbn [fstep]. unfold checkWrites. rewrite H. destruct b.
  - unfold freezeMachineSetAndDeployment.
    destruct (getMachineDeploymentsForMachineSet _ _) as [|d r]; cbn [app firstn freezeMachineDeployment fold_left].
    + now rewrite two_writes.
    + rewrite <- two_writes. cbn [write onFDep fw_sets]. reflexivity.
  - unfold unfreezeMachineSetAndDeployment.
    destruct (getMachineDeploymentsForMachineSet _ _) as [|d r]; cbn [app firstn unfreezeMachineDeployment unfreezeMachineSet fold_left].
    + now rewrite two_writes.
    + rewrite two_writes. cbn [write onFDep fw_sets]. reflexivity.
Qed.

Lemma acted_done : forall up down deps machines s b, 0 < down ->
  (exists z, higherThreshold up deps (acted b s) = LimitIs z /\
    let c := fullyLabeledReplicasCount (f_tmpl s) (f_name s) machines in if b then z <= c else c <= z - down) ->
  needs up down deps machines (acted b s) = false.
Proof.
  intros up down deps machines s b HD [z [E H]]. unfold needs. rewrite E. cbn [acted f_tmpl f_name f_freeze f_cond].
  destruct b; cbn [frozen String.eqb Ascii.eqb Bool.eqb negb andb orb]; cbv zeta in H; [change (frozen (Some "True")) with true; cbn [negb andb orb]|change (frozen None) with false; cbn [negb andb orb]]; lia.
Qed.

Definition open_sets (up down : Z) (deps : list FDep) (machines : list FMachine) (l : list FSet) : list FSet :=
  filter (needs up down deps machines) l.

Lemma map_keep : forall l1 (s : FSet) l2 b, NoDup (map f_name (l1 ++ s :: l2)) ->
  map (fun x => if String.eqb (f_name x) (f_name s) then acted b x else x) (l1 ++ s :: l2) = l1 ++ acted b s :: l2.
Proof.
  intros l1 s l2 b ND. rewrite map_app. cbn [map]. rewrite String.eqb_refl.
  assert (H : forall l, (forall x, In x l -> f_name x <> f_name s) ->
     map (fun x => if String.eqb (f_name x) (f_name s) then acted b x else x) l = l).
  { induction l as [|x l IH]; intros H; auto. cbn [map]. rewrite IH by (intros; apply H; now right).
    assert (N := H x (or_introl eq_refl)). apply String.eqb_neq in N. now rewrite N. }
  rewrite !H; auto; intros x I; apply (nodup_app_names l1 s l2); auto.
Qed.

Lemma needs_core : forall up down deps deps' machines s, map core deps = map core deps' -> label_free deps ->
  needs up down deps machines s = needs up down deps' machines s.
Proof. intros. unfold needs. rewrite (limit_core up deps deps' s s); auto. Qed.

Lemma handled : forall up down machines n w, 0 < down -> single_refs machines -> NoDup (map f_name (fw_sets w)) ->
  label_free (fw_deps w) -> (forall s, In s (fw_sets w) -> exists z, upper up (fw_deps w) s z) ->
  (List.length (open_sets up down (fw_deps w) machines (fw_sets w)) <= n)%nat ->
  forall s, In s (fw_sets (passes n up down machines w)) -> settled up down (fw_deps (passes n up down machines w)) machines s.
Proof.
  intros up down machines n. induction n as [|n IH]; intros w HD SR ND NF HU HL s HI.
  - cbn [passes] in *. apply settled_needs; auto. destruct (needs up down (fw_deps w) machines s) eqn:E; auto. exfalso.
    assert (In s (open_sets up down (fw_deps w) machines (fw_sets w))) by (apply filter_In; auto).
    destruct (open_sets up down (fw_deps w) machines (fw_sets w)); [destruct H|]. cbn in HL. lia.
  - cbn [passes] in HI |- *. set (v := mkView (fw_sets w) (fw_deps w) machines) in *.
    set (w1 := fstep up down w (FCheck v 4)) in *.
    assert (HC : map core (fw_deps w1) = map core (fw_deps w)) by (apply writes_core).
    assert (NF1 : label_free (fw_deps w1)) by exact (core_free _ _ (eq_sym HC) NF).
    destruct (first_true _ (needs up down (fw_deps w) machines) (fw_sets w)) as [Q|[l1 [s0 [l2 [E [S0 S1]]]]]].
    + assert (W : w1 = w).
      { unfold w1. cbn [fstep]. unfold checkWrites, check.
        destruct (check_idle up down v (v_sets v) Q) as [X|[X|X]]; rewrite X; auto. }
      rewrite W in *. apply IH; auto.
      replace (open_sets up down (fw_deps w) machines (fw_sets w)) with (@nil FSet); [cbn; lia|].
      unfold open_sets. clear -Q. induction (fw_sets w) as [|a l IHl]; auto. cbn [filter].
      rewrite (Q a) by now left. apply IHl. intros; apply Q; now right.
    + assert (exists b, check up down v = (if b : bool then VFreeze s0 else VUnfreeze s0)) as [b B].
      { assert (VS : v_sets v = l1 ++ s0 :: l2) by exact E. unfold check. rewrite VS. destruct (check_first up down v l1 s0 l2) as [X|X]; auto.
        - intros x I. cbn [v v_deps]. destruct (HU x) as [z Z]; [rewrite E; auto|]. exists z. now apply upper_limit.
        - exists true. exact X.
        - exists false. exact X. }
      assert (F : fw_sets w1 = l1 ++ acted b s0 :: l2).
      { unfold w1. rewrite (check_effect _ _ _ _ _ _ B), E. apply map_keep. now rewrite <- E. }
      assert (LIM : higherThreshold up (fw_deps w1) (acted b s0) = higherThreshold up (fw_deps w) s0) by (apply limit_core; auto).
      assert (DONE : needs up down (fw_deps w1) machines (acted b s0) = false).
      { apply acted_done; auto. destruct (HU s0) as [z Z]; [rewrite E; apply in_or_app; right; now left|].
        exists z. rewrite LIM, (upper_limit _ _ _ _ Z). split; auto.
        unfold check in B. destruct b.
        - apply check_freeze in B. destruct B as [_ [_ [z1 [Z1 [_ L]]]]]. cbn [v v_deps v_machines] in *.
          rewrite (upper_fun _ _ _ _ _ Z Z1). exact L.
        - apply check_unfreeze in B. destruct B as [_ [_ [z1 [Z1 [_ L]]]]]. cbn [v v_deps v_machines] in *.
          rewrite (upper_fun _ _ _ _ _ Z Z1). exact L. }
      apply IH; auto.
      * rewrite F. rewrite E in ND. rewrite map_app in *. exact ND.
      * intros x I. rewrite F in I. apply in_app_or in I. cbn [In] in I.
        assert (K : forall y, In y (fw_sets w) -> exists z, upper up (fw_deps w1) y z).
        { intros y IY. destruct (HU y IY) as [z Z]. exists z. apply limit_upper. apply upper_limit in Z.
          rewrite (limit_core up (fw_deps w1) (fw_deps w) y y); auto. }
        destruct I as [I|[I|I]].
        -- apply K. rewrite E. apply in_or_app. auto.
        -- subst x. destruct (HU s0) as [z Z]; [rewrite E; apply in_or_app; right; now left|].
           exists z. apply limit_upper. rewrite LIM. now apply upper_limit.
        -- apply K. rewrite E. apply in_or_app. cbn. auto.
      * rewrite F. rewrite E in HL. unfold open_sets in *. rewrite filter_app in *. cbn [filter] in *.
        rewrite S0 in HL. rewrite DONE. rewrite app_length in *. cbn [List.length] in HL.
        assert (G : forall l, filter (needs up down (fw_deps w1) machines) l = filter (needs up down (fw_deps w) machines) l).
        { intros l. apply filter_ext. intros x. apply needs_core; auto. }
        rewrite !G. lia.
Qed.

Lemma handled_all : forall up down machines w, 0 < down -> single_refs machines -> NoDup (map f_name (fw_sets w)) ->
  label_free (fw_deps w) -> (forall s, In s (fw_sets w) -> exists z, upper up (fw_deps w) s z) ->
  forall n, (List.length (fw_sets w) <= n)%nat ->
  forall s, In s (fw_sets (passes n up down machines w)) -> settled up down (fw_deps (passes n up down machines w)) machines s.
Proof.
  intros up down machines w HD SR ND NF HU n HN. apply handled; auto. unfold open_sets.
  assert (forall A (f : A -> bool) l, (List.length (filter f l) <= List.length l)%nat).
  { intros A f l. induction l as [|a l IHl]; auto. cbn [filter]. destruct (f a); cbn [List.length]; lia. }
  specialize (H _ (needs up down (fw_deps w) machines) (fw_sets w)). lia.
Qed.

(** The deployments follow their sets. *)
Lemma dep_write_nth : forall l w i d, nth_error (fw_deps w) i = Some d ->
  (forall x, In x l -> match x with WDepCond n _ | WDepLabel n _ => n <> d_name d | _ => True end) ->
  nth_error (fw_deps (fold_left write l w)) i = Some d.
Proof.
  induction l as [|x l IH]; intros w i d H HN; cbn [fold_left]; auto.
  apply IH; [|intros; apply HN; now right]. assert (N := HN x (or_introl eq_refl)).
  destruct x as [n b|n b|n|n b|n b]; cbn [write onFSet onFDep fw_deps]; auto;
    rewrite nth_error_map, H; cbn [option_map]; destruct (String.eqb (d_name d) n) eqn:E; auto;
    apply String.eqb_eq in E; congruence.
Qed.

Lemma dep_pair : forall w i d b, nth_error (fw_deps w) i = Some d ->
  exists d', nth_error (fw_deps (fold_left write [WDepCond (d_name d) b; WDepLabel (d_name d) b] w)) i = Some d' /\
    d_name d' = d_name d /\ d_freeze d' = (if b then Some "True" else None) /\ d_cond d' = b.
Proof.
  intros w i d b H. cbn [fold_left write onFDep fw_deps]. rewrite !nth_error_map, H. cbn [option_map].
  rewrite String.eqb_refl. cbn [d_name]. rewrite String.eqb_refl. eexists. split; [reflexivity|]. cbn. auto.
Qed.

Definition sync_one (sets : FDep -> option (list FSet)) (d : FDep) : list Write :=
  let has := match sets d with Some l => existsb (fun s => frozen (f_freeze s) || f_cond s) l | None => false end in
  if has then (if negb (frozen (d_freeze d)) || negb (d_cond d) then freezeMachineDeployment d else [])
  else (if frozen (d_freeze d) || d_cond d then unfreezeMachineDeployment d else []).

Lemma sync_one_names : forall sets d x, In x (sync_one sets d) -> match x with WDepCond n _ | WDepLabel n _ => n = d_name d | _ => False end.
Proof.
  intros sets d x H. unfold sync_one in H. cbv zeta in H.
  repeat match type of H with In _ (if ?c then _ else _) => destruct c end; cbn in H; intuition; subst; auto.
Qed.

Lemma sync_effect : forall sets deps w i d l, NoDup (map d_name deps) -> In d deps -> nth_error (fw_deps w) i = Some d ->
  sets d = Some l ->
  exists d', nth_error (fw_deps (fold_left write (syncWrites sets deps) w)) i = Some d' /\ d_name d' = d_name d /\
    ((exists s, In s l /\ (marked (f_freeze s) \/ f_cond s = true)) -> marked (d_freeze d') /\ d_cond d' = true) /\
    ((forall s, In s l -> ~ marked (f_freeze s) /\ f_cond s = false) -> ~ marked (d_freeze d') /\ d_cond d' = false).
Proof.
  intros sets deps w i d l ND HI HN HS.
  apply in_split in HI. destruct HI as [l1 [l2 E]]. subst deps.
  change (syncWrites sets (l1 ++ d :: l2)) with (flat_map (sync_one sets) (l1 ++ d :: l2)).
  rewrite flat_map_app. cbn [flat_map]. rewrite !fold_left_app.
  assert (OTHER : forall q, (forall y, In y q -> d_name y <> d_name d) -> forall x, In x (flat_map (sync_one sets) q) ->
     match x with WDepCond n _ | WDepLabel n _ => n <> d_name d | _ => True end).
  { intros q HQ x I. apply in_flat_map in I. destruct I as [y [IY I]]. apply sync_one_names in I. specialize (HQ y IY).
    destruct x; auto; congruence. }
  assert (NM : forall x, In x l1 \/ In x l2 -> d_name x <> d_name d).
  { intros x I EN. rewrite map_app in ND. cbn [map] in ND. apply NoDup_remove_2 in ND. apply ND. rewrite <- EN.
    apply in_or_app. destruct I; [left|right]; now apply in_map. }
  assert (H1 : nth_error (fw_deps (fold_left write (flat_map (sync_one sets) l1) w)) i = Some d).
  { apply dep_write_nth; auto. apply OTHER. auto. }
  set (w1 := fold_left write (flat_map (sync_one sets) l1) w) in *.
  assert (G : exists d', nth_error (fw_deps (fold_left write (sync_one sets d) w1)) i = Some d' /\ d_name d' = d_name d /\
    ((exists s, In s l /\ (marked (f_freeze s) \/ f_cond s = true)) -> marked (d_freeze d') /\ d_cond d' = true) /\
    ((forall s, In s l -> ~ marked (f_freeze s) /\ f_cond s = false) -> ~ marked (d_freeze d') /\ d_cond d' = false)).
  { unfold sync_one. rewrite HS. cbv zeta.
    destruct (existsb (fun s => frozen (f_freeze s) || f_cond s) l) eqn:X.
    - apply existsb_exists in X. destruct X as [s [IS FS]]. apply orb_true_iff in FS. rewrite frozen_marked in FS.
      assert (CONTRA : (forall s, In s l -> ~ marked (f_freeze s) /\ f_cond s = false) -> False).
      { intros A. destruct (A s IS). destruct FS; [contradiction|congruence]. }
      destruct (negb (frozen (d_freeze d)) || negb (d_cond d)) eqn:Y.
      + destruct (dep_pair w1 i d true H1) as [d' [A [B [C D]]]]. exists d'. split; auto. split; auto. split; [intros; split; auto|intros Z; destruct (CONTRA Z)].
      + apply orb_false_iff in Y. destruct Y as [Y1 Y2]. apply negb_false_iff in Y1, Y2. rewrite frozen_marked in Y1.
        exists d. split; auto. split; auto. split; [auto|intros Z; destruct (CONTRA Z)].
    - assert (NONE : ~ exists s, In s l /\ (marked (f_freeze s) \/ f_cond s = true)).
      { intros [s [IS FS]]. rewrite <- frozen_marked in FS. apply orb_true_iff in FS.
        assert (existsb (fun s => frozen (f_freeze s) || f_cond s) l = true) by (apply existsb_exists; eauto). congruence. }
      destruct (frozen (d_freeze d) || d_cond d) eqn:Y.
      + destruct (dep_pair w1 i d false H1) as [d' [A [B [C D]]]]. exists d'. split; auto. split; auto.
        split; [intros Z; contradiction|]. intros _. split; auto. rewrite C. discriminate.
      + apply orb_false_iff in Y. destruct Y as [Y1 Y2]. exists d. split; auto. split; auto.
        split; [intros Z; contradiction|]. intros _. split; auto. now apply frozen_not. }
  destruct G as [d' [G1 [G2 [G3 G4]]]]. exists d'. split; [|auto].
  apply dep_write_nth; auto. intros x I. rewrite G2. revert x I. apply OTHER. auto.
Qed.

(** The effect of a list of writes on one stored object. *)
Definition setEff (s : FSet) (x : Write) : FSet :=
  match x with
  | WSetCond n b => if String.eqb (f_name s) n then mkFSet (f_name s) (f_replicas s) (f_tmpl s) (f_freeze s) (f_labels s) b (f_unfreeze s) else s
  | WSetLabel n b => if String.eqb (f_name s) n then mkFSet (f_name s) (f_replicas s) (f_tmpl s) (if b then Some "True" else None) (f_labels s)
                        (f_cond s) (if b then f_unfreeze s else false) else s
  | WSetAnnotate n => if String.eqb (f_name s) n then mkFSet (f_name s) (f_replicas s) (f_tmpl s) (f_freeze s) (f_labels s) (f_cond s) true else s
  | _ => s
  end.
Definition depEff (d : FDep) (x : Write) : FDep :=
  match x with
  | WDepCond n b => if String.eqb (d_name d) n then mkFDep (d_name d) (d_replicas d) (d_sel d) (d_surge d) (d_freeze d) b (d_unfreeze d) else d
  | WDepLabel n b => if String.eqb (d_name d) n then mkFDep (d_name d) (d_replicas d) (d_sel d) (d_surge d) (if b then Some "True" else None)
                        (d_cond d) (if b then d_unfreeze d else false) else d
  | _ => d
  end.
Lemma sets_eff : forall l w, fw_sets (fold_left write l w) = map (fun s => fold_left setEff l s) (fw_sets w).
Proof.
  induction l as [|x l IH]; intros w; cbn [fold_left]; [now rewrite map_id|]. rewrite IH.
  destruct x; cbn [write onFSet onFDep fw_sets setEff]; try rewrite map_map; reflexivity.
Qed.
Lemma deps_eff : forall l w, fw_deps (fold_left write l w) = map (fun d => fold_left depEff l d) (fw_deps w).
Proof.
  induction l as [|x l IH]; intros w; cbn [fold_left]; [now rewrite map_id|]. rewrite IH.
  destruct x; cbn [write onFSet onFDep fw_deps depEff]; try rewrite map_map; reflexivity.
Qed.

Definition thawed (d : FDep) : FDep := mkFDep (d_name d) (d_replicas d) (d_sel d) (d_surge d) None false false.
Definition frozenDep (d : FDep) : FDep := mkFDep (d_name d) (d_replicas d) (d_sel d) (d_surge d) (Some "True") true (d_unfreeze d).
Definition thawedSet (s : FSet) : FSet := mkFSet (f_name s) (f_replicas s) (f_tmpl s) None (f_labels s) false false.
Definition asked (s : FSet) (b : bool) : FSet := mkFSet (f_name s) (f_replicas s) (f_tmpl s) (f_freeze s) (f_labels s) (f_cond s) b.

Lemma ask_deps : forall sets deps d0,
  ((exists d, In d deps /\ d_unfreeze d = true /\ d_name d = d_name d0) -> fold_left depEff (unfreezeDepsWrites sets deps) d0 = thawed d0) /\
  ((forall d, In d deps -> d_unfreeze d = true -> d_name d <> d_name d0) -> fold_left depEff (unfreezeDepsWrites sets deps) d0 = d0).
Proof.
  intros sets deps. unfold unfreezeDepsWrites.
  assert (SK : forall (l : list FSet) d, fold_left depEff (map (fun s => WSetAnnotate (f_name s)) l) d = d) by (induction l; intros; cbn; auto).
  assert (SK2 : forall o d, fold_left depEff (match o with Some l => map (fun s => WSetAnnotate (f_name s)) l | None => [] end) d = d) by (intros [l|] d; [apply SK | reflexivity]).
  induction deps as [|d deps IH]; intros d0.
  - split; [intros (d & [] & _) | reflexivity].
  - cbn [flat_map]. rewrite fold_left_app. destruct (d_unfreeze d) eqn:U.
    + rewrite fold_left_app, SK2. cbn [fold_left unfreezeMachineDeployment depEff].
      destruct (String.eqb_spec (d_name d0) (d_name d)) as [E|E].
      * cbn [depEff d_name]. rewrite (proj2 (String.eqb_eq _ _) E). cbn [d_name d_replicas d_sel d_surge d_freeze d_cond d_unfreeze]. fold (thawed d0). split.
        -- intros _. destruct (IH (thawed d0)) as (I1 & I2).
           destruct (existsb (fun x => d_unfreeze x && String.eqb (d_name x) (d_name d0)) deps) eqn:X.
           ++ apply existsb_exists in X as (x & IX & X). apply andb_prop in X as (X1 & X2). apply String.eqb_eq in X2.
              rewrite I1 by (exists x; auto). reflexivity.
           ++ apply I2. intros x IX UX NX. assert (T : existsb (fun x => d_unfreeze x && String.eqb (d_name x) (d_name d0)) deps = true).
              { apply existsb_exists. exists x. split; [exact IX|]. rewrite UX. cbn in NX. rewrite NX. apply String.eqb_refl. } congruence.
        -- intros N. exfalso. apply (N d); auto. now left.
      * rewrite (proj2 (String.eqb_neq _ _) E). split.
        -- intros (x & [<- | IX] & UX & NX); [congruence|]. apply IH. exists x. auto.
        -- intros N. apply IH. intros x IX. apply N. now right.
    + cbn [fold_left]. split.
      * intros (x & [<- | IX] & UX & NX); [congruence|]. apply IH. exists x. auto.
      * intros N. apply IH. intros x IX. apply N. now right.
Qed.

Lemma annot_eff : forall (l : list FSet) s, fold_left setEff (map (fun x => WSetAnnotate (f_name x)) l) s =
  asked s (f_unfreeze s || existsb (fun x => String.eqb (f_name s) (f_name x)) l).
Proof.
  induction l as [|x l IH]; intros s; cbn [map fold_left existsb].
  - rewrite orb_false_r. destruct s; reflexivity.
  - rewrite IH. cbn [setEff]. destruct (String.eqb_spec (f_name s) (f_name x)) as [E|E]; cbn; unfold asked; cbn; f_equal; btauto.
Qed.

Lemma ask_sets : forall sets deps s, exists b, fold_left setEff (unfreezeDepsWrites sets deps) s = asked s b /\
  (b = true <-> f_unfreeze s = true \/ exists d l x, In d deps /\ d_unfreeze d = true /\ sets d = Some l /\ In x l /\ f_name x = f_name s).
Proof.
  intros sets deps. unfold unfreezeDepsWrites. induction deps as [|d deps IH]; intros s.
  - exists (f_unfreeze s). split; [destruct s; reflexivity|]. split; [auto|]. intros [H|(d & l & x & [] & _)]. exact H.
  - cbn [flat_map]. rewrite fold_left_app. destruct (d_unfreeze d) eqn:U.
    + rewrite fold_left_app. cbn [fold_left unfreezeMachineDeployment setEff]. destruct (sets d) as [l|] eqn:L.
      * rewrite annot_eff. destruct (IH (asked s (f_unfreeze s || existsb (fun x => String.eqb (f_name s) (f_name x)) l))) as (b & E & B).
        exists b. split; [rewrite E; reflexivity|]. rewrite B. cbn [f_unfreeze asked f_name]. rewrite orb_true_iff, existsb_exists. split.
        -- intros [[H|(x & I & X)]|(d' & l' & x & I & X)]; [auto | |].
           ++ right. apply String.eqb_eq in X. exists d, l, x. repeat split; auto. now left.
           ++ right. exists d', l', x. split; [now right|]. exact X.
        -- intros [H|(d' & l' & x & [<- | I] & X1 & X2 & X3 & X4)]; [auto | |].
           ++ left. right. rewrite L in X2. injection X2 as <-. exists x. split; [exact X3|]. rewrite X4. apply String.eqb_refl.
           ++ right. exists d', l', x. auto.
      * destruct (IH s) as (b & E & B). exists b. split; [exact E|]. rewrite B. split.
        -- intros [H|(d' & l' & x & I & X)]; [auto|]. right. exists d', l', x. split; [now right|]. exact X.
        -- intros [H|(d' & l' & x & [<- | I] & X1 & X2 & X3)]; [auto | congruence |]. right. exists d', l', x. auto.
    + cbn [fold_left]. destruct (IH s) as (b & E & B). exists b. split; [exact E|]. rewrite B. split.
      * intros [H|(d' & l' & x & I & X)]; [auto|]. right. exists d', l', x. split; [now right|]. exact X.
      * intros [H|(d' & l' & x & [<- | I] & X1 & X2 & X3)]; [auto | congruence |]. right. exists d', l', x. auto.
Qed.

Lemma thaw_sets : forall l s0,
  ((exists s, In s l /\ f_unfreeze s = true /\ f_name s = f_name s0) -> fold_left setEff (unfreezeSetsWrites l) s0 = thawedSet s0) /\
  ((forall s, In s l -> f_unfreeze s = true -> f_name s <> f_name s0) -> fold_left setEff (unfreezeSetsWrites l) s0 = s0).
Proof.
  unfold unfreezeSetsWrites. induction l as [|s l IH]; intros s0.
  - split; [intros (d & [] & _) | reflexivity].
  - cbn [flat_map]. rewrite fold_left_app. destruct (f_unfreeze s) eqn:U.
    + cbn [fold_left unfreezeMachineSet setEff]. destruct (String.eqb_spec (f_name s0) (f_name s)) as [E|E].
      * cbn [setEff f_name]. rewrite (proj2 (String.eqb_eq _ _) E). cbn [f_name f_replicas f_tmpl f_freeze f_labels f_cond f_unfreeze]. fold (thawedSet s0). split.
        -- intros _. destruct (IH (thawedSet s0)) as (I1 & I2).
           destruct (existsb (fun x => f_unfreeze x && String.eqb (f_name x) (f_name s0)) l) eqn:X.
           ++ apply existsb_exists in X as (x & IX & X). apply andb_prop in X as (X1 & X2). apply String.eqb_eq in X2.
              rewrite I1 by (exists x; auto). reflexivity.
           ++ apply I2. intros x IX UX NX. assert (T : existsb (fun x => f_unfreeze x && String.eqb (f_name x) (f_name s0)) l = true).
              { apply existsb_exists. exists x. split; [exact IX|]. rewrite UX. cbn in NX. rewrite NX. apply String.eqb_refl. } congruence.
        -- intros N. exfalso. apply (N s); auto. now left.
      * rewrite (proj2 (String.eqb_neq _ _) E). split.
        -- intros (x & [<- | IX] & UX & NX); [congruence|]. apply IH. exists x. auto.
        -- intros N. apply IH. intros x IX. apply N. now right.
    + cbn [fold_left]. split.
      * intros (x & [<- | IX] & UX & NX); [congruence|]. apply IH. exists x. auto.
      * intros N. apply IH. intros x IX. apply N. now right.
Qed.

(** The check acts on a deployment together with the set. *)
Lemma live_find : forall w i s, NoDup (map f_name (fw_sets w)) -> nth_error (fw_sets w) i = Some s -> liveLabels w (f_name s) = allLabels s.
Proof.
  intros w i s N H. unfold liveLabels. apply nth_error_In in H.
  destruct (find (fun x => String.eqb (f_name x) (f_name s)) (fw_sets w)) as [x|] eqn:F.
  - apply find_some in F as (I & E). apply String.eqb_eq in E. now rewrite (names_eq _ _ _ N I H E).
  - exfalso. apply (find_none _ _ F) in H. rewrite String.eqb_refl in H. discriminate.
Qed.
Lemma parent_first : forall deps s p, parent deps s p -> exists r, getMachineDeploymentsForMachineSet deps (allLabels s) = p :: r.
Proof.
  intros deps s p (l1 & l2 & -> & S & F). rewrite deps_for. apply filter_head; [|now apply selects_b].
  intros x I. match goal with |- ?e = false => destruct e eqn:Q end; [|reflexivity]. apply selects_b in Q. destruct (F x I Q).
Qed.

Lemma set_label_in : forall up down v w k i s s', nth_error (fw_sets w) i = Some s ->
  nth_error (fw_sets (fstep up down w (FCheck v k))) i = Some s' -> f_freeze s' <> f_freeze s ->
  exists b, In (WSetLabel (f_name s) b) (checkWrites up down v w) /\ f_freeze s' = if b then Some "True" else None.
Proof.
  intros up down v w k i s s' H H' N. cbn [fstep] in H'.
  destruct (writes_nth (firstn k (checkWrites up down v w)) w i s H) as (s2 & A & _ & _ & _ & _ & C & _).
  rewrite A in H'. injection H' as ->. destruct C as [(b & I & E)|E]; [|congruence]. exists b. split; [now apply firstn_in in I | exact E].
Qed.

Lemma freeze_dep : forall up down v w i s s' k, NoDup (map f_name (fw_sets w)) -> (4 <= k)%nat ->
  nth_error (fw_sets w) i = Some s -> nth_error (fw_sets (fstep up down w (FCheck v k))) i = Some s' ->
  ~ marked (f_freeze s) -> marked (f_freeze s') -> forall d, In d (fw_deps w) ->
  (forall p, parent (v_deps v) s p -> d_name p = d_name d -> depEff (depEff d (WDepCond (d_name d) true)) (WDepLabel (d_name d) true) = frozenDep d) /\
  fold_left depEff (firstn k (checkWrites up down v w)) d =
    match getMachineDeploymentsForMachineSet (v_deps v) (allLabels s) with p :: _ => if String.eqb (d_name d) (d_name p) then frozenDep d else d | [] => d end.
Proof.
  intros up down v w i s s' k ND K H H' U M d I.
  destruct (set_label_in _ _ _ _ _ _ _ _ H H') as (b & L & E); [intros X; rewrite X in M; contradiction|].
  destruct b; [|rewrite E in M; discriminate]. apply check_labels in L as (s0 & NM & C).
  split.
  - intros p _ _. cbn. rewrite String.eqb_refl. cbn. rewrite String.eqb_refl. reflexivity.
  - unfold checkWrites. rewrite C, NM, (live_find _ _ _ ND H). unfold freezeMachineSetAndDeployment.
    destruct (getMachineDeploymentsForMachineSet (v_deps v) (allLabels s)) as [|p r].
    + rewrite app_nil_r. rewrite firstn_all2 by (cbn; lia). reflexivity.
    + rewrite firstn_all2 by (cbn; lia). cbn [app fold_left freezeMachineDeployment depEff].
      destruct (String.eqb (d_name d) (d_name p)) eqn:Q; cbn [d_name]; rewrite ?Q; reflexivity.
Qed.
Lemma thaw_dep : forall up down v w i s s' k, NoDup (map f_name (v_sets v)) -> (4 <= k)%nat ->
  nth_error (fw_sets w) i = Some s -> nth_error (fw_sets (fstep up down w (FCheck v k))) i = Some s' ->
  marked (f_freeze s) -> ~ marked (f_freeze s') -> forall s0 d, In s0 (v_sets v) -> f_name s0 = f_name s -> In d (fw_deps w) ->
  fold_left depEff (firstn k (checkWrites up down v w)) d =
    match getMachineDeploymentsForMachineSet (v_deps v) (allLabels s0) with p :: _ => if String.eqb (d_name d) (d_name p) then thawed d else d | [] => d end.
Proof.
  intros up down v w i s s' k ND K H H' M U s0 d I0 N0 I.
  destruct (set_label_in _ _ _ _ _ _ _ _ H H') as (b & L & E); [intros X; rewrite X in U; contradiction|].
  destruct b; [exfalso; apply U; exact E|]. apply check_labels in L as (s1 & NM & C).
  assert (s1 = s0). { pose proof C as C'. unfold check in C'. apply check_unfreeze in C'. apply (names_eq (v_sets v)); [exact ND | apply C' | exact I0 | congruence]. } subst s1.
  unfold checkWrites. rewrite C. unfold unfreezeMachineSetAndDeployment.
  destruct (getMachineDeploymentsForMachineSet (v_deps v) (allLabels s0)) as [|p r].
  - cbn [app]. rewrite firstn_all2 by (cbn; lia). reflexivity.
  - rewrite firstn_all2 by (cbn; lia). cbn [app fold_left unfreezeMachineDeployment unfreezeMachineSet depEff].
    destruct (String.eqb (d_name d) (d_name p)) eqn:Q; cbn [d_name]; rewrite ?Q; reflexivity.
Qed.
