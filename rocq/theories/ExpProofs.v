(** Proofs about expectations. *)
Require Import Coq.ZArith.ZArith Coq.Lists.List Coq.Strings.String Coq.Bool.Bool Coq.micromega.Lia.
Require Import Coq.micromega.ZifyBool.
From Verif Require Import Types RolloutModel StatusModel ExpModel ExpSpec.
Import ListNotations.
Open Scope string_scope.
Open Scope list_scope.
Open Scope Z_scope.

Lemma put_same : forall A (m : string -> option A) k v, put m k v k = v.
Proof. intros. unfold put. now rewrite String.eqb_refl. Qed.
Lemma put_other : forall A (m : string -> option A) k k' v, k' <> k -> put m k v k' = m k'.
Proof. intros. unfold put. apply String.eqb_neq in H. now rewrite H. Qed.

(** What a call not resetting [k] does to the entries of [k]. *)
Lemma step_other : forall k x o, ~ resets k o ->
  (forall k', o = XCreationObserved k' -> k' <> k) ->
  (forall k' m, o = XDeletionObserved k' m -> k' <> k) ->
  x_exp (xstep x o) k = x_exp x k /\ x_uids (xstep x o) k = x_uids x k.
Proof.
  intros k x o HR HC HD. destruct o as [now k' n|now k' keys|k'|k' m|k']; cbn [resets] in HR; cbn [xstep].
  - unfold ExpectCreations, SetExpectations; cbn. rewrite put_other by congruence. auto.
  - unfold ExpectDeletions, SetExpectations; cbn. rewrite !put_other by congruence. auto.
  - specialize (HC k' eq_refl). unfold CreationObserved, LowerExpectations.
    destruct (x_exp x k') eqn:E; cbn; auto. rewrite put_other by congruence. auto.
  - specialize (HD k' m eq_refl). unfold DeletionObserved.
    destruct (x_uids x k') eqn:E; cbn; auto. destruct (existsb _ _); cbn; auto.
    unfold LowerExpectations. destruct (x_exp x k'); cbn; rewrite ?put_other by congruence; auto.
  - unfold DeleteExpectations; cbn. rewrite !put_other by congruence. auto.
Qed.

Lemma creation_step : forall k x e, x_exp x k = Some e ->
  x_exp (CreationObserved k x) k = Some (mkExp (e_add e - 1) (e_del e) (e_time e)) /\ x_uids (CreationObserved k x) k = x_uids x k.
Proof.
  intros. unfold CreationObserved, LowerExpectations. rewrite H. cbn. rewrite put_same. split; auto.
  replace (e_del e - 0) with (e_del e) by lia. auto.
Qed.

Lemma deletion_step : forall k m x e, x_exp x k = Some e ->
  (exists u, x_uids x k = Some u /\ In m u /\
     x_exp (DeletionObserved k m x) k = Some (mkExp (e_add e) (e_del e - 1) (e_time e)) /\
     x_uids (DeletionObserved k m x) k = Some (filter (fun a => negb (String.eqb m a)) u)) \/
  ((forall u, x_uids x k = Some u -> ~ In m u) /\ DeletionObserved k m x = x).
Proof.
  intros. unfold DeletionObserved. destruct (x_uids x k) as [u|] eqn:E.
  - destruct (existsb (String.eqb m) u) eqn:X.
    + left. exists u. apply existsb_exists in X. destruct X as [a [Ha Hm]]. apply String.eqb_eq in Hm. subst a.
      unfold LowerExpectations. rewrite H. cbn. rewrite !put_same. repeat split; auto.
      replace (e_add e - 0) with (e_add e) by lia. auto.
    + right. split; auto. intros u' HU HI. inversion HU; subst u'.
      assert (existsb (String.eqb m) u = true) by (apply existsb_exists; exists m; split; auto; apply String.eqb_refl). congruence.
  - right. split; auto. intros. discriminate.
Qed.

(** After ExpectCreations: the counter is the number still awaited, and the deletion
    counter is never positive. *)
Lemma creations_invariant : forall k h x n t d, Forall (fun o => ~ resets k o) h ->
  x_exp x k = Some (mkExp n d t) -> d <= 0 ->
  exists d', x_exp (fold_left xstep h x) k = Some (mkExp (n - creations k h) d' t) /\ d' <= 0.
Proof.
  induction h as [|o h IH]; intros x n t d HF HX HD; cbn [fold_left creations].
  - exists d. replace (n - 0) with n by lia. auto.
  - inversion HF; subst.
    destruct o as [now k' n'|now k' keys|k'|k' m|k'].
    1,2,5: (eapply IH; eauto; rewrite (proj1 (step_other k x _ H1 ltac:(intros; discriminate) ltac:(intros; discriminate))); auto).
    + destruct (String.eqb k' k) eqn:E.
      * apply String.eqb_eq in E. subst k'.
        destruct (creation_step k x _ HX) as [A _]. cbn in A. cbn [xstep].
        destruct (IH _ _ _ _ H2 A HD) as [d' [B C]]. exists d'. split; auto. rewrite B. f_equal. f_equal. lia.
      * apply String.eqb_neq in E.
        destruct (step_other k x (XCreationObserved k') H1) as [A _]; try (intros; congruence).
        rewrite <- A in HX. exact (IH _ _ _ _ H2 HX HD).
    + destruct (string_dec k' k) as [E|E].
      * subst k'. cbn [xstep]. destruct (deletion_step k m x _ HX) as [[u [_ [_ [A _]]]]|[_ A]].
        -- cbn in A. apply (IH _ _ _ (d - 1)); auto. lia.
        -- rewrite A. eapply IH; eauto.
      * destruct (step_other k x (XDeletionObserved k' m) H1) as [A _]; try (intros; congruence).
        rewrite <- A in HX. eapply IH; eauto.
Qed.

Lemma filter_out_length : forall m u, NoDup u -> In m u ->
  Z.of_nat (List.length (filter (fun a => negb (String.eqb m a)) u)) = Z.of_nat (List.length u) - 1.
Proof.
  induction u as [|a u IH]; intros ND HI; [destruct HI|]. inversion ND; subst. cbn [filter].
  destruct (String.eqb m a) eqn:E; cbn [negb].
  - apply String.eqb_eq in E. subst a.
    assert (F : filter (fun a => negb (String.eqb m a)) u = u).
    { clear -H1. induction u as [|b u IHu]; auto. cbn [filter].
      destruct (String.eqb m b) eqn:E; cbn [negb].
      - apply String.eqb_eq in E. subst. exfalso. apply H1. now left.
      - f_equal. apply IHu. intro. apply H1. now right. }
    rewrite F. cbn [List.length]. lia.
  - apply String.eqb_neq in E. destruct HI as [HI|HI]; [congruence|]. cbn [List.length].
    specialize (IH H2 HI). lia.
Qed.

(** After ExpectDeletions: the counter is the number of keys not observed yet. *)
Lemma deletions_invariant : forall k h x a t u, Forall (fun o => ~ resets k o) h ->
  x_exp x k = Some (mkExp a (Z.of_nat (List.length u)) t) -> a <= 0 -> x_uids x k = Some u -> NoDup u ->
  exists a' u', x_exp (fold_left xstep h x) k = Some (mkExp a' (Z.of_nat (List.length u')) t) /\ a' <= 0 /\
    x_uids (fold_left xstep h x) k = Some u' /\ NoDup u' /\
    (forall m, In m u' <-> In m u /\ ~ In (XDeletionObserved k m) h).
Proof.
  induction h as [|o h IH]; intros x a t u HF HX HA HU ND; cbn [fold_left].
  - exists a, u. repeat split; auto; tauto.
  - inversion HF; subst.
    assert (REST : forall x', x_exp x' k = x_exp x k -> x_uids x' k = x_uids x k -> (forall m, o <> XDeletionObserved k m) ->
       exists a' u', x_exp (fold_left xstep h x') k = Some (mkExp a' (Z.of_nat (List.length u')) t) /\ a' <= 0 /\
         x_uids (fold_left xstep h x') k = Some u' /\ NoDup u' /\
         (forall m, In m u' <-> In m u /\ ~ In (XDeletionObserved k m) (o :: h))).
    { intros x' E1 E2 HN. rewrite <- E1 in HX. rewrite <- E2 in HU.
      destruct (IH _ _ _ _ H2 HX HA HU ND) as [a' [u' [B1 [B2 [B3 [B4 B5]]]]]].
      exists a', u'. split; [exact B1|]. split; [exact B2|]. split; [exact B3|]. split; [exact B4|].
      intros m. rewrite B5. cbn [In]. specialize (HN m). tauto. }
    destruct o as [now k' n'|now k' keys|k'|k' m|k'].
    1,2,5: (destruct (step_other k x _ H1 ltac:(intros; discriminate) ltac:(intros; discriminate)); apply REST; auto; intros; discriminate).
    + destruct (string_dec k' k) as [E|E].
      * subst k'. destruct (creation_step k x _ HX) as [A B]. cbn in A. cbn [xstep].
        rewrite <- B in HU. destruct (IH _ _ _ _ H2 A ltac:(lia) HU ND) as [a' [u' [B1 [B2 [B3 [B4 B5]]]]]].
        exists a', u'. split; [exact B1|]. split; [exact B2|]. split; [exact B3|]. split; [exact B4|].
        intros m. rewrite B5. cbn [In]. intuition discriminate.
      * destruct (step_other k x (XCreationObserved k') H1) as [A B]; try (intros; congruence).
        apply REST; auto; intros; discriminate.
    + destruct (string_dec k' k) as [E|E].
      * subst k'. cbn [xstep]. destruct (deletion_step k m x _ HX) as [[v [V [I [A B]]]]|[N A]].
        -- rewrite HU in V. inversion V; subst v. cbn in A.
           rewrite <- (filter_out_length m u ND I) in A.
           destruct (IH _ _ _ _ H2 A HA B (NoDup_filter _ ND)) as [a' [u' [B1 [B2 [B3 [B4 B5]]]]]].
           exists a', u'. split; [exact B1|]. split; [exact B2|]. split; [exact B3|]. split; [exact B4|].
           intros m'. rewrite B5, filter_In. cbn [In].
           destruct (string_dec m m') as [Q|Q].
           ++ subst m'. rewrite String.eqb_refl. cbn. intuition discriminate.
           ++ apply String.eqb_neq in Q as Q'. rewrite Q'. cbn. intuition congruence.
        -- rewrite A. destruct (IH _ _ _ _ H2 HX HA HU ND) as [a' [u' [B1 [B2 [B3 [B4 B5]]]]]].
           exists a', u'. split; [exact B1|]. split; [exact B2|]. split; [exact B3|]. split; [exact B4|].
           intros m'. rewrite B5. cbn [In]. split; [|tauto].
           intros [C1 C2]. split; auto. intros [C3|C3]; [|tauto]. inversion C3; subst m'. exact (N u HU C1).
      * destruct (step_other k x (XDeletionObserved k' m) H1) as [A B]; try (intros; congruence).
        apply REST; auto; intros; congruence.
Qed.

Lemma xop_dec : forall a b : XOp, {a = b} + {a <> b}.
Proof. decide equality; first [apply string_dec | apply Z.eq_dec | apply (list_eq_dec string_dec)]. Qed.

Lemma satisfied_creations : forall h1 h2 k n t now, Forall (fun o => ~ resets k o) h2 ->
  (SatisfiedExpectations now k (xrun (h1 ++ XExpectCreations t k n :: h2)) = true <->
   n <= creations k h2 \/ now - t > 300 * 1000000000).
Proof.
  intros. unfold xrun. rewrite fold_left_app. cbn [fold_left].
  destruct (creations_invariant k h2 (xstep (fold_left xstep h1 xinit) (XExpectCreations t k n)) n t 0 H) as [d' [A B]].
  - cbn. apply put_same.
  - lia.
  - unfold SatisfiedExpectations. rewrite A. unfold Fulfilled, isExpired, ExpectationsTimeout, second. cbn [e_add e_del e_time].
    destruct ((n - creations k h2 <=? 0) && (d' <=? 0)) eqn:E; split; intros; auto; lia.
Qed.

Lemma satisfied_deletions : forall h1 h2 k keys t now, Forall (fun o => ~ resets k o) h2 ->
  (SatisfiedExpectations now k (xrun (h1 ++ XExpectDeletions t k keys :: h2)) = true <->
   (forall m, In m keys -> In (XDeletionObserved k m) h2) \/ now - t > 300 * 1000000000).
Proof.
  intros. unfold xrun. rewrite fold_left_app. cbn [fold_left].
  destruct (deletions_invariant k h2 (xstep (fold_left xstep h1 xinit) (XExpectDeletions t k keys)) 0 t (newSet keys) H)
    as [a' [u' [A [B [_ [_ C]]]]]].
  - cbn. apply put_same.
  - lia.
  - cbn. apply put_same.
  - unfold newSet. apply NoDup_nodup.
  - unfold SatisfiedExpectations. rewrite A. unfold Fulfilled, isExpired, ExpectationsTimeout, second. cbn [e_add e_del e_time].
    assert (D : u' = [] <-> forall m, In m keys -> In (XDeletionObserved k m) h2).
    { split.
      - intros -> m HM. destruct (in_dec xop_dec (XDeletionObserved k m) h2) as [Q|Q]; auto.
        exfalso. apply (proj2 (C m)). split; auto. unfold newSet. now apply nodup_In.
      - intros Q. destruct u' as [|m u']; auto. exfalso.
        destruct (proj1 (C m) (or_introl eq_refl)) as [P1 P2]. apply P2, Q. unfold newSet in P1. now apply nodup_In in P1. }
    destruct u' as [|m u'].
    + cbn [List.length]. replace ((a' <=? 0) && (Z.of_nat 0 <=? 0)) with true by lia.
      split; auto. intros _. left. now apply D.
    + replace ((a' <=? 0) && (Z.of_nat (List.length (m :: u')) <=? 0)) with false by (cbn [List.length]; lia).
      split; [intros; right; lia|]. intros [Q|Q]; [|lia]. apply D in Q. discriminate.
Qed.

Lemma satisfied_none : forall h1 h2 k now, Forall (fun o => ~ resets k o) h2 ->
  SatisfiedExpectations now k (xrun h2) = true /\ SatisfiedExpectations now k (xrun (h1 ++ XForget k :: h2)) = true.
Proof.
  assert (A : forall h x k, Forall (fun o => ~ resets k o) h -> x_exp x k = None -> x_exp (fold_left xstep h x) k = None).
  { induction h as [|o h IH]; intros x k HF HX; cbn [fold_left]; auto. inversion HF; subst. apply IH; auto.
    destruct o as [now k' n|now k' keys|k'|k' m|k'].
    1,2,5: (rewrite (proj1 (step_other k x _ H1 ltac:(intros; discriminate) ltac:(intros; discriminate))); auto).
    - cbn. unfold CreationObserved, LowerExpectations. destruct (x_exp x k') eqn:E; auto. cbn.
      rewrite put_other; auto. congruence.
    - cbn. unfold DeletionObserved. destruct (x_uids x k'); auto. destruct (existsb _ _); auto. cbn.
      unfold LowerExpectations. destruct (x_exp x k') eqn:E; auto. cbn. rewrite put_other; auto. congruence. }
  intros. unfold SatisfiedExpectations, xrun. split.
  - rewrite A; auto.
  - rewrite fold_left_app. cbn [fold_left]. rewrite A; auto. cbn. apply put_same.
Qed.

(** With the gate, the counter is exactly what is outstanding. *)
Definition ginv (w : GWorld) : Prop :=
  NoDup (g_pending w) /\ Forall (fun m => (m < g_next w)%nat) (g_pending w) /\
  match x_exp (g_exp w) gkey with
  | Some e => e_add e = Z.of_nat (g_todo w) + Z.of_nat (List.length (g_pending w)) /\ e_del e = 0
  | None => g_todo w = O /\ g_pending w = []
  end.

Lemma nat_filter_length : forall m u, NoDup u -> In m u ->
  Z.of_nat (List.length (filter (fun a => negb (Nat.eqb m a)) u)) = Z.of_nat (List.length u) - 1.
Proof.
  induction u as [|a u IH]; intros ND HI; [destruct HI|]. inversion ND; subst. cbn [filter].
  destruct (Nat.eqb m a) eqn:E; cbn [negb].
  - apply Nat.eqb_eq in E. subst a.
    assert (F : filter (fun a => negb (Nat.eqb m a)) u = u).
    { clear -H1. induction u as [|b u IHu]; auto. cbn [filter].
      destruct (Nat.eqb m b) eqn:E; cbn [negb].
      - apply Nat.eqb_eq in E. subst. exfalso. apply H1. now left.
      - f_equal. apply IHu. intro. apply H1. now right. }
    rewrite F. cbn [List.length]. lia.
  - apply Nat.eqb_neq in E. destruct HI as [HI|HI]; [congruence|]. cbn [List.length].
    specialize (IH H2 HI). lia.
Qed.

Lemma observed_inv : forall x e, x_exp x gkey = Some e ->
  exists e', x_exp (CreationObserved gkey x) gkey = Some e' /\ e_add e' = e_add e - 1 /\ e_del e' = e_del e.
Proof.
  intros. destruct (creation_step gkey x e H) as [A _]. eexists. split; [exact A|]. cbn. auto.
Qed.

Lemma ginv_step : forall w o, ginv w ->
  match o with
  | GReconcile now _ => match x_exp (g_exp w) gkey with Some e => now - e_time e <= 300 * 1000000000 | None => True end
  | _ => True
  end -> ginv (gstep true w o).
Proof.
  intros w o (ND & LT & HE) HT. destruct o as [now n|ok| |m]; cbn [gstep].
  - destruct (g_todo w) as [|t] eqn:T; [|unfold ginv; rewrite T; auto].
    destruct (x_exp (g_exp w) gkey) as [e|] eqn:X.
    + cbn [andb]. destruct (SatisfiedExpectations now gkey (g_exp w)) eqn:Q; cbn [negb].
      * unfold SatisfiedExpectations in Q. rewrite X in Q. unfold Fulfilled, isExpired, ExpectationsTimeout, second in Q.
        destruct HE as [H1 H2]. assert (P : g_pending w = []).
        { destruct (g_pending w) as [|a p]; auto. exfalso. cbn [List.length] in H1.
          destruct ((e_add e <=? 0) && (e_del e <=? 0)) eqn:Z1; lia. }
        unfold ginv; cbn. rewrite P. split; [constructor|]. split; [constructor|]. split; auto.
        rewrite H1 in *. cbn. lia.
      * unfold ginv. rewrite X, T. auto.
    + destruct HE as [_ P]. rewrite P.
      unfold SatisfiedExpectations. rewrite X. cbn [andb negb].
      unfold ginv; cbn. split; [constructor|]. split; [constructor|]. split; auto. lia.
  - destruct (g_todo w) as [|t] eqn:T; [unfold ginv; rewrite T; auto|].
    destruct (x_exp (g_exp w) gkey) as [e|] eqn:X; [|destruct HE; discriminate].
    destruct HE as [H1 H2]. destruct ok.
    + unfold ginv; cbn [g_exp g_todo g_pending g_next]. rewrite X. split.
      * constructor; auto. intro I. rewrite Forall_forall in LT. specialize (LT _ I). lia.
      * split. { constructor; [lia|]. eapply Forall_impl; [|exact LT]. cbn. intros; lia. }
        cbn [List.length]. split; auto. lia.
    + destruct (observed_inv _ _ X) as [e' [A [B C]]].
      unfold ginv; cbn [g_exp g_todo g_pending g_next]. rewrite A. repeat split; auto; lia.
  - destruct (g_todo w) as [|t] eqn:T; [unfold ginv; rewrite T; auto|].
    destruct (x_exp (g_exp w) gkey) as [e|] eqn:X; [|destruct HE; discriminate].
    destruct HE as [H1 H2]. destruct (observed_inv _ _ X) as [e' [A [B C]]].
    unfold ginv; cbn [g_exp g_todo g_pending g_next]. rewrite A. repeat split; auto; lia.
  - destruct (existsb (Nat.eqb m) (g_pending w)) eqn:E; [|exact (conj ND (conj LT HE))].
    apply existsb_exists in E. destruct E as [a [I Q]]. apply Nat.eqb_eq in Q. subst a.
    destruct (x_exp (g_exp w) gkey) as [e|] eqn:X.
    + destruct HE as [H1 H2]. destruct (observed_inv _ _ X) as [e' [A [B C]]].
      unfold ginv; cbn [g_exp g_todo g_pending g_next]. rewrite A. split; [now apply NoDup_filter|].
      split. { apply Forall_forall. intros y Hy. apply filter_In in Hy. rewrite Forall_forall in LT. apply LT, Hy. }
      rewrite (nat_filter_length m _ ND I). split; lia.
    + destruct HE as [_ P]. rewrite P in I. destruct I.
Qed.

Lemma ginv_run : forall l w, ginv w -> timely w l -> ginv (fold_left (gstep true) l w).
Proof.
  induction l as [|o l IH]; intros w HI HT; cbn [fold_left]; auto.
  destruct HT as [H1 H2]. apply IH; auto. now apply ginv_step.
Qed.

Lemma gate_sound : forall l now, timely ginit l ->
  (match x_exp (g_exp (grun true l)) gkey with Some e => now - e_time e <= 300 * 1000000000 | None => True end) ->
  (SatisfiedExpectations now gkey (g_exp (grun true l)) = true <->
   g_todo (grun true l) = O /\ g_pending (grun true l) = []).
Proof.
  intros l now HT HN.
  assert (I : ginv (grun true l)).
  { apply ginv_run; auto. repeat split; cbn; auto. constructor. }
  destruct I as (ND & LT & HE). unfold SatisfiedExpectations.
  destruct (x_exp (g_exp (grun true l)) gkey) as [e|].
  - destruct HE as [H1 H2]. unfold Fulfilled, isExpired, ExpectationsTimeout, second.
    destruct (g_pending (grun true l)) as [|a p]; cbn [List.length] in H1.
    + destruct ((e_add e <=? 0) && (e_del e <=? 0)) eqn:Q; split; intros; try lia; try (split; auto; lia).
    + destruct ((e_add e <=? 0) && (e_del e <=? 0)) eqn:Q; split; intros; try lia; destruct H as [_ H]; discriminate.
  - split; auto.
Qed.
