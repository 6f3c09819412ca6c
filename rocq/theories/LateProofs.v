(** A MachineDeployment ends where its last change says, however far the cache lags (C111): lemmas. *)
Require Import Coq.ZArith.ZArith Coq.Lists.List Coq.Strings.String Coq.Bool.Bool Coq.micromega.Lia.
Require Import Coq.Sorting.Permutation.
From Verif Require Import Types Sort RolloutModel RolloutSpec RolloutProofs ScaleModel ScaleSpec ScaleProofs RecreateModel RecreateSpec RecreateProofs.
From Verif Require Import WholeModel WholeSpec WholeProofs WishModel WishSpec WishProofs LateModel LateSpec.
Import ListNotations.
Open Scope Z_scope.
Require Import Coq.micromega.ZifyBool.

(** *** Sets by name *)
Lemma called_some : forall nm l t, called nm l = Some t -> In t l /\ name t = nm.
Proof. intros nm l t H. apply find_some in H. destruct H as (A & B). apply String.eqb_eq in B. split; [exact A|exact B]. Qed.
Lemma called_in : forall l t, NoDup (map name l) -> In t l -> called (name t) l = Some t.
Proof.
  induction l as [|a l IH]; intros t N H; [contradiction|]. cbn [map] in N. inversion N as [|? ? N1 N2]; subst. unfold called in *. cbn [find].
  destruct H as [<-|H]; [change (ms_name (obj a)) with (name a); rewrite String.eqb_refl; reflexivity|].
  change (ms_name (obj a)) with (name a). destruct (String.eqb (name a) (name t)) eqn:E; [|auto].
  apply String.eqb_eq in E. exfalso. apply N1. rewrite E. apply in_map. exact H.
Qed.
Lemma accepted_spec : forall w v t, proper w -> In t (p_sets w) -> accepted w v (name t) = true ->
  exists a, In a v /\ called (name t) v = Some a /\ t_tmpl a = t_tmpl t /\ obj a = obj t.
Proof.
  intros w v t (N & _) Ht H. unfold accepted in H. rewrite (called_in _ _ N Ht) in H. destruct (called (name t) v) as [a|] eqn:E; [|discriminate].
  apply andb_true_iff in H. destruct H as (H1 & H2). destruct (ms_dec (obj a) (obj t)) as [D|]; [|discriminate].
  exists a. split; [apply (called_some _ _ _ E)|]. split; [reflexivity|]. split; [lia|exact D].
Qed.

(** *** Writes *)
Definition put (w : Dep) (f : TSet -> MachineSet) : Dep := withSets w (map (fun t => withObj t (f t)) (p_sets w)).
Definition puts (w : Dep) (f : TSet -> MachineSet) : Prop := forall t, In t (p_sets w) -> res (dep w) (f t) (obj t) /\ 0 <= ms_spec (f t).
Lemma put_keeps : forall f, keeps (fun t => withObj t (f t)).
Proof. intros f t. reflexivity. Qed.
Lemma put_proper : forall w f, proper w -> puts w f -> proper (put w f).
Proof.
  intros w f P H. apply map_proper; [exact P|apply put_keeps|]. intros t Ht. destruct (H t Ht) as (R & L). split.
  - unfold name, withObj. cbn [t_x x_set]. exact (res_name _ _ _ R).
  - destruct P as (_ & _ & C & _). rewrite Forall_forall in C. destruct (C t Ht) as ((S1 & S2 & S3) & U). unfold sane_set, withObj. cbn [t_x x_set x_have x_up].
    split; [|exact U]. unfold sane_ms. split; [exact L|]. destruct R as [->|(k & ->)]; cbn; unfold obj; auto.
Qed.
Lemma put_moved : forall w f, puts w f -> moved w (put w f).
Proof.
  intros w f H. repeat split. intros n E. unfold put. rewrite newSet_map by apply put_keeps. rewrite E. eexists. split; [reflexivity|].
  unfold name, withObj. cbn [t_x x_set]. exact (res_name _ _ _ (proj1 (H n (proj1 (new_in w n E))))).
Qed.
Lemma put_known : forall w f, puts w f -> size_known w -> size_known (put w f).
Proof.
  intros w f H K. unfold size_known in *. unfold put. cbn [withSets p_sets p_size]. rewrite Forall_forall in K. apply Forall_mapx, Forall_forall.
  intros t Ht L m Em. unfold withObj in Em, L. unfold spec in L. cbn [t_x x_set] in Em, L.
  destruct (H t Ht) as ([Eq|(j & Eq)] & _); rewrite Eq in Em, L; [exact (K t Ht L m Em)|]. cbn in Em. congruence.
Qed.
Lemma put_totals : forall w f, proper w -> 0 < p_size w -> puts w f -> totals w -> totals (put w f).
Proof.
  intros w f P H F D. unfold totals in *. cbn [put withSets p_sets]. rewrite Forall_forall in D. apply Forall_mapx, Forall_forall. intros t Ht.
  apply (res_total w (obj t)); [exact P|exact H|exact (proj1 (F t Ht))|exact (D t Ht)].
Qed.
Lemma put_id : forall w, put w obj = w.
Proof.
  intros [a b c d e f l]. unfold put, withSets. cbn [p_tmpl p_size p_surge p_unavail p_paused p_back p_sets]. f_equal.
  induction l as [|t l IH]; [reflexivity|]. cbn [map]. rewrite withObj_id. f_equal. exact IH.
Qed.
Lemma puts_id : forall w, proper w -> puts w obj.
Proof. intros w (_ & _ & C & _) t Ht. split; [left; reflexivity|]. rewrite Forall_forall in C. apply (C t Ht). Qed.
Lemma put_todo : forall w f, (forall t, In t (p_sets w) ->
    (t_tmpl t = p_tmpl w -> Z.abs (p_size w - ms_spec (f t)) <= Z.abs (p_size w - spec t)) /\ (t_tmpl t <> p_tmpl w -> ms_spec (f t) <= spec t)) ->
  todo (put w f) <= todo w.
Proof.
  intros w f H. unfold todo, put. cbn [withSets p_sets p_tmpl p_size]. apply sum_map_le. intros t Ht. cbn [withObj t_tmpl]. destruct (H t Ht) as (A & B).
  unfold withObj, spec at 1 2. cbn [t_x x_set]. destruct (t_tmpl t =? p_tmpl w) eqn:E; [apply A; lia|apply B; lia].
Qed.

(** *** Scaling *)
Lemma done_in : forall w v plan p, In p (done w v plan) -> In p plan /\ accepted w v (ms_name (fst p)) = true.
Proof.
  intros w v plan p. induction plan as [|(s, n) r IH]; intro H; [contradiction|]. cbn [done] in H. destruct (accepted w v (ms_name s)) eqn:E.
  - destruct H as [<-|H]; [split; [left; reflexivity|exact E]|]. destruct (IH H). split; [right; assumption|assumption].
  - destruct (ms_dec _ _); [|contradiction]. destruct (IH H). split; [right; assumption|assumption].
Qed.
Definition fscale (w : Dep) (v : list TSet) (plan : list (MachineSet * Z)) (t : TSet) : MachineSet := resized (dep w) (done w v plan) (obj t).
Lemma fscale_puts : forall w v plan, proper w -> Forall (fun p => 0 <= snd p) plan -> puts w (fscale w v plan).
Proof.
  intros w v plan P H t Ht. split; [apply resized_res|]. unfold fscale, resized. destruct (find _ _) as [p|] eqn:E; [|apply (puts_id w P t Ht)].
  apply find_some in E. destruct E as (E & _). apply done_in in E. rewrite Forall_forall in H. exact (H p (proj1 E)).
Qed.
Lemma dep_view : forall w v, dep (withSets w v) = dep w.
Proof. reflexivity. Qed.
Lemma scaleBehind_spec : forall w v k, proper w -> proper (withSets w v) -> shares_defined (withSets w v) ->
  exists f, scaleBehind w v k = put w f /\ puts w f.
Proof.
  intros w v k P Pv D. destruct (scale_defined _ Pv D) as (plan & E & Hp). rewrite dep_view in E. unfold scaleBehind. rewrite E.
  exists (fscale w v (firstn k plan)). split; [reflexivity|]. apply fscale_puts; [exact P|apply firstn_plan_pos; exact Hp].
Qed.
Lemma scaleBehind_zero : forall w v n k, proper w -> proper (withSets w v) -> newSet (withSets w v) = Some n -> Forall (fun t => spec t <= 0) v ->
  exists f, scaleBehind w v k = put w f /\ puts w f /\ todo (put w f) <= todo w.
Proof.
  intros w v n k P Pv N Z0. pose proof (scale_zero (withSets w v) n N Z0) as E. rewrite dep_view in E. unfold scaleBehind. rewrite E. cbn [withSets p_size].
  exists (fscale w v (firstn k [(obj n, p_size w)])). split; [reflexivity|]. split.
  { apply fscale_puts; [exact P|]. apply firstn_plan_pos. constructor; [|constructor]. cbn [snd]. destruct P as (_ & _ & _ & H & _). exact H. }
  apply put_todo. intros t Ht. unfold fscale, resized. destruct (find _ _) as [p|] eqn:F; [|unfold spec, obj; split; intro; lia].
  apply find_some in F. destruct F as (F1 & F2). apply done_in in F1. destruct F1 as (F1 & F3). apply String.eqb_eq in F2.
  assert (p = (obj n, p_size w)) as ->. { destruct k; [contradiction|]. cbn [firstn] in F1. rewrite firstn_nil in F1. destruct F1 as [<-|[]]. reflexivity. }
  cbn [fst snd] in *. rewrite F2 in F3. destruct (accepted_spec w v t P Ht F3) as (a & A1 & A2 & A3 & A4).
  destruct (new_in _ _ N) as (N1 & N2). cbn [withSets p_sets p_tmpl] in N1, N2.
  assert (a = n) as ->. { destruct Pv as (Nv & _). cbn [withSets p_sets] in Nv. pose proof (called_in v n Nv N1) as C. change (name n) with (ms_name (obj n)) in C. rewrite F2 in C. change (ms_name (obj t)) with (name t) in C. congruence. }
  rewrite Forall_forall in Z0. specialize (Z0 n N1). cbn [resize set_size ms_spec]. unfold spec in *. change (x_set (t_x t)) with (obj t). rewrite <- A4. unfold obj.
  pose proof P as (_ & _ & _ & HR & _). split; intro; [lia|]. congruence.
Qed.

(** *** The rollout *)
Lemma view_names : forall w v n, proper (withSets w v) -> newSet (withSets w v) = Some n ->
  NoDup (map ms_name (obj n :: map obj (oldSets (withSets w v)))).
Proof.
  intros w v n Pv N. pose proof (emb_sane _ _ Pv N) as (E & _). rewrite emb_names in E. cbn [map] in *. rewrite map_map. exact E.
Qed.
Lemma rollBehind_spec : forall w v n api, proper w -> proper (withSets w v) -> newSet (withSets w v) = Some n ->
  exists f, rollBehind w v api = put w f /\ puts w f /\ todo (put w f) <= todo w.
Proof.
  intros w v n api P Pv N. unfold rollBehind. rewrite N.
  set (vo := map obj (oldSets (withSets w v))). destruct (rolloutRolling (guarded w v api (obj n)) (dep w) (obj n) vo) as [n' o'] eqn:E.
  exists (fun t => written (obj n :: vo) (n' :: o') (obj t)).
  pose proof (view_names w v n Pv N) as ND. fold vo in ND.
  pose proof (emb_sane _ _ Pv N) as (_ & Sv). rewrite emb_sets in Sv. cbn [map] in Sv. inversion Sv as [|? ? Sn So]; subst.
  assert (nonneg_specs vo) as Np.
  { unfold vo. apply sane_pos. apply Forall_mapx. apply (Forall_mapx _ _ sane_set t_x) in So. eapply Forall_impl; [|exact So]. intros t (S & _). exact S. }
  assert (relcp (accepted w v) o' vo) as R.
  { eapply rolling_cur; [| |exact Np|exact E]; cbn [guarded api_clean api_down]; intros s Hs; apply andb_true_iff in Hs; apply Hs. }
  destruct (rolling_new_cur _ _ _ _ _ _ E) as (Sm & C). cbn [guarded api_new] in C.
  destruct (rolling_new_cases _ _ _ _ _ _ E) as (G & _). destruct (rolling_res _ _ _ _ _ _ E) as (Rn & _).
  pose proof (reconcile_new_bounds (api_new (guarded w v api (obj n))) (dep w) (vo ++ [obj n]) (obj n) ltac:(left; eexists; eexists; reflexivity)) as (J1 & J2).
  cbv zeta in J1, J2. rewrite <- G in J1, J2. change (md_replicas (dep w)) with (p_size w) in J1, J2.
  destruct (new_in _ _ N) as (N1 & N2). cbn [withSets p_sets p_tmpl] in N1, N2.
  pose proof P as (_ & _ & C0 & HR & _). rewrite Forall_forall in C0.
  (* what becomes of a stored set *)
  assert (forall t, In t (p_sets w) -> let s := written (obj n :: vo) (n' :: o') (obj t) in
    s = obj t \/ (t_tmpl t = p_tmpl w /\ obj n = obj t /\ s = n') \/ (t_tmpl t <> p_tmpl w /\ res (dep w) s (obj t) /\ rel s (obj t))) as K.
  { intros t Ht. cbv zeta. unfold written. destruct (lookup (ms_name (obj t)) (obj n :: vo)) as [a|] eqn:L1; [|left; reflexivity].
    destruct (lookup (ms_name (obj t)) (n' :: o')) as [b|] eqn:L2; [|left; reflexivity]. destruct (ms_dec a b) as [|Hne]; [left; reflexivity|].
    right. apply lookup_some in L2. destruct L2 as (I2 & M2). destruct I2 as [<-|I2].
    - left. assert (ms_name n' = ms_name (obj n)) as Nn by apply Sm.
      assert (a = obj n) as ->. { rewrite <- M2, Nn in L1. unfold lookup in L1. cbn [find] in L1. rewrite String.eqb_refl in L1. congruence. }
      destruct C as [C|C]; [congruence|]. apply andb_true_iff in C. destruct C as (_ & C). rewrite <- Nn, M2 in C.
      change (ms_name (obj t)) with (name t) in C. destruct (accepted_spec w v t P Ht C) as (x & A1 & A2 & A3 & A4).
      assert (x = n) as ->. { destruct Pv as (Nv & _). cbn [withSets p_sets] in Nv. pose proof (called_in v n Nv N1) as Q. unfold name in Q, A2. change (x_set (t_x n)) with (obj n) in Q. change (x_set (t_x t)) with (obj t) in A2. rewrite <- Nn, M2 in Q. congruence. }
      split; [congruence|]. split; [exact A4|reflexivity].
    - right. destruct (relcp_pair _ _ _ _ R I2) as (b0 & I0 & (R0 & C1)). pose proof (rel_name _ _ R0) as Nm.
      assert (a = b0) as ->. { assert (lookup (ms_name b0) (obj n :: vo) = Some b0) as L0 by (apply lookup_in; [exact ND|right; exact I0]). rewrite <- Nm, M2 in L0. congruence. }
      destruct C1 as [C1|C1]; [congruence|]. rewrite <- Nm, M2 in C1. change (ms_name (obj t)) with (name t) in C1.
      destruct (accepted_spec w v t P Ht C1) as (x & A1 & A2 & A3 & A4).
      unfold vo in I0. apply in_map_iff in I0. destruct I0 as (y & Y1 & Y2).
      assert (x = y) as ->.
      { destruct Pv as (Nv & _). cbn [withSets p_sets] in Nv. assert (In y v) as Y3 by (unfold oldSets in Y2; cbn [withSets p_sets] in Y2; apply filter_In in Y2; tauto).
        pose proof (called_in v y Nv Y3) as Q. unfold name in Q, A2. change (x_set (t_x y)) with (obj y) in Q. change (x_set (t_x t)) with (obj t) in A2. rewrite Y1, <- Nm, M2 in Q. congruence. }
      assert (b0 = obj t) as Eb by congruence. split; [|split; [|rewrite <- Eb; exact R0]].
      + unfold oldSets in Y2. apply filter_In in Y2. destruct Y2 as (_ & Y2). unfold isNew in Y2. cbn [withSets p_tmpl] in Y2. rewrite <- A3. lia.
      + rewrite <- Eb. destruct (rolling_res _ _ _ _ _ _ E) as (_ & Fr). destruct (Fr b I2) as (c & C2 & C3).
        replace b0 with c; [exact C3|]. eapply (key_inj _ _ ms_name); [inversion ND; eassumption|exact C2| |].
        * unfold vo. apply in_map_iff. exists y. split; [exact Y1|exact Y2].
        * rewrite <- Nm. symmetry. exact (res_name _ _ _ C3). }
  split; [reflexivity|]. split.
  - intros t Ht. destruct (K t Ht) as [->|[(T & Eo & ->)|(T & Rs & Rl)]].
    + apply (puts_id w P t Ht).
    + rewrite <- Eo. split; [exact Rn|]. destruct Sn as ((Sn & _) & _). change (0 <= ms_spec (obj n)) in Sn. lia.
    + split; [exact Rs|]. destruct Rl as (_ & Rl & _). lia.
  - apply put_todo. intros t Ht. change (spec t) with (ms_spec (obj t)). destruct (K t Ht) as [->|[(T & Eo & ->)|(T & Rs & Rl)]].
    + split; intro; lia.
    + rewrite <- Eo. split; intro; [|contradiction]. lia.
    + split; intro; [contradiction|]. destruct Rl as (_ & Rl & _). lia.
Qed.

(** *** The set of the template *)
(* What a lagging reconcile may see. *)
Definition seeing (w : Dep) (v : list TSet) (late : option TSet) (a : Calls) : Prop :=
  proper (withSets w (views v late)) /\ named w v a.
Lemma views_proper : forall w v late, proper (withSets w (views v late)) -> proper (withSets w v).
Proof.
  intros w v [t|] P; [|exact P]. destruct P as (A & B & C & D). cbn [views withSets p_sets map] in *. inversion A; inversion B; inversion C; subst.
  split; [assumption|]. split; [assumption|]. split; [assumption|]. exact D.
Qed.
Lemma ensureBehind_spec : forall w v late a w1 v1, proper w -> seeing w v late a -> ensureBehind w v late a = Some (w1, v1) ->
  proper w1 /\ proper (withSets w1 v1) /\ same_but_sets w w1 /\ (exists n, newSet (withSets w1 v1) = Some n) /\
  (w1 = w \/ exists n, newSet w = None /\ made w w1 n).
Proof.
  intros w v late a w1 v1 P (Pl & Na) E. pose proof (views_proper w v late Pl) as Pv. unfold ensureBehind in E.
  destruct (newSet (withSets w v)) as [n|] eqn:H.
  { injection E as <- <-. split; [exact P|]. split; [exact Pv|]. split; [repeat split|]. split; [eauto|left; reflexivity]. }
  unfold createBehind in E. destruct (existsb _ (p_sets w)) eqn:X.
  - destruct late as [t|]; [|discriminate]. destruct (_ && _) eqn:Y; [|discriminate]. injection E as <- <-. apply andb_true_iff in Y. destruct Y as (_ & Y).
    split; [exact P|]. split; [exact Pl|]. split; [repeat split|]. split; [|left; reflexivity].
    exists t. unfold newSet, isNew. cbn [withSets p_sets p_tmpl find]. rewrite Y. reflexivity.
  - destruct (a_make a); [|discriminate]. cbn [negb] in E. destruct (createdMS _ _ _ _) as [s|] eqn:C; [|discriminate]. injection E as <- <-.
    destruct (created_spec w _ _ _ _ P C) as (C1 & C2 & C3 & C4 & C5).
    assert (forall t, In t (p_sets w) -> name t <> a_name a /\ t_tmpl t <> p_tmpl w) as F.
    { intros t Ht. destruct (String.eqb (name t) (a_name a) || (t_tmpl t =? p_tmpl w)) eqn:Q.
      - exfalso. assert (existsb (fun t => String.eqb (ms_name (obj t)) (a_name a) || (t_tmpl t =? p_tmpl w)) (p_sets w) = true) as G; [|congruence].
        apply existsb_exists. exists t. split; [exact Ht|exact Q].
      - apply orb_false_iff in Q. destruct Q as (Q1 & Q2). apply String.eqb_neq in Q1. split; [exact Q1|lia]. }
    destruct (new_none _ H) as (_ & Hv). cbn [withSets p_sets p_tmpl] in Hv.
    assert (forall l, NoDup (map name l) -> NoDup (map t_tmpl l) -> Forall (fun t => sane_set (t_x t)) l ->
      (forall t, In t l -> name t <> a_name a /\ t_tmpl t <> p_tmpl w) -> proper (withSets w (mkT (p_tmpl w) (mkX s 0 0) :: l))) as Pr.
    { intros l L1 L2 L3 L4. destruct P as (_ & _ & _ & P4). unfold proper. cbn [withSets p_sets p_size p_surge p_unavail map]. split; [|split; [|split; [|exact P4]]].
      - constructor; [|exact L1]. intro I0. apply in_map_iff in I0. destruct I0 as (t & E0 & Ht). destruct (L4 t Ht) as (L5 & _). apply L5. rewrite E0. exact C1.
      - constructor; [|exact L2]. intro I0. apply in_map_iff in I0. destruct I0 as (t & E0 & Ht). destruct (L4 t Ht) as (_ & L5). apply L5. exact E0.
      - constructor; [|exact L3]. split; [exact C2|cbn; lia]. }
    split. { destruct P as (P1 & P2 & P3 & _). apply Pr; assumption. }
    split.
    { destruct Pv as (V1 & V2 & V3 & _). cbn [withSets p_sets] in V1, V2, V3. apply Pr; try assumption. intros t Ht.
      assert (t_tmpl t <> p_tmpl w) as Q. { intro Q. apply Hv. apply in_map_iff. exists t. auto. }
      split; [|exact Q]. intro Q'. apply Q. exact (Na t Ht Q'). }
    split; [repeat split|]. split.
    { exists (mkT (p_tmpl w) (mkX s 0 0)). unfold newSet, isNew. cbn [withSets p_sets p_tmpl find t_tmpl]. rewrite Z.eqb_refl. reflexivity. }
    right. exists (mkT (p_tmpl w) (mkX s 0 0)). split.
    + destruct (newSet w) as [m|] eqn:M; [|reflexivity]. destruct (new_in w m M) as (M1 & M2). destruct (F m M1). contradiction.
    + unfold made. split; [reflexivity|]. split; [reflexivity|]. split; [reflexivity|]. split; [reflexivity|]. split; [exact C2|]. split; [exact C3|]. split; [exact C4|exact C5].
Qed.

(** *** A reconcile on a lagging cache *)
Definition allowed (w : Dep) (v : list TSet) (late : option TSet) (a : Calls) : Prop := possible w (Behind v late a).
Lemma scale_either : forall w v k, proper w -> proper (withSets w v) -> (p_paused w = true \/ ~ size_known (withSets w v) -> shares_defined (withSets w v)) ->
  isScalingEvent (dep w) (option_map obj (newSet (withSets w v))) (map obj (oldSets (withSets w v))) = true ->
  exists f, scaleBehind w v k = put w f /\ puts w f /\ (size_known (withSets w v) -> todo (put w f) <= todo w).
Proof.
  intros w v k P Pv D Ev. destruct (event_cases (withSets w v) Pv Ev) as ((n & Hn) & [(_ & Z0 & K)|K]).
  - destruct (scaleBehind_zero w v n k P Pv Hn Z0) as (f & A & B & C). exists f. auto.
  - destruct (scaleBehind_spec w v k P Pv (D (or_intror K))) as (f & A & B). exists f. split; [exact A|]. split; [exact B|]. intro; contradiction.
Qed.
(* What it leaves behind: written sets, or those and a new one, or another template after a rollback. *)
Lemma behind_cases : forall w v late a, proper w -> allowed w v late a -> let w' := reconcileBehind w v late a in
  (exists f, w' = put w f /\ puts w f /\ (size_known (withSets w (views v late)) -> p_paused w = false -> todo w' <= todo w)) \/
  (p_paused w = false /\ exists w1, proper w1 /\ same_but_sets w w1 /\ (w1 = w \/ exists n, newSet w = None /\ made w w1 n) /\
     ((exists f, w' = put w1 f /\ puts w1 f /\ todo w' <= todo w1) \/ (p_back w <> None /\ (w' = w1 \/ exists t, w' = mkDep t (p_size w1) (p_surge w1) (p_unavail w1) (p_paused w1) None (p_sets w1))))).
Proof.
  intros w v late a P (S & D) w'. destruct S as (Pl & Na). pose proof (views_proper w v late Pl) as Pv. unfold w', reconcileBehind.
  destruct (p_paused w) eqn:U.
  { left. destruct (scaleBehind_spec w v (a_writes a) P Pv (D (or_introl eq_refl))) as (f & A & B). exists f. split; [exact A|]. split; [exact B|]. discriminate. }
  assert (exists f, w = put w f /\ puts w f /\ (size_known (withSets w (views v late)) -> false = false -> todo w <= todo w)) as Nothing.
  { exists obj. split; [symmetry; apply put_id|]. split; [apply puts_id; exact P|]. intros _ _. lia. }
  destruct (p_back w) as [nm|] eqn:B.
  - destruct (ensureBehind w v late a) as [(w1, v1)|] eqn:E; [|left; exact Nothing].
    destruct (ensureBehind_spec w v late a w1 v1 P (conj Pl Na) E) as (P1 & _ & Sa & _ & M). right. split; [reflexivity|]. exists w1. split; [exact P1|]. split; [exact Sa|]. split; [exact M|].
    right. split; [discriminate|]. destruct (a_dep a); [right; eexists; reflexivity|left; reflexivity].
  - destruct (isScalingEvent _ _ _) eqn:Ev.
    + left. destruct (scale_either w v (a_writes a) P Pv ltac:(rewrite U; exact D) Ev) as (f & A1 & A2 & A3). exists f. split; [exact A1|]. split; [exact A2|].
      intros K _. rewrite A1. apply A3. unfold size_known in *. cbn [withSets p_sets p_size] in *. destruct late as [t|]; [cbn [views] in K; inversion K; assumption|exact K].
    + destruct (ensureBehind w v late a) as [(w1, v1)|] eqn:E; [|left; exact Nothing].
      destruct (ensureBehind_spec w v late a w1 v1 P (conj Pl Na) E) as (P1 & Pv1 & Sa & (n & Hn) & M). right. split; [reflexivity|]. exists w1. split; [exact P1|]. split; [exact Sa|]. split; [exact M|].
      left. destruct (rollBehind_spec w1 v1 n (a_roll a) P1 Pv1 Hn) as (f & A1 & A2 & A3). exists f. split; [exact A1|]. split; [exact A2|]. rewrite A1. exact A3.
Qed.
Lemma behind_proper : forall w v late a, proper w -> allowed w v late a -> proper (reconcileBehind w v late a).
Proof.
  intros w v late a P A. destruct (behind_cases w v late a P A) as [(f & -> & F & _)|(_ & w1 & P1 & _ & _ & [(f & -> & F & _)|(_ & [->|(t & ->)])])];
    [apply put_proper; assumption|apply put_proper; assumption|exact P1|exact P1].
Qed.
Lemma behind_settings : forall w v late a, proper w -> allowed w v late a -> settings (reconcileBehind w v late a) = settings w /\
  (p_back w = None -> wish (reconcileBehind w v late a) = wish w /\ p_back (reconcileBehind w v late a) = None).
Proof.
  intros w v late a P A. destruct (behind_cases w v late a P A) as [(f & -> & _)|(_ & w1 & _ & (W & Pp & Pb) & _ & C)]; [repeat split; auto|].
  assert (settings w1 = settings w) as S. { unfold settings, wish in *. injection W as W1 W2 W3 W4. congruence. }
  destruct C as [(f & -> & _)|(B & [->|(t & ->)])].
  - split; [exact S|]. intro Q. split; [exact W|]. transitivity (p_back w1); [reflexivity|congruence].
  - split; [exact S|]. intro Q. contradiction.
  - split; [exact S|]. intro Q. contradiction.
Qed.
Lemma made_new : forall w w1 n, made w w1 n -> newSet w1 = Some n.
Proof. intros w w1 n (-> & T & _). unfold newSet, isNew. cbn [withSets p_sets p_tmpl find]. rewrite T, Z.eqb_refl. reflexivity. Qed.
Lemma behind_begun : forall w v late a, proper w -> allowed w v late a -> begun w ->
  begun (reconcileBehind w v late a) /\ (size_known w -> size_known (reconcileBehind w v late a)).
Proof.
  intros w v late a P A B. destruct (behind_cases w v late a P A) as [(f & -> & F & _)|(_ & w1 & P1 & _ & M & C)].
  - split; [apply (moved_begun w _ (put_moved w f F) B)|apply put_known; exact F].
  - destruct B as (B1 & B2 & (n & B3)). destruct M as [->|(m & M & _)]; [|congruence]. destruct C as [(f & -> & F & _)|(C & _)]; [|contradiction].
    split; [apply (moved_begun w _ (put_moved w f F)); repeat split; eauto|apply put_known; exact F].
Qed.
Lemma behind_taken : forall w v late a, proper w -> allowed w v late a -> taken_up w ->
  taken_up (reconcileBehind w v late a) /\ wish (reconcileBehind w v late a) = wish w /\
  (size_known (withSets w (views v late)) -> todo (reconcileBehind w v late a) <= todo w).
Proof.
  intros w v late a P A T. apply taken_begun in T. destruct T as (B & K). destruct (behind_begun w v late a P A B) as (B' & K').
  split; [apply taken_begun; auto|]. destruct B as (B1 & B2 & (n & B3)). destruct (behind_settings w v late a P A) as (_ & S). split; [apply S; exact B2|].
  intro Kv. destruct (behind_cases w v late a P A) as [(f & _ & _ & L)|(_ & w1 & _ & _ & M & C)]; [apply L; assumption|].
  destruct M as [->|(m & M & _)]; [|congruence]. destruct C as [(f & _ & _ & L)|(C & _)]; [exact L|contradiction].
Qed.
Lemma behind_totals : forall w v late a, proper w -> allowed w v late a -> 0 < p_size w -> totals w -> totals (reconcileBehind w v late a).
Proof.
  intros w v late a P A H D. destruct (behind_cases w v late a P A) as [(f & -> & F & _)|(_ & w1 & P1 & (W & _) & M & C)]; [apply put_totals; assumption|].
  assert (0 < p_size w1) as H1 by (unfold wish in W; injection W as W1 W2 W3 W4; lia).
  assert (totals w1) as D1.
  { destruct M as [->|(m & _ & M)]; [exact D|]. destruct M as (-> & _ & _ & _ & _ & _ & _ & M). destruct (surge_ex w P) as (_ & B).
    constructor; [|exact D]. exists (p_size w + MaxSurge (dep w)). split; [exact M|lia]. }
  destruct C as [(f & -> & F & _)|(_ & [->|(t & ->)])]; [apply put_totals; assumption|exact D1|exact D1].
Qed.

(** *** Runs *)
Definition good (past : list TSet) : Prop := Forall (fun t => sane_set (t_x t) /\ exists z, ms_max (obj t) = AnnInt z /\ 0 < z) past.
Lemma good_now : forall w, proper w -> totals w -> good (p_sets w).
Proof. intros w (_ & _ & C & _) D. unfold good, totals in *. rewrite Forall_forall in *. intros t Ht. split; [exact (C t Ht)|exact (D t Ht)]. Qed.
Lemma modest_allowed : forall past w v late a, proper w -> good past -> modest past w (Behind v late a) -> allowed w v late a.
Proof.
  intros past w v late a P G ((I1 & I2 & I3) & Na & M). unfold good in G. rewrite Forall_forall in G.
  assert (proper (withSets w (views v late))) as Pv.
  { destruct P as (_ & _ & _ & P4). split; [exact I2|]. split; [exact I3|]. split; [|exact P4]. apply Forall_forall. intros t Ht. apply (G t (I1 t Ht)). }
  split; [split; assumption|]. intros _ sg Sg _. cbn [withSets p_surge p_size p_sets] in *. specialize (M sg Sg). rewrite Forall_forall in M. apply Forall_forall. intros t Ht _.
  assert (In t (views v late)) as Ht' by (destruct late; [right|]; exact Ht).
  destruct (G t (I1 t Ht')) as (_ & z & Z1 & Z2). exists z. split; [exact Z1|]. split; [exact Z2|exact (M t Ht)].
Qed.
(* One step of a modest life. *)
Notation may := possible (only parsing).
Lemma modest_step : forall past w o, proper w -> 0 < p_size w -> totals w -> good past -> modest past w o ->
  may w o /\ proper (step w o) /\ 0 < p_size (step w o) /\ totals (step w o) /\ good (p_sets (step w o) ++ past).
Proof.
  intros past w o P H D G M.
  assert (may w o /\ proper (step w o) /\ 0 < p_size (step w o) /\ totals (step w o)) as (A & B & C & E).
  { destruct o as [v late a|o]; cbn [may step].
    - pose proof (modest_allowed past w v late a P G M) as A. split; [exact A|]. split; [apply behind_proper; assumption|].
      destruct (behind_settings w v late a P A) as (S & _). unfold settings in S. split; [congruence|apply behind_totals; assumption].
    - cbn [modest] in M. pose proof (modest_possible w o D M) as A. split; [exact A|]. split; [apply step_proper; assumption|]. split; [apply modest_size; assumption|apply step_totals; assumption]. }
  repeat (split; [assumption|]). apply Forall_app. split; [apply good_now; assumption|exact G].
Qed.
Lemma modest_run : forall l past w, proper w -> 0 < p_size w -> totals w -> good past -> lived modest past w l ->
  always may w l /\ proper (run w l) /\ 0 < p_size (run w l) /\ totals (run w l).
Proof.
  intros l. induction l as [|o l IH]; intros past w P H D G A; [split; [exact I|auto]|]. destruct A as (A1 & A2).
  destruct (modest_step past w o P H D G A1) as (B1 & B2 & B3 & B4 & B5). destruct (IH _ _ B2 B3 B4 B5 A2) as (C1 & C2). split; [split; assumption|exact C2].
Qed.
Lemma may_proper : forall w o, proper w -> may w o -> proper (step w o).
Proof. intros w o P M. destruct o as [v late a|o]; [apply behind_proper; assumption|apply step_proper; assumption]. Qed.
Lemma run_may : forall l w, proper w -> always may w l -> proper (run w l).
Proof. intros l. induction l as [|o l IH]; intros w P A; [exact P|]. destruct A as (A1 & A2). apply (IH (step w o)); [apply may_proper; assumption|exact A2]. Qed.
Lemma run_app : forall l m w, run w (l ++ m) = run (run w l) m.
Proof. intros. apply fold_left_app. Qed.
Lemma always_app : forall P l m w, always P w (l ++ m) <-> always P w l /\ always P (run w l) m.
Proof.
  intros P l. induction l as [|o l IH]; intros m w; [cbn; tauto|]. cbn [app always]. change (run w (o :: l)) with (run (step w o) l). rewrite IH. tauto.
Qed.
Lemma step_settings : forall w o, proper w -> may w o -> no_edit o ->
  settings (step w o) = settings w /\ (p_back w = None -> wish (step w o) = wish w /\ p_back (step w o) = None).
Proof. intros w o P M N. destruct o as [v late a|o]; [apply behind_settings; assumption|apply WishProofs.step_settings; exact N]. Qed.
Lemma run_settings : forall l w, proper w -> always may w l -> Forall no_edit l -> settings (run w l) = settings w /\ (p_back w = None -> wish (run w l) = wish w).
Proof.
  intros l. induction l as [|o l IH]; intros w P A N; [split; [reflexivity|intros _; reflexivity]|]. inversion N as [|? ? N1 N2]; subst. destruct A as (A1 & A2).
  destruct (step_settings w o P A1 N1) as (B & C). destruct (IH (step w o) (may_proper w o P A1) A2 N2) as (E & D). change (run w (o :: l)) with (run (step w o) l). split; [congruence|].
  intro Q. destruct (C Q) as (C1 & C2). rewrite (D C2). exact C1.
Qed.
Lemma begun_step : forall w o, proper w -> may w o -> no_edit o -> begun w -> begun (step w o).
Proof. intros w o P M N B. destruct o as [v late a|o]; [apply behind_begun; assumption|apply WishProofs.begun_step; assumption]. Qed.
Lemma taken_step : forall w o, proper w -> may w o -> no_edit o -> taken_up w -> taken_up (step w o) /\ wish (step w o) = wish w /\ (sees_size w o -> todo (step w o) <= todo w).
Proof.
  intros w o P M N T. destruct o as [v late a|o].
  - destruct (behind_taken w v late a P M T) as (A & B & C). split; [exact A|]. split; [exact B|]. intro S. apply C.
    unfold size_known. cbn [withSets p_sets p_size]. apply Forall_forall. intros t Ht L n E. exact (S t n Ht L E).
  - destruct (WishProofs.taken_step w o P T M N) as (A & B & C). auto.
Qed.
Lemma taken_run : forall l w, proper w -> taken_up w -> always may w l -> Forall no_edit l -> taken_up (run w l) /\ wish (run w l) = wish w.
Proof.
  intros l. induction l as [|o l IH]; intros w P T A N; [split; [exact T|reflexivity]|]. destruct A as (A1 & A2). inversion N as [|? ? N1 N2]; subst.
  destruct (taken_step w o P A1 N1 T) as (B1 & B2 & _). destruct (IH (step w o) (may_proper w o P A1) B1 A2 N2) as (C1 & C2).
  change (run w (o :: l)) with (run (step w o) l). split; [exact C1|congruence].
Qed.
Lemma two_successes : forall l w, proper w -> p_paused w = false -> always may w l -> Forall no_edit l ->
  (count successful 2 w l -> taken_up (run w l)) /\ (begun w -> count successful 1 w l -> taken_up (run w l)).
Proof.
  intros l. induction l as [|o l IH]; intros w P U A N; [split; [intros []|intros _ []]|]. pose proof A as (A1 & A2). inversion N as [|? ? N1 N2]; subst.
  change (run w (o :: l)) with (run (step w o) l). pose proof (may_proper w o P A1) as P1.
  assert (p_paused (step w o) = false) as U1. { destruct (step_settings w o P A1 N1) as (S & _). unfold settings in S. congruence. }
  destruct (IH (step w o) P1 U1 A2 N2) as (I1 & I2). split.
  - intros [(C1 & C2)|C2]; [|auto]. apply I2; [|exact C2]. destruct o as [v late a|o]; [contradiction|]. apply success_begins; assumption.
  - intros B [(C1 & _)|C2]; [|apply I2; [apply begun_step; assumption|exact C2]]. destruct o as [v late a|o]; [contradiction|].
    apply (taken_run l (step w (Now o)) P1); [apply success_takes; assumption|exact A2|exact N2].
Qed.
Lemma helped_todo : forall l k w, proper w -> taken_up w -> always may w l -> Forall no_edit l -> always sees_size w l -> count helpful k w l ->
  todo (run w l) <= Z.max 0 (todo w - Z.of_nat k).
Proof.
  intros l. induction l as [|o l IH]; intros k w P T A N Sz C.
  - destruct k; [|contradiction]. cbn [run fold_left]. lia.
  - destruct A as (A1 & A2). destruct Sz as (S1 & S2). inversion N as [|? ? N1 N2]; subst.
    destruct (taken_step w o P A1 N1 T) as (B1 & B2 & B3). specialize (B3 S1). pose proof (may_proper w o P A1) as P1.
    pose proof (proj2 (todo_zero _ P1 (taken_new _ B1))) as Z1. change (run w (o :: l)) with (run (step w o) l) in *.
    destruct k as [|k]; [pose proof (IH O _ P1 B1 A2 N2 S2 ltac:(destruct l; exact I)); lia|]. cbn [count] in C. destruct C as [(C1 & C2)|C2].
    + destruct o as [v late a|o]; [contradiction|]. pose proof (helpful_taken w o P T C1). cbn [step] in *. pose proof (IH k _ P1 B1 A2 N2 S2 C2). lia.
    + pose proof (IH (S k) _ P1 B1 A2 N2 S2 C2). lia.
Qed.

(* What was stored since the change was taken up tells the present size. *)
Definition telling (w : Dep) (past : list TSet) : Prop := Forall (fun t => 0 < spec t -> forall n, ms_desired (x_set (t_x t)) = AnnInt n -> n = p_size w) past.
Lemma caught_sees : forall l past w, proper w -> taken_up w -> always may w l -> Forall no_edit l -> telling w past -> lived caught_up past w l -> always sees_size w l.
Proof.
  intros l. induction l as [|o l IH]; intros past w P T A N G C; [exact I|]. destruct A as (A1 & A2). inversion N as [|? ? N1 N2]; subst. destruct C as (C1 & C2).
  destruct (taken_step w o P A1 N1 T) as (B1 & B2 & _). split.
  - destruct o as [v late a|o]; [|exact I]. intros t n Ht L E. unfold telling in G. rewrite Forall_forall in G. exact (G t (C1 t Ht) L n E).
  - apply (IH _ _ (may_proper w o P A1) B1 A2 N2) in C2; [exact C2|]. unfold wish in B2. injection B2 as _ W2 _ _. apply Forall_app. split.
    + destruct B1 as (_ & _ & _ & K). exact K.
    + unfold telling in *. rewrite W2. exact G.
Qed.
Lemma taken_telling : forall w, taken_up w -> telling w (p_sets w).
Proof. intros w (_ & _ & _ & K). exact K. Qed.
(* A cache that never goes back has caught up once a reconcile saw what is stored. *)
Lemma forward_caught : forall l seen past w, incl seen past -> incl (p_sets w) past -> forward seen w l -> lived caught_up past w l.
Proof.
  intros l. induction l as [|o l IH]; intros seen past w H H0 F; [exact I|]. destruct F as (F1 & F2). split.
  - destruct o as [v late a|o]; [|exact I]. cbn [caught_up]. intros t Ht. apply H, F1, Ht.
  - refine (IH _ _ _ _ _ F2).
    + apply incl_app; [apply incl_appl, incl_refl|]. apply incl_appr. destruct o as [v late a|[]]; assumption.
    + apply incl_appl, incl_refl.
Qed.
Lemma forward_after : forall l m seen w, forward seen w (l ++ m) -> exists seen', forward seen' (run w l) m.
Proof.
  intros l. induction l as [|o l IH]; intros m seen w F; [exists seen; exact F|]. destruct F as (_ & F). exact (IH _ _ _ F).
Qed.

(** *** A cache that does not lag *)
Lemma cleanup_same : forall f g d m l total, (forall s, f s = g s) -> cleanupLoop f d m total l = cleanupLoop g d m total l.
Proof.
  intros f g d m l. induction l as [|t l IH]; intros total H; [reflexivity|]. cbn [cleanupLoop]. rewrite (H t).
  rewrite (IH total H). destruct (m <=? total); [reflexivity|]. destruct (ms_spec t =? 0); [reflexivity|]. destruct (ms_spec t =? ms_avail t); [reflexivity|].
  cbv zeta. destruct (_ >? _); [reflexivity|]. destruct (sr_err _); [reflexivity|]. rewrite (IH _ H). reflexivity.
Qed.
Lemma down_same : forall f g d b l total, (forall s, f s = g s) -> scaleDownLoop f d b total l = scaleDownLoop g d b total l.
Proof.
  intros f g d b l. induction l as [|t l IH]; intros total H; [reflexivity|]. cbn [scaleDownLoop]. rewrite (H t).
  rewrite (IH total H). destruct (b <=? total); [reflexivity|]. destruct (ms_spec t =? 0); [reflexivity|].
  cbv zeta. destruct (_ >? _); [reflexivity|]. destruct (sr_err _); [reflexivity|]. rewrite (IH _ H). reflexivity.
Qed.
Lemma rolling_same : forall p q d n o, api_new p = api_new q -> (forall s, api_clean p s = api_clean q s) -> (forall s, api_down p s = api_down q s) ->
  rolloutRolling p d n o = rolloutRolling q d n o.
Proof.
  intros p q d n o A B C. unfold rolloutRolling. rewrite A. cbv zeta. destruct (sr_err _); [reflexivity|]. destruct (sr_scaled _); [reflexivity|].
  replace (reconcileOldMachineSets (api_clean p) (api_down p) d (o ++ [n]) (FilterActiveMachineSets o) n)
    with (reconcileOldMachineSets (api_clean q) (api_down q) d (o ++ [n]) (FilterActiveMachineSets o) n); [reflexivity|].
  unfold reconcileOldMachineSets, cleanupUnhealthyReplicas, scaleDownOld. cbv zeta. rewrite (cleanup_same _ _ d _ _ _ B).
  destruct (_ =? _); [reflexivity|]. destruct (_ <=? _); [reflexivity|]. destruct (cleanupLoop _ _ _ _ _) as ((o1, c1), e1). destruct e1; [reflexivity|].
  destruct (_ <=? _); [reflexivity|]. rewrite (down_same _ _ d _ _ _ C). reflexivity.
Qed.
Lemma withSets_id : forall w, withSets w (p_sets w) = w.
Proof. intros []. reflexivity. Qed.
Lemma accepted_stored : forall w nm, accepted w (p_sets w) nm = match called nm (p_sets w) with Some _ => true | None => false end.
Proof. intros w nm. unfold accepted. destruct (called nm (p_sets w)) as [t|]; [|reflexivity]. rewrite Z.eqb_refl. destruct (ms_dec _ _); [reflexivity|contradiction]. Qed.
Lemma current_stored : forall w n nm, proper w -> newSet w = Some n ->
  current (mkW (t_x n) (map t_x (oldSets w)) 0) (obj n :: map obj (oldSets w)) nm = accepted w (p_sets w) nm.
Proof.
  intros w n nm P H. rewrite accepted_stored. unfold current, stored. cbn [w_new w_olds map]. rewrite map_map.
  change (map (fun x => x_set (t_x x)) (oldSets w)) with (map obj (oldSets w)). change (x_set (t_x n)) with (obj n).
  pose proof (split_perm w n (proj1 (proj2 P)) H) as S. change (obj n :: map obj (oldSets w)) with (map obj (n :: oldSets w)).
  destruct (lookup nm (map obj (n :: oldSets w))) as [a|] eqn:L.
  - destruct (ms_dec a a); [|contradiction]. apply lookup_some in L. destruct L as (L1 & L2). apply in_map_iff in L1. destruct L1 as (t & <- & T).
    apply (Permutation_in t (Permutation_sym S)) in T. destruct (called nm (p_sets w)) eqn:C; [reflexivity|].
    unfold called in C. apply (find_none _ _ C) in T. rewrite L2, String.eqb_refl in T. discriminate.
  - destruct (called nm (p_sets w)) as [t|] eqn:C; [|reflexivity]. apply called_some in C. destruct C as (C1 & C2).
    apply (Permutation_in t S) in C1. unfold lookup in L. pose proof (find_none _ _ L (obj t) (in_map obj _ _ C1)) as C1'.
    cbv beta in C1'. unfold name in C2. unfold obj in C1'. rewrite C2, String.eqb_refl in C1'. discriminate.
Qed.
Lemma roll_same : forall w api, proper w -> rollBehind w (p_sets w) api = roll w api.
Proof.
  intros w api P. unfold rollBehind, roll. rewrite withSets_id. destruct (newSet w) as [n|] eqn:H; [|reflexivity]. cbv zeta.
  rewrite (rolling_same (guarded w (p_sets w) api (obj n)) (guard (mkW (t_x n) (map t_x (oldSets w)) 0) api (obj n) (map obj (oldSets w)))); [reflexivity| | |];
    cbn [guarded guard api_new api_clean api_down]; try intro s; rewrite (current_stored w n _ P H); reflexivity.
Qed.
Lemma done_all : forall w v plan, Forall (fun p => accepted w v (ms_name (fst p)) = true) plan -> done w v plan = plan.
Proof. intros w v plan. induction plan as [|(s, n) r IH]; intro H; [reflexivity|]. inversion H as [|? ? H1 H2]; subst. cbn [done]. cbn [fst] in H1. rewrite H1, (IH H2). reflexivity. Qed.
Lemma scale_same : forall w k, proper w -> scaleBehind w (p_sets w) k = scaleStep w k.
Proof.
  intros w k P. unfold scaleBehind, scaleStep. rewrite withSets_id. destruct (scale _ _ _) as [plan|] eqn:E; [|reflexivity]. rewrite done_all; [reflexivity|].
  apply Forall_forall. intros p Hp. assert (In p plan) as Hp' by (rewrite <- (firstn_skipn k plan); apply in_or_app; left; exact Hp).
  pose proof (scale_sets _ _ _ _ _ E Hp') as S. rewrite accepted_stored.
  assert (exists t, In t (p_sets w) /\ obj t = fst p) as (t & T1 & T2).
  { unfold all_sets in S. apply in_app_or in S. destruct S as [S|S].
    - apply in_map_iff in S. destruct S as (t & T1 & T2). unfold oldSets in T2. apply filter_In in T2. exists t. split; [apply T2|exact T1].
    - destruct (newSet w) as [n|] eqn:H; cbn [option_map] in S; [|contradiction]. destruct S as [S|[]]. exists n. split; [apply (new_in w n H)|exact S]. }
  rewrite <- T2. change (ms_name (obj t)) with (name t). rewrite (called_in _ _ (proj1 P) T1). reflexivity.
Qed.
Lemma existsb_or_false : forall (f g : TSet -> bool) l, existsb g l = false -> existsb (fun t => f t || g t) l = existsb f l.
Proof. intros f g l. induction l as [|t l IH]; intro H; [reflexivity|]. cbn [existsb] in *. apply orb_false_iff in H. destruct H as (H1 & H2). rewrite H1, orb_false_r, (IH H2). reflexivity. Qed.
Lemma ensure_same : forall w a, ensureBehind w (p_sets w) None a = option_map (fun w1 => (w1, p_sets w1)) (ensure w a).
Proof.
  intros w a. unfold ensureBehind, ensure. rewrite withSets_id. destruct (newSet w) as [n|] eqn:H; [reflexivity|]. unfold createBehind, create. rewrite withSets_id.
  rewrite existsb_or_false.
  - destruct (existsb _ _); [reflexivity|]. destruct (a_make a); [|reflexivity]. cbn [negb orb]. destruct (createdMS _ _ _ _); reflexivity.
  - destruct (existsb _ _) eqn:X; [|reflexivity]. apply existsb_exists in X. destruct X as (t & T1 & T2). unfold newSet in H. apply (find_none _ _ H) in T1. unfold isNew in T1. congruence.
Qed.
Lemma same_step : forall w a, proper w -> reconcileBehind w (p_sets w) None a = WishModel.reconcile w a.
Proof.
  intros w a P. unfold reconcileBehind, WishModel.reconcile. rewrite ensure_same, withSets_id, (scale_same w (a_writes a) P).
  destruct (p_paused w); [reflexivity|]. destruct (p_back w) as [nm|].
  - destruct (ensure w a); reflexivity.
  - destruct (isScalingEvent _ _ _); [reflexivity|]. destruct (ensure w a) as [w1|] eqn:E; [|reflexivity]. cbn [option_map]. apply roll_same. apply (ensure_spec w a w1 P E).
Qed.
