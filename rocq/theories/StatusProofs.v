(** Lemmas for the status properties. *)
Require Import Coq.ZArith.ZArith Coq.Lists.List Coq.Strings.String Coq.Bool.Bool Coq.micromega.Lia Coq.micromega.ZifyBool.
From Verif Require Import Types RolloutModel StatusModel StatusSpec.
Import ListNotations.
Open Scope string_scope.
Open Scope list_scope.
Open Scope Z_scope.

Lemma get_of_type : forall l ty, GetMachineDeploymentCondition l ty = hd_error (of_type ty l).
Proof.
  induction l as [|c l IH]; intro ty; [reflexivity|]. unfold GetMachineDeploymentCondition, of_type in *. simpl.
  destruct (String.eqb (c_type c) ty); [reflexivity|apply IH].
Qed.

Lemma get_type : forall l ty c, GetMachineDeploymentCondition l ty = Some c -> c_type c = ty /\ In c l.
Proof. intros l ty c H. apply find_some in H. destruct H as (A & B). apply String.eqb_eq in B. auto. Qed.

Lemma of_type_app : forall ty a b, of_type ty (a ++ b) = of_type ty a ++ of_type ty b.
Proof. intros. unfold of_type. apply filter_app. Qed.
Lemma others_app : forall ty a b, others ty (a ++ b) = others ty a ++ others ty b.
Proof. intros. unfold others. apply filter_app. Qed.

Lemma of_type_out : forall ty l, of_type ty (filterOutDeploymentCondition l ty) = [].
Proof.
  intros ty l. unfold of_type, filterOutDeploymentCondition. induction l as [|c l IH]; [reflexivity|]. simpl.
  destruct (String.eqb (c_type c) ty) eqn:E; simpl; [exact IH|]. rewrite E. exact IH.
Qed.

Lemma of_type_out_other : forall ty ty' l, ty <> ty' -> of_type ty (filterOutDeploymentCondition l ty') = of_type ty l.
Proof.
  intros ty ty' l H. unfold of_type, filterOutDeploymentCondition. induction l as [|c l IH]; [reflexivity|]. simpl.
  destruct (String.eqb (c_type c) ty') eqn:E; simpl.
  - apply String.eqb_eq in E. destruct (String.eqb (c_type c) ty) eqn:E2; [apply String.eqb_eq in E2; congruence|exact IH].
  - destruct (String.eqb (c_type c) ty); [f_equal|]; exact IH.
Qed.

Lemma others_out : forall ty l, others ty (filterOutDeploymentCondition l ty) = others ty l.
Proof.
  intros ty l. unfold others, filterOutDeploymentCondition. induction l as [|c l IH]; [reflexivity|]. simpl.
  destruct (String.eqb (c_type c) ty) eqn:E; simpl; [exact IH|]. rewrite E. simpl. f_equal. exact IH.
Qed.

Lemma of_type_one : forall ty c, of_type ty [c] = if String.eqb (c_type c) ty then [c] else [].
Proof. reflexivity. Qed.

(* Both set operations at once: [keep] tells whether the transition time is kept. *)
Definition gset (keep : bool) (l : list Cond) (c : Cond) : list Cond :=
  if keep then SetMachineDeploymentCondition l c else SetCondition l c.

Lemma gset_cases : forall keep l c,
  (gset keep l c = l /\ exists cur, hd_error (of_type (c_type c) l) = Some cur /\ c_status cur = c_status c /\ c_reason cur = c_reason c) \/
  (exists tr, gset keep l c = filterOutDeploymentCondition l (c_type c) ++ [mkCond (c_type c) (c_status c) (c_update c) tr (c_reason c) (c_msg c)] /\
     (keep = false -> tr = c_trans c) /\
     (keep = true -> match hd_error (of_type (c_type c) l) with
        | Some cur => (c_status cur = c_status c -> tr = c_trans cur) /\ (c_status cur <> c_status c -> tr = c_trans c)
        | None => tr = c_trans c end) /\
     (forall cur, hd_error (of_type (c_type c) l) = Some cur -> c_status cur = c_status c -> c_reason cur = c_reason c -> False)).
Proof.
  intros keep l c. destruct keep; cbn [gset].
  - unfold SetMachineDeploymentCondition. rewrite get_of_type. destruct (hd_error (of_type (c_type c) l)) as [cur|] eqn:E.
    + destruct (String.eqb (c_status cur) (c_status c)) eqn:E1; [destruct (String.eqb (c_reason cur) (c_reason c)) eqn:E2|]; cbn [andb].
      * left. split; [reflexivity|]. exists cur. apply String.eqb_eq in E1, E2. auto.
      * right. apply String.eqb_eq in E1. apply String.eqb_neq in E2. eexists. split; [reflexivity|]. repeat split; try discriminate; try congruence.
      * right. apply String.eqb_neq in E1. eexists. split; [reflexivity|]. repeat split; try discriminate; try congruence.
    + right. exists (c_trans c). split; [destruct c; reflexivity|]. repeat split; try discriminate; congruence.
  - unfold SetCondition. change (GetCondition l (c_type c)) with (GetMachineDeploymentCondition l (c_type c)).
    change (filterOutMachineSetCondition l (c_type c)) with (filterOutDeploymentCondition l (c_type c)).
    rewrite get_of_type. destruct (hd_error (of_type (c_type c) l)) as [cur|] eqn:E.
    + destruct (String.eqb (c_status cur) (c_status c)) eqn:E1; [destruct (String.eqb (c_reason cur) (c_reason c)) eqn:E2|]; cbn [andb].
      * left. split; [reflexivity|]. exists cur. apply String.eqb_eq in E1, E2. auto.
      * right. apply String.eqb_eq in E1. apply String.eqb_neq in E2. exists (c_trans c). split; [destruct c; reflexivity|]. repeat split; try discriminate; congruence.
      * right. apply String.eqb_neq in E1. exists (c_trans c). split; [destruct c; reflexivity|]. repeat split; try discriminate; congruence.
    + right. exists (c_trans c). split; [destruct c; reflexivity|]. repeat split; try discriminate; congruence.
Qed.

Lemma gset_spec : forall keep l c, (List.length (of_type (c_type c) l) <= 1)%nat ->
  (exists x, of_type (c_type c) (gset keep l c) = [x] /\ c_status x = c_status c /\ c_reason x = c_reason c) /\
  others (c_type c) (gset keep l c) = others (c_type c) l.
Proof.
  intros keep l c Hl. destruct (gset_cases keep l c) as [(E & cur & H1 & H2 & H3)|(tr & E & _)]; rewrite E.
  - split; [|reflexivity]. exists cur. split; [|auto]. destruct (of_type (c_type c) l) as [|a [|b r]] eqn:EO; simpl in *; try discriminate; try lia. congruence.
  - rewrite of_type_app, others_app, of_type_out, others_out, of_type_one. cbn [c_type]. rewrite String.eqb_refl. split.
    + eexists. simpl. split; [reflexivity|]. auto.
    + unfold others at 2. simpl. rewrite String.eqb_refl. simpl. apply app_nil_r.
Qed.

Lemma gset_trans : forall l c x y, shows l (c_type c) x -> shows (SetMachineDeploymentCondition l c) (c_type c) y ->
  c_status x = c_status y -> c_trans y = c_trans x.
Proof.
  intros l c x y Hx Hy. unfold shows in *. destruct (gset_cases true l c) as [(E & _)|(tr & E & _ & H & _)]; cbn [gset] in E; rewrite E in Hy.
  - rewrite Hx in Hy. congruence.
  - specialize (H eq_refl). rewrite Hx in H. rewrite of_type_app, of_type_out, of_type_one in Hy. cbn [c_type] in Hy. rewrite String.eqb_refl in Hy. simpl in Hy.
    injection Hy as <-. simpl. intro; apply H; auto.
Qed.

Lemma gset_idem : forall keep l c, gset keep (gset keep l c) c = gset keep l c.
Proof.
  intros keep l c. destruct (gset_cases keep l c) as [(E & _)|(tr & E & _)]; rewrite E; [exact E|].
  assert (hd_error (of_type (c_type c) (filterOutDeploymentCondition l (c_type c) ++ [mkCond (c_type c) (c_status c) (c_update c) tr (c_reason c) (c_msg c)])) =
          Some (mkCond (c_type c) (c_status c) (c_update c) tr (c_reason c) (c_msg c))) as HH.
  { rewrite of_type_app, of_type_out, of_type_one. cbn [c_type]. rewrite String.eqb_refl. reflexivity. }
  destruct (gset_cases keep (filterOutDeploymentCondition l (c_type c) ++ [mkCond (c_type c) (c_status c) (c_update c) tr (c_reason c) (c_msg c)]) c)
    as [(E' & _)|(tr' & _ & _ & _ & H)]; [exact E'|]. exfalso. eapply H; [exact HH|reflexivity|reflexivity].
Qed.

Definition grun (keep : bool) (l : list Cond) (ops : list COp) : list Cond :=
  fold_left (fun l o => match o with CSet c => gset keep l c | CRemove ty => filterOutDeploymentCondition l ty end) ops l.

Lemma others_of_type_ne : forall ty ty' l, ty <> ty' -> of_type ty (others ty' l) = of_type ty l.
Proof. intros. apply (of_type_out_other ty ty' l). exact H. Qed.

Lemma gset_of_type : forall keep l c ty, (List.length (of_type ty l) <= 1)%nat -> (List.length (of_type ty (gset keep l c)) <= 1)%nat.
Proof.
  intros keep l c ty Hl. destruct (gset_cases keep l c) as [(E & _)|(tr & E & _)]; rewrite E; [exact Hl|].
  rewrite of_type_app, of_type_one. cbn [c_type]. destruct (String.eqb (c_type c) ty) eqn:ET.
  - apply String.eqb_eq in ET. subst ty. rewrite of_type_out. simpl. lia.
  - apply String.eqb_neq in ET. rewrite of_type_out_other by congruence. rewrite app_nil_r. exact Hl.
Qed.

Lemma grun_unique : forall keep ops l, (forall ty, (List.length (of_type ty l) <= 1)%nat) ->
  forall ty, (List.length (of_type ty (grun keep l ops)) <= 1)%nat.
Proof.
  intros keep ops. induction ops as [|o ops IH]; intros l Hl ty; [apply Hl|]. simpl. apply IH. intro ty'.
  destruct o as [c|ty0].
  - apply gset_of_type, Hl.
  - destruct (String.eqb ty0 ty') eqn:E.
    + apply String.eqb_eq in E. subst. rewrite of_type_out. simpl. lia.
    + apply String.eqb_neq in E. rewrite of_type_out_other by congruence. apply Hl.
Qed.

Lemma remove_spec : forall l ty, of_type ty (RemoveMachineDeploymentCondition l ty) = [] /\
  others ty (RemoveMachineDeploymentCondition l ty) = others ty l.
Proof. intros; split; [apply of_type_out|apply others_out]. Qed.

(** Reading a condition after setting or removing. *)
Lemma get_set_other : forall l c ty, c_type c <> ty ->
  GetMachineDeploymentCondition (SetMachineDeploymentCondition l c) ty = GetMachineDeploymentCondition l ty.
Proof.
  intros l c ty H. rewrite !get_of_type. destruct (gset_cases true l c) as [(E & _)|(tr & E & _)]; cbn [gset] in E; rewrite E; [reflexivity|].
  rewrite of_type_app, of_type_one. cbn [c_type]. destruct (String.eqb (c_type c) ty) eqn:ET; [apply String.eqb_eq in ET; congruence|].
  rewrite of_type_out_other by congruence. rewrite app_nil_r. reflexivity.
Qed.

Lemma get_set_same : forall l c, exists x, GetMachineDeploymentCondition (SetMachineDeploymentCondition l c) (c_type c) = Some x /\
  c_status x = c_status c /\ c_reason x = c_reason c /\
  (c_update x = c_update c \/ GetMachineDeploymentCondition l (c_type c) = Some x).
Proof.
  intros l c. rewrite !get_of_type. destruct (gset_cases true l c) as [(E & cur & H1 & H2 & H3)|(tr & E & _)]; cbn [gset] in E; rewrite E.
  - exists cur. auto.
  - rewrite of_type_app, of_type_out, of_type_one. cbn [c_type]. rewrite String.eqb_refl. simpl. eexists. split; [reflexivity|]. auto.
Qed.

Lemma get_remove_other : forall l ty ty', ty <> ty' ->
  GetMachineDeploymentCondition (RemoveMachineDeploymentCondition l ty') ty = GetMachineDeploymentCondition l ty.
Proof. intros. rewrite !get_of_type. unfold RemoveMachineDeploymentCondition. rewrite of_type_out_other by assumption. reflexivity. Qed.

Lemma calc_progressing : forall now all n d,
  GetMachineDeploymentCondition (ds_conds (calculateDeploymentStatus now all n d)) "Progressing" =
  GetMachineDeploymentCondition (ds_conds (sd_status d)) "Progressing".
Proof. intros. cbn [calculateDeploymentStatus ds_conds]. destruct (_ >=? _); apply get_set_other; discriminate. Qed.

Lemma replica_failures_type : forall all n c, In c (getReplicaFailures all n) -> c_type c = "ReplicaFailure".
Proof.
  intros all n c. unfold getReplicaFailures.
  assert (forall s, In c (map MachineSetToMachineDeploymentCondition (filter (fun c => String.eqb (c_type c) "ReplicaFailure") (st_conds (ss_st s)))) -> c_type c = "ReplicaFailure") as H.
  { intros s Hs. apply in_map_iff in Hs. destruct Hs as (x & <- & Hx). apply filter_In in Hx. destruct Hx as (_ & Hx). apply String.eqb_eq in Hx. exact Hx. }
  destruct n as [s|].
  - destruct (map _ _) as [|a r] eqn:E.
    + intro Hc. apply in_flat_map in Hc. destruct Hc as (x & _ & Hx). apply (H x Hx).
    + intro Hc. apply (H s). rewrite E. exact Hc.
  - intro Hc. apply in_flat_map in Hc. destruct Hc as (x & _ & Hx). apply (H x Hx).
Qed.

Lemma rollout_progressing : forall now all n d,
  GetMachineDeploymentCondition (ds_conds (rolloutStatus now all n d)) "Progressing" =
  GetMachineDeploymentCondition (progressConditions now d (calculateDeploymentStatus now all n d)) "Progressing".
Proof.
  intros. unfold rolloutStatus. cbv zeta. cbn [ds_conds]. destruct (getReplicaFailures all n) as [|c r] eqn:E.
  - apply get_remove_other. discriminate.
  - apply get_set_other. rewrite (replica_failures_type all n c); [discriminate|rewrite E; left; reflexivity].
Qed.

Lemma rollout_counts : forall now all n d, let s := rolloutStatus now all n d in let k := calculateDeploymentStatus now all n d in
  ds_updated s = ds_updated k /\ ds_replicas s = ds_replicas k /\ ds_ready s = ds_ready k /\ ds_avail s = ds_avail k /\ ds_obs s = ds_obs k.
Proof. intros. repeat split. Qed.

(** The cases of the Progressing condition. *)
Lemma progress_cases : forall now d n cur,
  GetMachineDeploymentCondition (ds_conds n) "Progressing" = cur ->
  GetMachineDeploymentCondition (ds_conds (sd_status d)) "Progressing" = cur ->
  let r := GetMachineDeploymentCondition (progressConditions now d n) "Progressing" in
  (r = cur /\ ~ (all_done d n /\ (forall c, cur = Some c -> c_reason c <> "NewMachineSetAvailable")) /\
     (progressed (sd_status d) n -> exists c, cur = Some c /\ c_reason c = "NewMachineSetAvailable")) \/
  (all_done d n /\ exists c, r = Some c /\ c_reason c = "NewMachineSetAvailable") \/
  (~ all_done d n /\ progressed (sd_status d) n /\ exists c, r = Some c /\ c_reason c = "MachineSetUpdated" /\ c_update c = stored now) \/
  (~ all_done d n /\ ~ progressed (sd_status d) n /\ (exists c s k, r = Some c /\ c_reason c = "ProgressDeadlineExceeded" /\
     sd_deadline d = Some s /\ cur = Some k /\ c_reason k <> "NewMachineSetAvailable" /\
     (c_reason k = "ProgressDeadlineExceeded" \/ c_update k + s * second < now))).
Proof.
  intros now d n cur Hn Hd r. subst r. unfold progressConditions. rewrite Hd. cbv zeta.
  assert (MachineDeploymentComplete d n = true <-> all_done d n) as HC.
  { unfold MachineDeploymentComplete, all_done. rewrite !andb_true_iff. split; intros; lia. }
  assert (MachineDeploymentProgressing d n = true <-> progressed (sd_status d) n) as HP.
  { unfold MachineDeploymentProgressing, progressed. rewrite !orb_true_iff. split; intros; lia. }
  destruct ((ds_replicas n =? ds_updated n) && match cur with Some c => String.eqb (c_reason c) "NewMachineSetAvailable" | None => false end) eqn:EI.
  { left. apply andb_prop in EI. destruct EI as (_ & EI). destruct cur as [c|]; [|discriminate]. apply String.eqb_eq in EI.
    split; [exact Hn|]. split.
    - intros (_ & H). apply (H c eq_refl). exact EI.
    - intros _. exists c. auto. }
  destruct (MachineDeploymentComplete d n) eqn:EC.
  { right. left. split; [apply HC; reflexivity|].
    match goal with |- context [SetMachineDeploymentCondition ?l ?c] => destruct (get_set_same l c) as (x & H1 & _ & H2 & _) end.
    exists x. split; [exact H1|exact H2]. }
  assert (~ all_done d n) as HNC by (intro H; apply HC in H; discriminate).
  destruct (MachineDeploymentProgressing d n) eqn:EP.
  { right. right. left. split; [exact HNC|]. split; [apply HP; reflexivity|]. destruct cur as [k|].
    - match goal with |- context [SetMachineDeploymentCondition ?l ?c] => assert (c_type c = "Progressing" /\ c_reason c = "MachineSetUpdated" /\ c_update c = stored now) as (T1 & T2 & T3) by (destruct (String.eqb (c_status k) "True"); repeat split);
        destruct (get_set_same l c) as (x & H1 & _ & H2 & H3); rewrite T1 in *; rewrite T2 in *; rewrite T3 in * end.
      exists x. split; [exact H1|]. split; [exact H2|]. destruct H3 as [H3|H3]; [exact H3|].
      exfalso. rewrite get_of_type in H3. unfold RemoveMachineDeploymentCondition in H3. rewrite of_type_out in H3. discriminate.
    - match goal with |- context [SetMachineDeploymentCondition ?l ?c] => destruct (get_set_same l c) as (x & H1 & _ & H2 & H3) end.
      exists x. split; [exact H1|]. split; [exact H2|]. destruct H3 as [H3|H3]; [exact H3|]. cbn [c_type NewMachineDeploymentCondition] in H3. rewrite Hn in H3. discriminate. }
  assert (~ progressed (sd_status d) n) as HNP by (intro H; apply HP in H; discriminate).
  destruct (MachineDeploymentTimedOut now d n) eqn:ET.
  { right. right. right. split; [exact HNC|]. split; [exact HNP|].
    unfold MachineDeploymentTimedOut in ET. rewrite Hn in ET. destruct (sd_deadline d) as [s|]; [|discriminate]. destruct cur as [k|]; [|discriminate].
    match goal with |- context [SetMachineDeploymentCondition ?l ?c] => destruct (get_set_same l c) as (x & H1 & _ & H2 & _) end.
    exists x, s, k. split; [exact H1|]. split; [exact H2|]. split; [reflexivity|]. split; [reflexivity|].
    destruct (String.eqb (c_reason k) "NewMachineSetAvailable") eqn:E1; [discriminate|]. apply String.eqb_neq in E1. split; [exact E1|].
    destruct (String.eqb (c_reason k) "ProgressDeadlineExceeded") eqn:E2; [left; apply String.eqb_eq; exact E2|right; lia]. }
  left. split; [exact Hn|]. split; [intros (H & _); apply HNC; exact H|]. intro H; contradiction.
Qed.

Definition moved (now : Z) (old : option Cond) (c : Cond) : Prop :=
  match old with
  | Some k => (c_status k = c_status c -> c_trans c = c_trans k) /\ (c_status k <> c_status c -> c_trans c = stored now)
  | None => c_trans c = stored now
  end.
Lemma set_moved : forall now l c x, c_trans c = stored now ->
  GetMachineDeploymentCondition (SetMachineDeploymentCondition l c) (c_type c) = Some x ->
  moved now (GetMachineDeploymentCondition l (c_type c)) x.
Proof.
  intros now l c x T G. rewrite !get_of_type in *. destruct (gset_cases true l c) as [(E & cur & H & _)|(tr & E & _ & H & _)]; cbn [gset] in E; rewrite E in G.
  - rewrite H in *. injection G as <-. split; [reflexivity|]. intros F. exfalso. apply F. reflexivity.
  - rewrite of_type_app, of_type_out, of_type_one in G. cbn [c_type] in G. rewrite String.eqb_refl in G. cbn in G. injection G as <-.
    specialize (H eq_refl). unfold moved. cbn [c_status c_trans]. destruct (hd_error (of_type (c_type c) l)) as [k|]; [|congruence].
    destruct H as (H1 & H2). split; [exact H1|]. intros F. rewrite (H2 F). exact T.
Qed.
Lemma progress_moved : forall now d n x,
  GetMachineDeploymentCondition (ds_conds n) "Progressing" = GetMachineDeploymentCondition (ds_conds (sd_status d)) "Progressing" ->
  GetMachineDeploymentCondition (progressConditions now d n) "Progressing" = Some x ->
  moved now (GetMachineDeploymentCondition (ds_conds (sd_status d)) "Progressing") x.
Proof.
  intros now d n x Hn G. unfold progressConditions in G. cbv zeta in G. rewrite <- Hn in *.
  assert (SAME : GetMachineDeploymentCondition (ds_conds n) "Progressing" = Some x -> moved now (GetMachineDeploymentCondition (ds_conds n) "Progressing") x).
  { intros ->. split; [reflexivity|]. intros F. exfalso. apply F. reflexivity. }
  destruct (_ && _); [exact (SAME G)|].
  destruct (MachineDeploymentComplete d n); [apply (set_moved now) in G; [exact G|reflexivity]|].
  destruct (MachineDeploymentProgressing d n).
  - destruct (GetMachineDeploymentCondition (ds_conds n) "Progressing") as [k|] eqn:K.
    + rewrite get_of_type in G. unfold RemoveMachineDeploymentCondition, SetMachineDeploymentCondition in G.
      assert (T : c_type (if String.eqb (c_status k) "True" then mkCond "Progressing" "True" (stored now) (c_trans k) "MachineSetUpdated" "is progressing."
                          else mkCond "Progressing" "True" (stored now) (stored now) "MachineSetUpdated" "is progressing.") = "Progressing") by (destruct (String.eqb (c_status k) "True"); reflexivity).
      unfold NewMachineDeploymentCondition in G. cbn [c_type c_status c_update c_reason c_msg] in G. rewrite T in G.
      rewrite get_of_type, of_type_out in G. cbn [hd_error] in G. rewrite of_type_app, of_type_out, of_type_one, T in G. cbn in G. injection G as <-.
      unfold moved. destruct (String.eqb_spec (c_status k) "True") as [E|E]; cbn; split; intros; congruence.
    + apply (set_moved now) in G; [|reflexivity]. cbn [c_type NewMachineDeploymentCondition] in G. rewrite K in G. exact G.
  - destruct (MachineDeploymentTimedOut now d n); [|exact (SAME G)]. apply (set_moved now) in G; [exact G|reflexivity].
Qed.

Definition getp (d : SDep) := GetMachineDeploymentCondition (ds_conds (sd_status d)) "Progressing".

Lemma shows_getp : forall d r, shows_reason d r <-> exists c, getp d = Some c /\ c_reason c = r.
Proof. intros. unfold shows_reason, shows, getp. rewrite get_of_type. reflexivity. Qed.

(** The last recorded update is not before [tp] unless the rollout is reported
    complete or timed out. *)
Definition upd (tp : Z) (d : SDep) : Prop := forall c, getp d = Some c ->
  c_reason c <> "NewMachineSetAvailable" -> c_reason c <> "ProgressDeadlineExceeded" -> tp <= c_update c.

Lemma stored_mono : forall a b, a <= b -> stored a <= stored b.
Proof.
  intros a b H. unfold stored. apply Z.mul_le_mono_nonneg_r; [discriminate|]. apply Z.div_le_mono; [reflexivity|exact H].
Qed.

Lemma conds_eqb_eq : forall a b, conds_eqb a b = true -> a = b.
Proof.
  induction a as [|x a IH]; intros [|y b] H; simpl in H; try discriminate; [reflexivity|].
  apply andb_prop in H. destruct H as (H & H'). apply IH in H'. subst b. f_equal.
  unfold cond_eqb in H. repeat (apply andb_prop in H; destruct H as (H & ?)).
  repeat match goal with H : String.eqb _ _ = true |- _ => apply String.eqb_eq in H end.
  repeat match goal with H : (_ =? _) = true |- _ => apply Z.eqb_eq in H end.
  destruct x, y; simpl in *; subst; reflexivity.
Qed.

Lemma not_required : forall o n, statusUpdateRequired o n = false ->
  ds_avail o = ds_avail n /\ ds_ready o = ds_ready n /\ ds_replicas o = ds_replicas n /\ ds_updated o = ds_updated n /\
  ds_unavail o = ds_unavail n /\ ds_obs o = ds_obs n /\ ds_conds o = ds_conds n /\
  List.length (ds_failed o) = List.length (ds_failed n) /\
  (forall m, In m (ds_failed n) -> exists k, In k (ds_failed o) /\ su_name k = su_name m /\ su_desc k = su_desc m).
Proof.
  intros o n H. unfold statusUpdateRequired in H.
  match type of H with (if ?b then _ else _) = _ => destruct b eqn:E end; [|discriminate].
  repeat (apply andb_prop in E; destruct E as (E & ?)).
  repeat match goal with H : (_ =? _) = true |- _ => apply Z.eqb_eq in H end.
  match goal with H : Nat.eqb _ _ = true |- _ => apply Nat.eqb_eq in H end.
  match goal with H : conds_eqb _ _ = true |- _ => apply conds_eqb_eq in H end.
  repeat split; auto.
  intros m Hm. destruct (existsb (fun k => String.eqb (su_name k) (su_name m) && String.eqb (su_desc k) (su_desc m)) (ds_failed o)) eqn:EX.
  - apply existsb_exists in EX. destruct EX as (k & Hk & Ek). apply andb_prop in Ek. destruct Ek as (E1 & E2).
    apply String.eqb_eq in E1, E2. exists k; auto.
  - exfalso. assert (existsb (fun m => negb (existsb (fun k => String.eqb (su_name k) (su_name m) && String.eqb (su_desc k) (su_desc m)) (ds_failed o))) (ds_failed n) = true) as HH.
    { apply existsb_exists. exists m. split; [exact Hm|]. rewrite EX. reflexivity. }
    congruence.
Qed.

Lemma sync_cases : forall now ok all n d,
  let s := syncRolloutStatus now ok all n d in
  s = sd_status d \/ s = rolloutStatus now all n d.
Proof. intros. unfold s, syncRolloutStatus. cbv zeta. destruct (_ && ok); auto. Qed.

Lemma sync_written : forall now all n d,
  GetMachineDeploymentCondition (ds_conds (syncRolloutStatus now true all n d)) "Progressing" =
  GetMachineDeploymentCondition (ds_conds (rolloutStatus now all n d)) "Progressing".
Proof.
  intros. unfold syncRolloutStatus. cbv zeta. rewrite andb_true_r. destruct (statusUpdateRequired _ _) eqn:E; [reflexivity|].
  apply not_required in E. destruct E as (_ & _ & _ & _ & _ & _ & E & _). rewrite E. reflexivity.
Qed.

Lemma upd_step : forall d now o tp, tp <= stored now -> upd tp d -> upd tp (pstep d (now, o)).
Proof.
  intros d now o tp Ht Hu c Hc Hr1 Hr2.
  assert (forall l k, c_type k = "Progressing" -> c_update k = stored now ->
     GetMachineDeploymentCondition (SetMachineDeploymentCondition l k) "Progressing" = Some c ->
     l = ds_conds (sd_status d) -> tp <= c_update c) as HS.
  { intros l k Hty Hup Hg ->. destruct (get_set_same (ds_conds (sd_status d)) k) as (x & H1 & _ & _ & H2). rewrite Hty in *.
    rewrite H1 in Hg. injection Hg as ->. destruct H2 as [H2|H2]; [lia|]. apply Hu; auto. }
  destruct o as [ok all n|p| | | |md gen dl]; cbn [pstep] in Hc; unfold getp in Hc; cbn [sd_status with_conds ds_conds] in Hc.
  - destruct (sync_cases now ok all n d) as [E|E]; rewrite E in Hc; [apply Hu; auto|].
    rewrite rollout_progressing in Hc.
    pose proof (progress_cases now d (calculateDeploymentStatus now all n d) (getp d) (calc_progressing now all n d) eq_refl) as HP. cbv zeta in HP. rewrite Hc in HP.
    destruct HP as [(E1 & _)|[(_ & k & E1 & E2)|[(_ & _ & k & E1 & E2 & E3)|(_ & _ & k & s & k' & E1 & E2 & _)]]].
    + apply Hu; auto.
    + congruence.
    + injection E1 as <-. lia.
    + congruence.
  - unfold checkPausedConditions in Hc. destruct (GetMachineDeploymentCondition (ds_conds (sd_status d)) "Progressing") as [k|] eqn:EG.
    + destruct (String.eqb (c_reason k) "ProgressDeadlineExceeded"); [rewrite EG in Hc; apply Hu; [unfold getp; congruence|auto|auto]|].
      cbv zeta in Hc. destruct (p && _) eqn:E1; [eapply HS; [| |exact Hc|]; reflexivity|].
      destruct (negb p && _) eqn:E2; [eapply HS; [| |exact Hc|]; reflexivity|].
      rewrite EG in Hc; apply Hu; [unfold getp; congruence|auto|auto].
    + destruct p; [eapply HS; [| |exact Hc|]; reflexivity|congruence].
  - unfold foundCondition in Hc. destruct (GetMachineDeploymentCondition (ds_conds (sd_status d)) "Progressing") as [k|] eqn:EG.
    + rewrite EG in Hc; apply Hu; [unfold getp; congruence|auto|auto].
    + eapply HS; [| |exact Hc|]; reflexivity.
  - eapply HS; [| |exact Hc|]; reflexivity.
  - eapply HS; [| |exact Hc|]; reflexivity.
  - apply Hu; auto.
Qed.

Lemma upd_progress : forall d now ok all n, let d' := pstep d (now, PSync ok all n) in
  progressed (sd_status d) (sd_status d') -> upd (stored now) d'.
Proof.
  intros d now ok all n d' Hp c Hc Hr1 Hr2. unfold d', getp in *. cbn [pstep sd_status] in *.
  destruct (sync_cases now ok all n d) as [E|E]; rewrite E in *.
  { exfalso. unfold progressed in Hp. lia. }
  rewrite rollout_progressing in Hc.
  pose proof (progress_cases now d (calculateDeploymentStatus now all n d) (getp d) (calc_progressing now all n d) eq_refl) as HP. cbv zeta in HP. rewrite Hc in HP.
  destruct HP as [(E1 & _ & E2)|[(_ & k & E1 & E2)|[(_ & _ & k & E1 & E2 & E3)|(_ & _ & k & s & k' & E1 & E2 & _)]]].
  - destruct (E2 Hp) as (k & H1 & H2). congruence.
  - congruence.
  - injection E1 as <-. lia.
  - congruence.
Qed.

Lemma upd_run : forall l d tp t0 t1, clocked t0 l t1 -> tp <= stored t0 -> upd tp d -> upd tp (prun d l).
Proof.
  induction l as [|[t o] l IH]; intros d tp t0 t1 Hc Ht Hu; [exact Hu|]. simpl in Hc. destruct Hc as (H1 & H2).
  cbn [prun fold_left]. pose proof (stored_mono _ _ H1). eapply IH; [exact H2|lia|]. apply upd_step; [lia|exact Hu].
Qed.

Lemma clocked_app : forall a t0 b t1, clocked t0 (a ++ b) t1 -> exists t, clocked t0 a t /\ clocked t b t1.
Proof.
  induction a as [|[t o] a IH]; intros t0 b t1 H; simpl in *.
  - exists t0. split; [lia|exact H].
  - destruct H as (H1 & H2). apply IH in H2. destruct H2 as (x & H3 & H4). exists x. auto.
Qed.

Lemma deadline_lemma : forall d t0 l now ok all n, clocked t0 l now ->
  let d1 := prun d l in let d2 := pstep d1 (now, PSync ok all n) in
  ~ shows_reason d1 "ProgressDeadlineExceeded" -> shows_reason d2 "ProgressDeadlineExceeded" ->
  ~ shows_reason d1 "NewMachineSetAvailable" /\
  exists s, sd_deadline d1 = Some s /\
   (exists c, shows (ds_conds (sd_status d1)) "Progressing" c /\ c_update c + s * second < now) /\
   forall l1 t ok' a b l2, l = l1 ++ (t, PSync ok' a b) :: l2 ->
     progressed (sd_status (prun d l1)) (sd_status (prun d (l1 ++ [(t, PSync ok' a b)]))) ->
     stored t + s * second < now.
Proof.
  intros d t0 l now ok all n Hcl d1 d2 H1 H2. rewrite shows_getp in H1. rewrite !shows_getp in *. destruct H2 as (c & Hc & Hr).
  unfold d2, getp in Hc. cbn [pstep sd_status] in Hc.
  destruct (sync_cases now ok all n d1) as [E|E]; rewrite E in Hc; [exfalso; apply H1; exists c; auto|].
  rewrite rollout_progressing in Hc.
  pose proof (progress_cases now d1 (calculateDeploymentStatus now all n d1) (getp d1) (calc_progressing now all n d1) eq_refl) as HP. cbv zeta in HP. rewrite Hc in HP.
  destruct HP as [(E1 & _ & E2)|[(_ & k & E1 & E2)|[(_ & _ & k & E1 & E2 & E3)|(_ & _ & k & s & k' & E1 & E2 & E3 & E4 & E5 & E6)]]].
  - exfalso. apply H1. exists c. auto.
  - congruence.
  - congruence.
  - split. { intros (x & Hx & Hxr). rewrite E4 in Hx. congruence. }
    exists s. split; [exact E3|].
    destruct E6 as [E6|E6]; [exfalso; apply H1; eauto|].
    split. { exists k'. split; [|exact E6]. unfold shows. rewrite <- get_of_type. exact E4. }
    intros l1 t ok' a b l2 Hl Hp. subst l.
    apply clocked_app in Hcl. destruct Hcl as (tm & Hc1 & Hc2). simpl in Hc2. destruct Hc2 as (_ & Hc2).
    assert (d1 = prun (prun d (l1 ++ [(t, PSync ok' a b)])) l2) as Ed.
    { unfold d1, prun. rewrite !fold_left_app. reflexivity. }
    assert (prun d (l1 ++ [(t, PSync ok' a b)]) = pstep (prun d l1) (t, PSync ok' a b)) as Es.
    { unfold prun. rewrite fold_left_app. reflexivity. }
    rewrite Es in *. apply upd_progress in Hp.
    assert (upd (stored t) d1) as Hu by (rewrite Ed; eapply upd_run; [exact Hc2|lia|exact Hp]).
    assert (stored t <= c_update k') as HH; [|lia]. apply Hu; [exact E4|exact E5|]. intro Hx. apply H1. exists k'. auto.
Qed.

Lemma timed_out_stays : forall d now o, shows_reason d "ProgressDeadlineExceeded" ->
  match o with PCreated | PCreateFailed => False | _ => True end ->
  let d' := pstep d (now, o) in
  shows_reason d' "ProgressDeadlineExceeded" \/ all_done d (sd_status d') \/ progressed (sd_status d) (sd_status d').
Proof.
  intros d now o Hs Ho d'. rewrite shows_getp in *. destruct Hs as (c & Hc & Hr). unfold d'. destruct o as [ok all n|p| | | |md gen dl]; cbn [pstep] in *; unfold getp in *; cbn [sd_status with_conds ds_conds] in *.
  - destruct (sync_cases now ok all n d) as [E|E]; rewrite E; [left; eauto|]. rewrite rollout_progressing.
    pose proof (progress_cases now d (calculateDeploymentStatus now all n d) (getp d) (calc_progressing now all n d) eq_refl) as HP. cbv zeta in HP.
    unfold getp in HP. rewrite Hc in HP.
    destruct HP as [(E1 & _)|[(E1 & _)|[(_ & E1 & _)|(_ & _ & k & s & k' & E1 & E2 & _)]]].
    + left. exists c. auto.
    + right. left. exact E1.
    + right. right. exact E1.
    + left. eauto.
  - left. unfold checkPausedConditions. rewrite Hc. rewrite (proj2 (String.eqb_eq _ _) Hr). eauto.
  - left. unfold foundCondition. rewrite Hc. eauto.
  - contradiction.
  - contradiction.
  - left; eauto.
Qed.

Lemma complete_reported : forall d now all n, ~ shows_reason d "NewMachineSetAvailable" ->
  let d' := pstep d (now, PSync true all n) in
  let k := calculateDeploymentStatus now all n d in
  (shows_reason d' "NewMachineSetAvailable" <-> all_done d k) .
Proof.
  intros d now all n Hn d' k. rewrite shows_getp in *. unfold d', getp. cbn [pstep sd_status]. rewrite sync_written, rollout_progressing.
  pose proof (progress_cases now d (calculateDeploymentStatus now all n d) (getp d) (calc_progressing now all n d) eq_refl) as HP. cbv zeta in HP.
  destruct HP as [(E1 & E2 & _)|[(E1 & x & E2 & E3)|[(E1 & _ & x & E2 & E3 & _)|(E1 & _ & x & s & k' & E2 & E3 & _)]]].
  - rewrite E1. split.
    + intros (c & Hc & Hr). exfalso. apply Hn. eauto.
    + intro Ha. exfalso. apply E2. split; [exact Ha|]. intros c Hc Hr. apply Hn. eauto.
  - split; [intros _; exact E1|]. intros _. eauto.
  - split; [|intro; contradiction]. intros (c & Hc & Hr). rewrite E2 in Hc. congruence.
  - split; [|intro; contradiction]. intros (c & Hc & Hr). rewrite E2 in Hc. congruence.
Qed.

(** A stuck rollout is looked at again right after its deadline. *)
Lemma requeue_lemma : forall now d all n after,
  let k := rolloutStatus now all n d in
  statusUpdateRequired (sd_status d) k = false ->
  requeueStuckMachineDeployment now d k = RequeueAfter after ->
  ~ shows_reason d "NewMachineSetAvailable" ->
  shows_reason (pstep d (now + after, PSync true all n)) "ProgressDeadlineExceeded".
Proof.
  intros now d all n after k Hreq Hq Hna. unfold requeueStuckMachineDeployment in Hq.
  destruct (sd_deadline d) as [s|] eqn:ED; [|discriminate].
  destruct (GetMachineDeploymentCondition (ds_conds (sd_status d)) "Progressing") as [c|] eqn:EG; [|discriminate].
  destruct (MachineDeploymentComplete d k) eqn:EC; [discriminate|]. cbn [orb] in Hq.
  destruct (String.eqb (c_reason c) "ProgressDeadlineExceeded") eqn:ER; [discriminate|]. cbv zeta in Hq.
  destruct (_ <? second) eqn:EA; [discriminate|]. injection Hq as <-.
  apply not_required in Hreq. destruct Hreq as (A1 & A2 & A3 & A4 & A5 & A6 & A7 & _).
  rewrite shows_getp. unfold getp. cbn [pstep sd_status]. rewrite sync_written, rollout_progressing.
  set (now2 := now + _). 
  pose proof (progress_cases now2 d (calculateDeploymentStatus now2 all n d) (getp d) (calc_progressing now2 all n d) eq_refl) as HP. cbv zeta in HP.
  assert (forall x y, let a := calculateDeploymentStatus x all n d in let b := calculateDeploymentStatus y all n d in
    ds_updated a = ds_updated b /\ ds_replicas a = ds_replicas b /\ ds_ready a = ds_ready b /\ ds_avail a = ds_avail b /\ ds_obs a = ds_obs b) as HT.
  { intros. cbn. repeat split. }
  pose proof (rollout_counts now all n d) as HR. cbv zeta in HR. fold k in HR. specialize (HT now now2). cbv zeta in HT.
  assert (~ all_done d (calculateDeploymentStatus now2 all n d)) as HND.
  { intros (B1 & B2 & B3 & B4). assert (MachineDeploymentComplete d k = true) as X; [|congruence].
    unfold MachineDeploymentComplete. rewrite !andb_true_iff. lia. }
  assert (~ progressed (sd_status d) (calculateDeploymentStatus now2 all n d)) as HNP.
  { unfold progressed. lia. }
  destruct HP as [(E1 & E2 & _)|[(E1 & _)|[(_ & E1 & _)|(_ & _ & x & s' & k' & E1 & E2 & _)]]]; try contradiction; [|eauto].
  (* the condition would not have changed: but the deadline has passed *)
  exfalso.
  assert (~ c_reason c = "NewMachineSetAvailable") as Hcr by (intro X; apply Hna; rewrite shows_getp; exists c; auto).
  assert (MachineDeploymentTimedOut now2 d (calculateDeploymentStatus now2 all n d) = true) as HTO.
  { unfold MachineDeploymentTimedOut. rewrite ED, calc_progressing, EG. rewrite (proj2 (String.eqb_neq _ _) Hcr), ER. unfold now2, second in *. lia. }
  unfold getp in E1. rewrite EG in E1. revert E1. unfold progressConditions. rewrite EG. cbv zeta. rewrite (proj2 (String.eqb_neq _ _) Hcr), andb_false_r.
  assert (MachineDeploymentComplete d (calculateDeploymentStatus now2 all n d) = false) as ->.
  { destruct (MachineDeploymentComplete d (calculateDeploymentStatus now2 all n d)) eqn:E; [|reflexivity]. exfalso. apply HND.
    unfold MachineDeploymentComplete in E. rewrite !andb_true_iff in E. unfold all_done. lia. }
  assert (MachineDeploymentProgressing d (calculateDeploymentStatus now2 all n d) = false) as ->.
  { destruct (MachineDeploymentProgressing d (calculateDeploymentStatus now2 all n d)) eqn:E; [|reflexivity]. exfalso. apply HNP.
    unfold MachineDeploymentProgressing in E. rewrite !orb_true_iff in E. unfold progressed. lia. }
  rewrite HTO.
  match goal with |- context [SetMachineDeploymentCondition ?l ?cc] => destruct (get_set_same l cc) as (y & H1 & _ & H2 & _) end.
  cbn [c_type NewMachineDeploymentCondition c_reason] in *. rewrite H1. intro X. injection X as ->. apply String.eqb_neq in ER. congruence.
Qed.

(** Counts. *)
Lemma count_machines : forall sel l s lab rdy av fl, countMachines sel s l = (lab, rdy, av, fl) ->
  lab = countb (fun m => selectorMatches sel (sm_labels m)) l /\
  rdy = countb (fun m => String.eqb (sm_phase m) "Running") l /\
  av = countb (fun m => String.eqb (sm_phase m) "Available" || String.eqb (sm_phase m) "Running") l.
Proof.
  intros sel l. induction l as [|m l IH]; intros s lab rdy av fl H; simpl in H.
  - injection H as <- <- <- <-. repeat split.
  - destruct (countMachines _ _ l) as [[[a b] c] f] eqn:E. injection H as <- <- <- <-. apply IH in E. destruct E as (-> & -> & ->).
    unfold countb. simpl. unfold isMachineAvailable, isMachineReady.
    destruct (selectorMatches sel (sm_labels m)), (String.eqb (sm_phase m) "Available"), (String.eqb (sm_phase m) "Running"); simpl List.length; simpl orb; simpl andb; cbv iota; repeat split; simpl List.length; lia.
Qed.

Lemma countb_le : forall A (p : A -> bool) l, 0 <= countb p l <= Z.of_nat (List.length l).
Proof.
  intros. unfold countb. assert (List.length (filter p l) <= List.length l)%nat; [|lia].
  induction l as [|a l IH]; simpl; [lia|]. destruct (p a); simpl; lia.
Qed.

Lemma countb_mono : forall A (p q : A -> bool) l, (forall x, p x = true -> q x = true) -> countb p l <= countb q l.
Proof.
  intros A p q l H. unfold countb. induction l as [|a l IH]; simpl; [lia|]. specialize (H a).
  destruct (p a); [rewrite H by reflexivity; simpl; lia|]. destruct (q a); simpl; lia.
Qed.

Lemma ms_counts : forall now sel spec old l err,
  let s := calculateMachineSetStatus now sel spec old l err in
  st_replicas s = Z.of_nat (List.length l) /\
  st_labeled s = countb (fun m => selectorMatches sel (sm_labels m)) l /\
  st_ready s = countb (fun m => String.eqb (sm_phase m) "Running") l /\
  st_avail s = countb (fun m => String.eqb (sm_phase m) "Available" || String.eqb (sm_phase m) "Running") l /\
  0 <= st_labeled s <= st_replicas s /\ 0 <= st_ready s /\ st_ready s <= st_avail s <= st_replicas s.
Proof.
  intros now sel spec old l err s. unfold s, calculateMachineSetStatus. destruct (countMachines _ _ l) as [[[a b] c] f] eqn:E.
  apply count_machines in E. destruct E as (-> & -> & ->). cbn [st_replicas st_labeled st_ready st_avail].
  split; [reflexivity|]. split; [reflexivity|]. split; [reflexivity|]. split; [reflexivity|].
  split; [apply countb_le|]. split; [apply countb_le|]. split; [|apply countb_le].
  apply countb_mono. intros x ->. apply orb_true_r.
Qed.

Lemma md_counts : forall now all n d, let s := calculateDeploymentStatus now all n d in
  ds_replicas s = sumZ (map (fun x => ms_status (ss_ms x)) all) /\
  ds_ready s = sumZ (map (fun x => ms_ready (ss_ms x)) all) /\
  ds_avail s = sumZ (map (fun x => ms_avail (ss_ms x)) all) /\
  ds_updated s = match n with Some x => ms_status (ss_ms x) | None => 0 end /\
  ds_unavail s = Z.max 0 (sumZ (map (fun x => ms_spec (ss_ms x)) all) - ds_avail s) /\
  ds_obs s = sd_gen d.
Proof.
  intros now all n d s. unfold s. cbn [calculateDeploymentStatus ds_replicas ds_ready ds_avail ds_updated ds_unavail ds_obs].
  assert (GetReplicaCountForMachineSets (map ss_ms all) = sumZ (map (fun x => ms_spec (ss_ms x)) all) /\
          GetActualReplicaCountForMachineSets (map ss_ms all) = sumZ (map (fun x => ms_status (ss_ms x)) all) /\
          GetReadyReplicaCountForMachineSets (map ss_ms all) = sumZ (map (fun x => ms_ready (ss_ms x)) all) /\
          GetAvailableReplicaCountForMachineSets (map ss_ms all) = sumZ (map (fun x => ms_avail (ss_ms x)) all)) as (E1 & E2 & E3 & E4).
  { induction all as [|x all IH]; [repeat split|]. destruct IH as (A & B & C & D). simpl. rewrite A, B, C, D. repeat split. }
  rewrite E1, E2, E3, E4. repeat split; auto.
  - destruct n; simpl; lia.
  - destruct (_ <? 0) eqn:E; lia.
Qed.

Lemma available_condition : forall now all n d, exists c,
  GetMachineDeploymentCondition (ds_conds (calculateDeploymentStatus now all n d)) "Available" = Some c /\
  (c_status c = "True" <-> md_replicas (sd_md d) - MaxUnavailable (sd_md d) <= ds_avail (calculateDeploymentStatus now all n d)) /\
  (c_status c = "True" /\ c_reason c = "MinimumReplicasAvailable" \/
   c_status c = "False" /\ c_reason c = "MinimumReplicasUnavailable").
Proof.
  intros. cbn [calculateDeploymentStatus ds_conds ds_avail]. destruct (_ >=? _) eqn:E.
  - match goal with |- context [SetMachineDeploymentCondition ?l ?cc] => destruct (get_set_same l cc) as (y & H1 & H2 & H3 & _) end.
    cbn [c_type c_status c_reason NewMachineDeploymentCondition] in *. exists y. split; [exact H1|]. rewrite H2, H3. split; [|auto]. split; [lia|reflexivity].
  - match goal with |- context [SetMachineDeploymentCondition ?l ?cc] => destruct (get_set_same l cc) as (y & H1 & H2 & H3 & _) end.
    cbn [c_type c_status c_reason NewMachineDeploymentCondition] in *. exists y. split; [exact H1|]. rewrite H2, H3. split; [|auto]. split; [discriminate|lia].
Qed.

(** Failed machines. *)
Lemma failed_list : forall sel l s lab rdy av fl, countMachines sel s l = (lab, rdy, av, fl) ->
  (forall m, In m l -> sm_state m = "Failed" -> sm_owner m <> None) ->
  fl = map (fun m => summary_of m (match sm_owner m with Some o => o | None => "" end)) (filter (fun m => String.eqb (sm_state m) "Failed") l).
Proof.
  intros sel l. induction l as [|m l IH]; intros s lab rdy av fl H Ho; simpl in H.
  - injection H as <- <- <- <-. reflexivity.
  - destruct (countMachines _ _ l) as [[[a b] c] f] eqn:E. injection H as <- <- <- <-.
    apply IH in E; [|intros; apply Ho; [right|]; assumption]. simpl.
    destruct (String.eqb (sm_state m) "Failed") eqn:EF; [|exact E]. simpl. rewrite E. f_equal. unfold summary_of.
    apply String.eqb_eq in EF. specialize (Ho m (or_introl eq_refl) EF). destruct (sm_owner m); [reflexivity|congruence].
Qed.

Lemma failed_lemma : forall now sel spec old l err,
  (forall m, In m l -> sm_state m = "Failed" -> sm_owner m <> None) ->
  let s := calculateMachineSetStatus now sel spec old l err in
  let want := map (fun m => summary_of m (match sm_owner m with Some o => o | None => "" end)) (filter (fun m => String.eqb (sm_state m) "Failed") l) in
  (want <> [] -> st_failed s = Some want) /\
  (want = [] -> st_ready s = st_replicas old -> st_failed s = None) /\
  (want = [] -> st_ready s <> st_replicas old -> st_failed s = st_failed old).
Proof.
  intros now sel spec old l err Ho s want. unfold s, calculateMachineSetStatus. destruct (countMachines _ _ l) as [[[a b] c] f] eqn:E.
  apply failed_list in E; [|exact Ho]. fold want in E. cbn [st_failed st_ready]. rewrite E. repeat split; intros.
  - destruct want; [congruence|reflexivity].
  - rewrite H. destruct (b =? st_replicas old) eqn:EE; [reflexivity|lia].
  - rewrite H. destruct (b =? st_replicas old) eqn:EE; [lia|reflexivity].
Qed.

(** Names lost from the failed list are noticed. *)
Lemma pigeon : forall (a b : list string), NoDup a -> (List.length b <= List.length a)%nat -> incl a b -> incl b a.
Proof. intros. apply NoDup_length_incl; assumption. Qed.

Lemma published_lemma : forall o n, NoDup (map su_name (ds_failed n)) -> statusUpdateRequired o n = false ->
  ds_avail o = ds_avail n /\ ds_ready o = ds_ready n /\ ds_replicas o = ds_replicas n /\ ds_updated o = ds_updated n /\
  ds_unavail o = ds_unavail n /\ ds_obs o = ds_obs n /\ ds_conds o = ds_conds n /\
  (forall x, In x (map su_name (ds_failed o)) <-> In x (map su_name (ds_failed n))) /\
  (forall m, In m (ds_failed n) -> exists k, In k (ds_failed o) /\ su_name k = su_name m /\ su_desc k = su_desc m).
Proof.
  intros o n HN H. apply not_required in H. destruct H as (A1 & A2 & A3 & A4 & A5 & A6 & A7 & A8 & A9).
  repeat (split; [assumption|]). split; [|exact A9].
  assert (incl (map su_name (ds_failed n)) (map su_name (ds_failed o))) as HI.
  { intros x Hx. apply in_map_iff in Hx. destruct Hx as (m & <- & Hm). destruct (A9 m Hm) as (k & Hk & Ek & _). rewrite <- Ek. apply in_map; exact Hk. }
  intro x; split; [|apply HI]. apply pigeon; [exact HN|rewrite !map_length; lia|exact HI].
Qed.

Lemma written_or_same : forall now all n d, NoDup (map su_name (ds_failed (rolloutStatus now all n d))) ->
  let s := syncRolloutStatus now true all n d in let r := rolloutStatus now all n d in
  s = r \/ (s = sd_status d /\ statusUpdateRequired (sd_status d) r = false).
Proof. intros. unfold s, syncRolloutStatus. cbv zeta. fold r. rewrite andb_true_r. destruct (statusUpdateRequired _ _); auto. Qed.

Lemma failure_condition : forall now sel spec old l err,
  let n := calculateMachineSetStatus now sel spec old l err in let k := Z.of_nat (List.length l) in
  (err = None -> of_type "ReplicaFailure" (st_conds n) = []) /\
  (err <> None -> of_type "ReplicaFailure" (st_conds n) <> []) /\
  others "ReplicaFailure" (st_conds n) = others "ReplicaFailure" (st_conds old) /\
  (forall msg, err = Some msg -> of_type "ReplicaFailure" (st_conds old) = [] ->
     exists c, of_type "ReplicaFailure" (st_conds n) = [c] /\ c_status c = "True" /\ c_msg c = msg /\
       c_trans c = stored now /\ (k < spec -> c_reason c = "FailedCreate") /\ (spec < k -> c_reason c = "FailedDelete")).
Proof.
  intros now sel spec old l err n k. subst n k. unfold calculateMachineSetStatus.
  destruct (countMachines sel _ l) as [[[lab rdy] av] fl]. cbv zeta. cbn [st_conds].
  change (GetCondition (st_conds old) "ReplicaFailure") with (GetMachineDeploymentCondition (st_conds old) "ReplicaFailure").
  change (RemoveCondition (st_conds old) "ReplicaFailure") with (filterOutDeploymentCondition (st_conds old) "ReplicaFailure").
  rewrite get_of_type.
  destruct (of_type "ReplicaFailure" (st_conds old)) as [|c0 cs] eqn:E; cbn [hd_error]; destruct err as [msg|].
  - unfold SetCondition. cbn [c_type].
    change (GetCondition (st_conds old) "ReplicaFailure") with (GetMachineDeploymentCondition (st_conds old) "ReplicaFailure").
    change (filterOutMachineSetCondition (st_conds old) "ReplicaFailure") with (filterOutDeploymentCondition (st_conds old) "ReplicaFailure").
    rewrite get_of_type, E. cbn [hd_error].
    rewrite of_type_app, of_type_out, others_app, others_out. cbn [app of_type others filter c_type String.eqb Ascii.eqb Bool.eqb negb].
    rewrite app_nil_r. split; [discriminate|]. split; [discriminate|]. split; [reflexivity|].
    intros m Hm _. injection Hm as <-. eexists. split; [reflexivity|]. cbn [c_status c_msg c_trans c_reason].
    split; [reflexivity|]. split; [reflexivity|]. split; [reflexivity|].
    split; intros H; destruct (Z.of_nat (List.length l) <? spec) eqn:E1; destruct (spec <? Z.of_nat (List.length l)) eqn:E2; try reflexivity; lia.
  - split; [auto|]. split; [congruence|]. split; [reflexivity|]. discriminate.
  - split; [discriminate|]. rewrite E. split; [discriminate|]. split; [reflexivity|]. discriminate.
  - rewrite of_type_out, others_out. split; [auto|]. split; [congruence|]. split; [reflexivity|]. discriminate.
Qed.

Lemma failures_shown : forall all n, 
  let own s := of_type "ReplicaFailure" (st_conds (ss_st s)) in
  match getReplicaFailures all n with
  | [] => (forall s, In s all \/ n = Some s -> own s = [])
  | c :: _ => exists s x, (In s all \/ n = Some s) /\ In x (own s) /\ c = MachineSetToMachineDeploymentCondition x /\
                (forall s', n = Some s' -> own s' <> [] -> s = s' /\ hd_error (own s') = Some x)
  end.
Proof.
  intros all n own. unfold getReplicaFailures. cbv zeta.
  change (fun c : Cond => (c_type c =? "ReplicaFailure")%string) with (fun c : Cond => String.eqb (c_type c) "ReplicaFailure").
  assert (forall l, match flat_map (fun s => map MachineSetToMachineDeploymentCondition (own s)) l with
    | [] => forall s, In s l -> own s = []
    | c :: _ => exists s x, In s l /\ In x (own s) /\ c = MachineSetToMachineDeploymentCondition x end) as HF.
  { intros l. induction l as [|s l IH]; cbn [flat_map]; [intros ? []|].
    destruct (own s) as [|x xs] eqn:E; cbn [map app].
    - destruct (flat_map _ l).
      + intros s' [<-|H]; auto.
      + destruct IH as (s' & x & H1 & H2 & H3). exists s', x. split; [right; exact H1|auto].
    - exists s, x. rewrite E. split; [left; reflexivity|]. split; [left; reflexivity|reflexivity]. }
  destruct n as [s0|].
  - change (filter (fun c : Cond => (c_type c =? "ReplicaFailure")%string) (st_conds (ss_st s0))) with (own s0).
    destruct (own s0) as [|x xs] eqn:E; cbn [map].
    + specialize (HF all). change (flat_map _ all) with (flat_map (fun s => map MachineSetToMachineDeploymentCondition (own s)) all).
      destruct (flat_map _ all).
      * intros s [H|H]; [auto|congruence].
      * destruct HF as (s & x & H1 & H2 & H3). exists s, x. split; [auto|]. split; [auto|]. split; [auto|]. intros s' Hs. congruence.
    + exists s0, x. split; [auto|]. rewrite E. split; [left; reflexivity|]. split; [reflexivity|].
      intros s' Hs _. injection Hs as <-. rewrite E. auto.
  - specialize (HF all). change (flat_map _ all) with (flat_map (fun s => map MachineSetToMachineDeploymentCondition (own s)) all).
    destruct (flat_map _ all).
    + intros s [H|H]; [auto|congruence].
    + destruct HF as (s & x & H1 & H2 & H3). exists s, x. split; [auto|]. split; [auto|]. split; [auto|]. intros s' Hs. congruence.
Qed.

Lemma failure_surfaces : forall now all n d,
  let own s := of_type "ReplicaFailure" (st_conds (ss_st s)) in
  let r := ds_conds (rolloutStatus now all n d) in
  (of_type "ReplicaFailure" r = [] <-> forall s, In s all \/ n = Some s -> own s = []) /\
  (forall c, shows r "ReplicaFailure" c -> exists s x, (In s all \/ n = Some s) /\ In x (own s) /\
     c_status c = c_status x /\ c_reason c = c_reason x /\
     (forall s', n = Some s' -> own s' <> [] -> s = s' /\ hd_error (own s') = Some x)).
Proof.
  intros now all n d own r. subst r. unfold rolloutStatus. cbv zeta. cbn [ds_conds].
  set (l := progressConditions now d _). pose proof (failures_shown all n) as HF. cbv zeta in HF. fold own in HF.
  unfold shows. destruct (getReplicaFailures all n) as [|c r] eqn:E.
  - destruct (remove_spec l "ReplicaFailure") as (R & _). rewrite R. split; [tauto|]. discriminate.
  - destruct HF as (s & x & H1 & H2 & H3 & H4).
    assert (c_type c = "ReplicaFailure") as Ht by (apply (replica_failures_type all n); rewrite E; left; reflexivity).
    destruct (get_set_same l c) as (y & G & Y1 & Y2 & _). rewrite Ht, get_of_type in G.
    split.
    + split; intros K; exfalso; [rewrite K in G; discriminate|]. rewrite (K s H1) in H2. destruct H2.
    + intros c' Hc. rewrite G in Hc. injection Hc as <-. exists s, x. subst c. auto.
Qed.
