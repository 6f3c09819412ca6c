Require Import Coq.ZArith.ZArith Coq.Lists.List Coq.Strings.String Coq.Bool.Bool Coq.micromega.Lia.
Require Import Coq.Sorting.Permutation.
From Verif Require Import Types Sort RolloutModel RolloutSpec RolloutProofs ScaleModel ScaleSpec ScaleProofs RecreateModel RecreateSpec RecreateProofs.
From Verif Require Import WholeModel WholeSpec WholeProofs WishModel WishSpec.
Import ListNotations.
Open Scope Z_scope.
Require Import Coq.micromega.ZifyBool.

Notation wstep := WholeModel.step.
Notation wrun := WholeModel.run.
Notation wpossible := WholeSpec.possible.

(** *** The sizes [scale] asks for *)
Lemma surge_fun : forall w surge, proper w -> is_surge (p_surge w) (p_size w) surge -> MaxSurge (dep w) = surge /\ 0 <= surge.
Proof.
  intros w surge (_ & _ & _ & HR & Gs & Gu) Hs. destruct (resolve_budget _ _ _ Gs Gu HR) as (a & x & A & _ & B & _ & C).
  unfold MaxSurge, dep. cbn [md_strategy md_replicas]. rewrite C. rewrite (is_surge_fun _ _ _ _ Hs A). auto.
Qed.
Lemma surge_ex : forall w, proper w -> is_surge (p_surge w) (p_size w) (MaxSurge (dep w)) /\ 0 <= MaxSurge (dep w).
Proof.
  intros w P. pose proof P as (_ & _ & _ & HR & Gs & Gu). destruct (resolve_budget _ _ _ Gs Gu HR) as (a & x & A & _ & B & _ & C).
  destruct (surge_fun w a P A) as (-> & ?). auto.
Qed.

Definition share_ok (w : Dep) (s : MachineSet) : Prop :=
  0 < p_size w -> exists z, ms_max s = AnnInt z /\ 0 < z /\ ms_spec s * (p_size w + MaxSurge (dep w)) < 2147483648.

Lemma proportion_ok : forall w s toAdd added, 0 <= p_size w -> 0 <= MaxSurge (dep w) -> 0 < ms_spec s -> share_ok w s -> toAdd < 0 ->
  exists p, GetProportion (dep w) s toAdd added = Some p /\ - ms_spec s <= p.
Proof.
  intros w s toAdd added HR HS Hp Ho Ht. unfold GetProportion. destruct (_ || _ || _) eqn:E; [exists 0; split; [reflexivity|lia]|].
  assert (exists f, getMachineSetFraction (dep w) s = Some f /\ - ms_spec s <= f) as (f & -> & Hf).
  { unfold getMachineSetFraction. change (md_replicas (dep w)) with (p_size w). destruct (p_size w =? 0) eqn:E0; [eexists; split; [reflexivity|lia]|].
    destruct (Ho ltac:(lia)) as (z & -> & Hz & Hm). cbv zeta. rewrite wrap32_id by nia.
    unfold roundDiv. destruct (z =? 0) eqn:E1; [lia|]. destruct (z <? 0) eqn:E2; [lia|].
    assert (0 <= ms_spec s * (p_size w + MaxSurge (dep w))) by nia.
    rewrite Z.abs_eq by lia. eexists; split; [reflexivity|]. destruct (ms_spec s * _ <? 0) eqn:E4; [lia|].
    match goal with |- context [?a / ?b] => assert (0 <= a / b) as Hq by (apply Z.div_pos; lia); generalize dependent (a / b) end. intros; lia. }
  destruct (toAdd >? 0) eqn:E2; [lia|]. eexists; split; [reflexivity|lia].
Qed.
Lemma proportions_ok : forall w toAdd l added, 0 <= p_size w -> 0 <= MaxSurge (dep w) -> toAdd < 0 ->
  Forall (fun s => 0 < ms_spec s /\ share_ok w s) l ->
  exists sizes a, scaleMachineSetsProportionally (dep w) toAdd added l = Some (sizes, a) /\ Forall (fun z => 0 <= z) sizes.
Proof.
  intros w toAdd l. induction l as [|s l IH]; intros added HR HS Ht Hl; cbn [scaleMachineSetsProportionally]; [eauto|].
  inversion Hl as [|? ? (L1 & L2) L3]; subst. destruct (toAdd =? 0) eqn:E; [lia|].
  destruct (proportion_ok w s toAdd added HR HS L1 L2 Ht) as (p & -> & Hp).
  destruct (IH (added + p) HR HS Ht L3) as (sizes & a & -> & Hs). eexists _, _. split; [reflexivity|]. constructor; [lia|exact Hs].
Qed.
Lemma combine_snd : forall (A : Type) (P : Z -> Prop) (l : list A) m, Forall P m -> Forall (fun p => P (snd p)) (combine l m).
Proof. intros A P l. induction l as [|x l IH]; intros m H; [constructor|]. destruct H; cbn [combine]; constructor; auto. Qed.
Lemma leftover_pos : forall t a l, Forall (fun z => 0 <= z) l -> Forall (fun z => 0 <= z) (addLeftover t a l).
Proof. intros t a l H. destruct H; cbn [addLeftover]; constructor; auto. destruct (_ =? _); lia. Qed.

Lemma scale_pos : forall w n olds, 0 <= p_size w -> 0 <= MaxSurge (dep w) -> (forall m, n = Some m -> 0 <= ms_spec m) ->
  Forall (fun s => 0 < ms_spec s -> share_ok w s) (olds ++ match n with Some s => [s] | None => [] end) ->
  exists plan, scale (dep w) n olds = Some plan /\ Forall (fun p => 0 <= snd p) plan.
Proof.
  intros w n olds HR HS Hm Ho. unfold scale. set (os := isort (fun a b => byCreation b a) olds).
  destruct (FindActiveOrLatest n os) as [s|]. { eexists; split; [reflexivity|]. constructor; [cbn; lia|constructor]. }
  destruct (IsSaturated _ n). { eexists; split; [reflexivity|]. apply Forall_forall. intros p Hp. apply in_map_iff in Hp. destruct Hp as (x & <- & _). cbn; lia. }
  change (md_strategy (dep w)) with (RollingUpdate (p_surge w) (p_unavail w)). cbv beta iota zeta. set (act := FilterActiveMachineSets (allSets n os)).
  assert (Forall (fun s => 0 < ms_spec s /\ share_ok w s) act) as Ha.
  { apply Forall_forall. intros s Hs. unfold act in Hs. rewrite active_filter in Hs. apply filter_In in Hs. destruct Hs as (H1 & H2).
    assert (0 < ms_spec s) as L by lia. split; [exact L|]. rewrite Forall_forall in Ho. apply Ho; [|exact L].
    unfold allSets in H1. apply in_app_or in H1. apply in_or_app. destruct H1 as [H1|H1]; [left|right; exact H1].
    unfold os in H1. eapply Permutation_in; [apply Permutation_sym, isort_perm|exact H1]. }
  destruct (0 <=? _) eqn:E.
  - eexists; split; [reflexivity|]. apply combine_snd. apply leftover_pos. unfold scaleNewMachineSet. apply Forall_forall. intros z Hz.
    apply in_map_iff in Hz. destruct Hz as (x & <- & Hx). rewrite Forall_forall in Ha. destruct (Ha x Hx) as (L & _).
    destruct n as [m|]; [|lia]. specialize (Hm m eq_refl). destruct (String.eqb _ _); lia.
  - destruct (proportions_ok w (allowedSize (dep w) - GetReplicaCountForMachineSets act) (isort bySizeOlder act) 0 HR HS ltac:(lia)) as (sizes & a & -> & Hs).
    { eapply Permutation_Forall; [|exact Ha]. apply isort_perm. }
    eexists; split; [reflexivity|]. apply combine_snd, leftover_pos. exact Hs.
Qed.

(** *** The rollout writes nothing but sizes, with the present total *)
Definition res (d : MachineDeployment) (a b : MachineSet) : Prop := a = b \/ exists k, a = resize d b k.
Lemma res_refl : forall d s, res d s s.
Proof. left; reflexivity. Qed.
Lemma res_trans : forall d a b c, res d a b -> res d b c -> res d a c.
Proof.
  intros d a b c [->|(k & ->)] H; [exact H|]. right. exists k. destruct H as [->|(k' & ->)]; reflexivity.
Qed.
Lemma res_all_refl : forall d l, Forall2 (res d) l l.
Proof. intros d l. induction l; constructor; auto using res_refl. Qed.
Lemma res_name : forall d a b, res d a b -> ms_name a = ms_name b.
Proof. intros d a b [->|(k & ->)]; reflexivity. Qed.
Lemma scale_res : forall ok d s n, res d (sr_ms (scaleMachineSetAndRecordEvent ok d s n)) s.
Proof. intros. unfold scaleMachineSetAndRecordEvent. destruct (_ =? _); [left; reflexivity|]. destruct ok; [right; eexists; reflexivity|left; reflexivity]. Qed.
Lemma cleanup_res : forall ok d maxC l total l' c e, cleanupLoop ok d maxC total l = (l', c, e) -> Forall2 (res d) l' l.
Proof.
  intros ok d maxC l. induction l as [|t rest IH]; intros total l' c e H; cbn [cleanupLoop] in H; [injection H as <- <- <-; constructor|].
  destruct (maxC <=? total); [injection H as <- <- <-; apply res_all_refl|].
  destruct (ms_spec t =? 0).
  { destruct (cleanupLoop ok d maxC total rest) as [[r cc] ee] eqn:E. injection H as <- <- <-. constructor; [apply res_refl|eauto]. }
  destruct (ms_spec t =? ms_avail t).
  { destruct (cleanupLoop ok d maxC total rest) as [[r cc] ee] eqn:E. injection H as <- <- <-. constructor; [apply res_refl|eauto]. }
  cbv zeta in H. destruct (_ >? _); [injection H as <- <- <-; apply res_all_refl|].
  destruct (sr_err _); [injection H as <- <- <-; apply res_all_refl|].
  destruct (cleanupLoop ok d maxC _ rest) as [[r cc] ee] eqn:E. injection H as <- <- <-. constructor; [apply scale_res|eauto].
Qed.
Lemma scale_down_res : forall ok d budget l total l' c e, scaleDownLoop ok d budget total l = (l', c, e) -> Forall2 (res d) l' l.
Proof.
  intros ok d budget l. induction l as [|t rest IH]; intros total l' c e H; cbn [scaleDownLoop] in H; [injection H as <- <- <-; constructor|].
  destruct (budget <=? total); [injection H as <- <- <-; apply res_all_refl|].
  destruct (ms_spec t =? 0).
  { destruct (scaleDownLoop ok d budget total rest) as [[r cc] ee] eqn:E. injection H as <- <- <-. constructor; [apply res_refl|eauto]. }
  cbv zeta in H. destruct (_ >? _); [injection H as <- <- <-; apply res_all_refl|].
  destruct (sr_err _); [injection H as <- <- <-; apply res_all_refl|].
  destruct (scaleDownLoop ok d budget _ rest) as [[r cc] ee] eqn:E. injection H as <- <- <-. constructor; [apply scale_res|eauto].
Qed.
Definition from (d : MachineDeployment) (l' l : list MachineSet) : Prop := forall a, In a l' -> exists b, In b l /\ res d a b.
Lemma from_refl : forall d l, from d l l.
Proof. intros d l a H. exists a. split; [exact H|apply res_refl]. Qed.
Lemma from_F2 : forall d l' l, Forall2 (res d) l' l -> from d l' l.
Proof.
  intros d l' l F. induction F as [|x y l' l Hxy F IH]; intros a H; [contradiction|]. destruct H as [<-|H].
  - exists y. split; [left; reflexivity|exact Hxy].
  - destruct (IH a H) as (b & B & R). exists b. split; [right; exact B|exact R].
Qed.
Lemma from_trans : forall d l m n, from d l m -> from d m n -> from d l n.
Proof. intros d l m n A B a H. destruct (A a H) as (b & Hb & R). destruct (B b Hb) as (c & Hc & R'). exists c. split; [exact Hc|eapply res_trans; eauto]. Qed.
Lemma from_incl : forall d l m, (forall a, In a l -> In a m) -> from d l m.
Proof. intros d l m H a Ha. exists a. split; [auto|apply res_refl]. Qed.
Lemma from_sort : forall d le l, from d (isort le l) l.
Proof. intros d le l. apply from_incl. intros a H. eapply Permutation_in; [apply Permutation_sym, isort_perm|exact H]. Qed.

Lemma old_res : forall okC okD d all l n l' b, reconcileOldMachineSets okC okD d all l n = (l', b) -> from d l' l.
Proof.
  intros okC okD d all l n l' b H. unfold reconcileOldMachineSets in H.
  destruct (_ =? 0). { injection H as <- <-. apply from_refl. }
  destruct (_ <=? 0). { injection H as <- <-. apply from_refl. }
  destruct (cleanupUnhealthyReplicas _ _ _ _) as [[o1 c1] e1] eqn:E1. unfold cleanupUnhealthyReplicas in E1.
  apply cleanup_res, from_F2 in E1. assert (from d o1 l) as F1 by (eapply from_trans; [exact E1|apply from_sort]).
  destruct e1. { injection H as <- <-. exact F1. }
  destruct (scaleDownOld _ _ _ _) as [[o2 c2] e2] eqn:E2.
  assert (from d o2 o1) as F2.
  { unfold scaleDownOld in E2. destruct (_ <=? _); [injection E2 as <- <- <-; apply from_refl|].
    apply scale_down_res, from_F2 in E2. eapply from_trans; [exact E2|apply from_sort]. }
  assert (from d o2 l) as F by (eapply from_trans; eassumption).
  destruct e2; injection H as <- <-; exact F.
Qed.
Lemma rolling_res : forall api d n olds n' o', rolloutRolling api d n olds = (n', o') -> res d n' n /\ from d o' olds.
Proof.
  intros api d n olds n' o' H. destruct (rolling_new_cases _ _ _ _ _ _ H) as (G & _). split.
  - rewrite G. unfold reconcileNewMachineSet. destruct (_ =? _); [apply res_refl|]. destruct (_ >? _); [apply scale_res|].
    destruct (NewISNewReplicas _ _ _); [apply scale_res|apply res_refl].
  - unfold rolloutRolling in H. destruct (sr_err _); [injection H as <- <-; apply from_refl|].
    destruct (sr_scaled _); [injection H as <- <-; apply from_refl|].
    destruct (reconcileOldMachineSets _ _ _ _ _ _) as [o b] eqn:EO. injection H as <- <-. apply old_res in EO.
    intros a Ha. apply in_app_or in Ha. destruct Ha as [Ha|Ha].
    + exists a. split; [apply filter_In in Ha; tauto|apply res_refl].
    + destruct (EO a Ha) as (b' & B & R). exists b'. split; [apply filter_In in B; tauto|exact R].
Qed.
Lemma written_res : forall api d vn vo n' o' s, NoDup (map ms_name (vn :: vo)) -> rolloutRolling api d vn vo = (n', o') -> In s (vn :: vo) ->
  res d (written (vn :: vo) (n' :: o') s) s.
Proof.
  intros api d vn vo n' o' s N H Hs. destruct (rolling_res _ _ _ _ _ _ H) as (A & B). unfold written.
  destruct (lookup (ms_name s) (vn :: vo)) as [a|] eqn:E1; [|apply res_refl].
  destruct (lookup (ms_name s) (n' :: o')) as [b|] eqn:E2; [|apply res_refl]. destruct (ms_dec a b); [apply res_refl|].
  apply lookup_some in E2. destruct E2 as (I & Nb).
  assert (exists c, In c (vn :: vo) /\ res d b c) as (c & C & R).
  { destruct I as [<-|I]; [exists vn; split; [left; reflexivity|exact A]|]. destruct (B b I) as (c & C & R). exists c. split; [right; exact C|exact R]. }
  replace s with c; [exact R|]. eapply (key_inj _ _ ms_name); [exact N|exact C|exact Hs|]. rewrite <- Nb. symmetry. eapply res_name; exact R.
Qed.

(** *** The world as one of [WholeModel] *)
Definition emb (w : Dep) (n : TSet) : World := mkW (t_x n) (map t_x (oldSets w)) 0.
Lemma new_in : forall w n, newSet w = Some n -> In n (p_sets w) /\ t_tmpl n = p_tmpl w.
Proof. intros w n H. apply find_some in H. destruct H as (A & B). unfold isNew in B. split; [exact A|lia]. Qed.
Lemma new_ex : forall w t, In t (p_sets w) -> t_tmpl t = p_tmpl w -> exists n, newSet w = Some n.
Proof.
  intros w t H E. destruct (newSet w) as [n|] eqn:F; [eauto|]. exfalso. unfold newSet in F.
  pose proof (find_none _ _ F t H) as G. unfold isNew in G. lia.
Qed.
Lemma filter_none : forall A (f : A -> bool) l, (forall x, In x l -> f x = false) -> filter f l = [].
Proof.
  intros A f l H. induction l as [|x l IH]; [reflexivity|]. cbn [filter]. rewrite (H x (or_introl eq_refl)). apply IH. intros; apply H; right; assumption.
Qed.
Lemma find_filter : forall c l n, NoDup (map t_tmpl l) -> find (fun t => t_tmpl t =? c) l = Some n -> filter (fun t => t_tmpl t =? c) l = [n].
Proof.
  intros c l n N H. induction l as [|t l IH]; [discriminate|]. cbn [map] in N. inversion N as [|? ? N1 N2]; subst. cbn [find filter] in *.
  destruct (t_tmpl t =? c) eqn:E; [|auto]. injection H as <-. f_equal.
  apply filter_none. intros x Hx. assert (In (t_tmpl x) (map t_tmpl l)) as I by (apply in_map; exact Hx).
  destruct (t_tmpl x =? c) eqn:F; [|reflexivity]. exfalso. apply N1. replace (t_tmpl t) with (t_tmpl x) by lia. exact I.
Qed.
Lemma split_perm : forall w n, NoDup (map t_tmpl (p_sets w)) -> newSet w = Some n -> Permutation (p_sets w) (n :: oldSets w).
Proof.
  intros w n N H. eapply perm_trans; [apply (filter_split_perm _ (isNew w))|]. unfold newSet, isNew in H.
  assert (filter (isNew w) (p_sets w) = [n]) as ->; [apply find_filter; assumption|].
  apply Permutation_sym, Permutation_cons_append.
Qed.
Lemma emb_sets : forall w n, sets (emb w n) = map t_x (n :: oldSets w).
Proof. reflexivity. Qed.
Lemma emb_names : forall w n, x_names (emb w n) = map name (n :: oldSets w).
Proof. intros. unfold x_names. rewrite stored_sets, emb_sets, !map_map. reflexivity. Qed.
Lemma Forall_mapx : forall A B (P : B -> Prop) (f : A -> B) l, Forall P (map f l) <-> Forall (fun x => P (f x)) l.
Proof. intros A B P f l. induction l as [|x l IH]; cbn [map]; split; intro H; inversion H; subst; constructor; auto; apply IH; assumption. Qed.
Lemma emb_sane : forall w n, proper w -> newSet w = Some n -> sane (emb w n).
Proof.
  intros w n (A & B & C & _) H. pose proof (split_perm w n B H) as P. split.
  - rewrite emb_names. eapply Permutation_NoDup; [apply Permutation_map; exact P|exact A].
  - rewrite emb_sets. apply Forall_mapx. eapply Permutation_Forall; [exact P|exact C].
Qed.
Lemma sane_emb : forall w n, NoDup (map t_tmpl (p_sets w)) -> newSet w = Some n -> sane (emb w n) -> Forall (fun t => sane_set (t_x t)) (p_sets w).
Proof.
  intros w n B H (_ & S). pose proof (split_perm w n B H) as P. rewrite emb_sets in S. apply (Forall_mapx _ _ sane_set t_x) in S.
  eapply Permutation_Forall; [apply Permutation_sym; exact P|exact S].
Qed.
Lemma todo_distance : forall w n, proper w -> newSet w = Some n -> todo w = distance (dep w) (emb w n).
Proof.
  intros w n (_ & B & _) H. pose proof (split_perm w n B H) as P. unfold todo. rewrite (sum_perm _ _ _ _ P).
  destruct (new_in w n H) as (_ & E). unfold distance, emb. cbn [w_new w_olds]. rewrite sum_map. unfold sum. cbn [fold_right].
  assert (t_tmpl n =? p_tmpl w = true) as -> by lia. change (md_replicas (dep w)) with (p_size w). change (x_spec (t_x n)) with (spec n). f_equal.
  apply (sum_eq _ (fun t => if t_tmpl t =? p_tmpl w then Z.abs (p_size w - spec t) else spec t) (fun t => x_spec (t_x t))).
  apply Forall_forall. intros t Ht. unfold oldSets in Ht. apply filter_In in Ht. destruct Ht as (_ & G). unfold isNew in G.
  destruct (_ =? _); [discriminate|reflexivity].
Qed.

Definition keeps (g : TSet -> TSet) : Prop := forall t, t_tmpl (g t) = t_tmpl t.
Lemma newSet_map : forall w g, keeps g -> newSet (withSets w (map g (p_sets w))) = option_map g (newSet w).
Proof.
  intros w g K. unfold newSet, isNew. cbn [withSets p_sets p_tmpl]. induction (p_sets w) as [|t l IH]; [reflexivity|]. cbn [map find]. rewrite K.
  destruct (_ =? _); [reflexivity|exact IH].
Qed.
Lemma oldSets_map : forall w g, keeps g -> oldSets (withSets w (map g (p_sets w))) = map g (oldSets w).
Proof.
  intros w g K. unfold oldSets, isNew. cbn [withSets p_sets p_tmpl]. induction (p_sets w) as [|t l IH]; [reflexivity|]. cbn [map filter]. rewrite K.
  destruct (_ =? _); cbn [negb map]; [exact IH|f_equal; exact IH].
Qed.
Lemma map_proper : forall w g, proper w -> keeps g ->
  (forall t, In t (p_sets w) -> name (g t) = name t /\ sane_set (t_x (g t))) -> proper (withSets w (map g (p_sets w))).
Proof.
  intros w g (A & B & C & D) K H. unfold proper. cbn [withSets p_sets p_size p_surge p_unavail].
  assert (map name (map g (p_sets w)) = map name (p_sets w)) as ->.
  { rewrite map_map. apply map_ext_in. intros t Ht. apply H; exact Ht. }
  assert (map t_tmpl (map g (p_sets w)) = map t_tmpl (p_sets w)) as ->.
  { rewrite map_map. apply map_ext. exact K. }
  split; [exact A|]. split; [exact B|]. split; [|exact D]. apply Forall_mapx. apply Forall_forall. intros t Ht. apply H; exact Ht.
Qed.
Lemma in_emb : forall w n t, proper w -> newSet w = Some n -> (In t (p_sets w) <-> In t (n :: oldSets w)).
Proof.
  intros w n t (_ & B & _) H. pose proof (split_perm w n B H) as P. split; intro G; [eapply Permutation_in; [exact P|exact G]|eapply Permutation_in; [apply Permutation_sym; exact P|exact G]].
Qed.

(** *** The rollout *)
Lemma roll_spec : forall w n api, proper w -> newSet w = Some n ->
  exists g, keeps g /\ roll w api = withSets w (map g (p_sets w)) /\
    emb (roll w api) (g n) = wstep (dep w) (emb w n) (Reconcile api (obj n) (map obj (oldSets w))) /\
    (forall t, In t (p_sets w) -> res (dep w) (obj (g t)) (obj t)).
Proof.
  intros w n api P H. unfold roll. rewrite H.
  destruct (rolloutRolling _ _ _ _) as [n' o'] eqn:E.
  set (g := fun t => withObj t (written (obj n :: map obj (oldSets w)) (n' :: o') (obj t))).
  assert (keeps g) as K by (intro; reflexivity).
  exists g. split; [exact K|]. split; [reflexivity|]. split.
  - unfold emb at 1. cbn [WholeModel.step]. unfold WholeModel.reconcile. unfold emb at 1. rewrite E.
    rewrite (oldSets_map w g K). cbn [emb w_new w_olds w_lost]. f_equal. rewrite !map_map. reflexivity.
  - intros t Ht. unfold g, withObj, obj at 1. cbn [t_x x_set]. eapply written_res; [|exact E|].
    + pose proof (emb_sane w n P H) as (N & _). rewrite emb_names in N. cbn [map] in *. rewrite map_map. exact N.
    + apply (in_emb w n t P H) in Ht. destruct Ht as [<-|Ht]; [left; reflexivity|right; apply in_map; exact Ht].
Qed.
Lemma uptodate_emb : forall w n, uptodate (emb w n) (obj n) (map obj (oldSets w)).
Proof. intros w n. split; [reflexivity|]. unfold emb. cbn [w_olds]. rewrite map_map. reflexivity. Qed.

(* What a step of the controllers leaves behind when the template's set is there. *)
Definition moved (w w' : Dep) : Prop :=
  wish w' = wish w /\ p_paused w' = p_paused w /\ p_back w' = p_back w /\
  forall n, newSet w = Some n -> exists n', newSet w' = Some n' /\ name n' = name n.
Lemma roll_proper : forall w n api, proper w -> newSet w = Some n ->
  proper (roll w api) /\ moved w (roll w api) /\ todo (roll w api) <= todo w /\
  (size_known w -> size_known (roll w api)).
Proof.
  intros w n api P H. destruct (roll_spec w n api P H) as (g & K & E & S & R).
  pose proof P as (_ & _ & _ & HR & Gs & Gu).
  pose proof (emb_sane w n P H) as Se. pose proof (uptodate_possible (emb w n) api _ _ Se (uptodate_emb w n)) as Po.
  destruct (step_toward (dep w) (p_surge w) (p_unavail w) (emb w n) _ eq_refl HR Se Po) as (S' & T). rewrite <- S in S', T.
  assert (newSet (roll w api) = Some (g n)) as Hn. { rewrite E, newSet_map, H; [reflexivity|exact K]. }
  assert (forall t, In t (p_sets w) -> name (g t) = name t) as Nm. { intros t Ht. unfold name. exact (res_name _ _ _ (R t Ht)). }
  assert (proper (roll w api)) as P'.
  { pose proof P as (A & B & _). pose proof E as E0. assert (NoDup (map t_tmpl (p_sets (roll w api)))) as B'.
    { rewrite E. cbn [withSets p_sets]. rewrite map_map. erewrite map_ext; [exact B|exact K]. }
    pose proof (sane_emb _ _ B' Hn S') as Sa. rewrite E. rewrite E in Sa. cbn [withSets p_sets] in Sa. apply (Forall_mapx _ _ (fun t => sane_set (t_x t)) g) in Sa.
    rewrite Forall_forall in Sa. apply map_proper; [exact P|exact K|]. intros t Ht. split; [apply Nm; exact Ht|apply Sa; exact Ht]. }
  split; [exact P'|]. split; [|split].
  - rewrite E. repeat split. intros n0 H0. rewrite H in H0. injection H0 as <-. rewrite newSet_map, H by exact K. exists (g n). split; [reflexivity|].
    apply Nm. apply (new_in w n H).
  - rewrite (todo_distance w n P H), (todo_distance _ _ P' Hn). assert (dep (roll w api) = dep w) as -> by (rewrite E; reflexivity).
    apply toward_distance. exact T.
  - intro Kn. rewrite E. unfold size_known. cbn [withSets p_sets p_size]. apply Forall_mapx. unfold size_known in Kn. rewrite Forall_forall in Kn.
    apply Forall_forall. intros t Ht L m Em. change (x_set (t_x (g t))) with (obj (g t)) in Em. unfold spec in L. change (x_set (t_x (g t))) with (obj (g t)) in L.
    destruct (R t Ht) as [Eq|(k & Eq)]; rewrite Eq in *; [apply (Kn t Ht L m Em)|]. cbn in Em. congruence.
Qed.

(** *** Scaling *)
Lemma resized_res : forall d plan s, res d (resized d plan s) s.
Proof. intros. unfold resized. destruct (find _ plan); [right; eexists; reflexivity|left; reflexivity]. Qed.
Lemma firstn_all_pos : forall (P : MachineSet * Z -> Prop) k l, Forall P l -> Forall P (firstn k l).
Proof. intros P k l H. apply Forall_forall. intros x Hx. rewrite Forall_forall in H. apply H. rewrite <- (firstn_skipn k l). apply in_or_app. left; exact Hx. Qed.
Lemma resized_sane : forall w plan t, Forall (fun p => 0 <= snd p) plan -> sane_set (t_x t) -> sane_set (t_x (withObj t (resized (dep w) plan (obj t)))).
Proof.
  intros w plan t Hp (S & U). unfold sane_set, withObj. cbn [t_x x_set x_have x_up]. split; [|exact U]. unfold resized.
  destruct (find _ plan) as [p|] eqn:E; [|exact S]. apply find_some in E. destruct E as (I & _). rewrite Forall_forall in Hp. specialize (Hp p I).
  destruct S as (S1 & S2 & S3). unfold sane_ms. cbn. unfold obj. auto.
Qed.
Definition gscale (w : Dep) (plan : list (MachineSet * Z)) (t : TSet) : TSet := withObj t (resized (dep w) plan (obj t)).
Lemma gscale_keeps : forall w plan, keeps (gscale w plan).
Proof. intros w plan t. reflexivity. Qed.
Lemma plan_proper : forall w plan, proper w -> Forall (fun p => 0 <= snd p) plan -> proper (withSets w (map (gscale w plan) (p_sets w))).
Proof.
  intros w plan P Hp. apply map_proper; [exact P|apply gscale_keeps|]. intros t Ht. split.
  - unfold name, gscale, withObj. cbn [t_x x_set]. exact (res_name _ _ _ (resized_res _ _ _)).
  - apply resized_sane; [exact Hp|]. destruct P as (_ & _ & C & _). rewrite Forall_forall in C. apply C; exact Ht.
Qed.
Lemma plan_moved : forall w plan, moved w (withSets w (map (gscale w plan) (p_sets w))).
Proof.
  intros w plan. repeat split. intros n H. rewrite newSet_map by apply gscale_keeps. rewrite H. eexists. split; [reflexivity|].
  unfold name, gscale, withObj. cbn [t_x x_set]. exact (res_name _ _ _ (resized_res _ _ _)).
Qed.
Lemma in_all : forall w s, In s (map obj (oldSets w) ++ match option_map obj (newSet w) with Some n => [n] | None => [] end) -> exists t, In t (p_sets w) /\ s = obj t.
Proof.
  intros w s H. apply in_app_or in H. destruct H as [H|H].
  - apply in_map_iff in H. destruct H as (t & <- & Ht). exists t. split; [|reflexivity]. unfold oldSets in Ht. apply filter_In in Ht. tauto.
  - destruct (newSet w) as [n|] eqn:E; [|contradiction]. destruct H as [<-|[]]. exists n. split; [apply (new_in w n E)|reflexivity].
Qed.
Lemma scale_defined : forall w, proper w -> shares_defined w ->
  exists plan, scale (dep w) (option_map obj (newSet w)) (map obj (oldSets w)) = Some plan /\ Forall (fun p => 0 <= snd p) plan.
Proof.
  intros w P D. destruct (surge_ex w P) as (A & B). pose proof P as (_ & _ & C & HR & _). rewrite Forall_forall in C. apply scale_pos; [exact HR|exact B| |].
  - intros m E. destruct (newSet w) as [n|] eqn:F; [|discriminate]. injection E as <-.
    destruct (C n (proj1 (new_in w n F))) as ((S & _) & _). exact S.
  - apply Forall_forall. intros s Hs. apply in_all in Hs. destruct Hs as (t & Ht & ->). intros L HS.
    specialize (D _ A HS). rewrite Forall_forall in D. exact (D t Ht L).
Qed.
Lemma firstn_plan_pos : forall k (plan : list (MachineSet * Z)), Forall (fun p => 0 <= snd p) plan -> Forall (fun p => 0 <= snd p) (firstn k plan).
Proof. intros. apply (firstn_all_pos (fun p => 0 <= snd p)). assumption. Qed.
Lemma scaleStep_proper : forall w k, proper w -> shares_defined w -> proper (scaleStep w k) /\ moved w (scaleStep w k).
Proof.
  intros w k P D. unfold scaleStep. destruct (scale_defined w P D) as (plan & -> & Hp).
  split; [apply plan_proper; [exact P|apply firstn_plan_pos; exact Hp]|apply plan_moved].
Qed.

(* When no set requests anything. *)
Lemma scale_zero : forall w n, newSet w = Some n -> Forall (fun t => spec t <= 0) (p_sets w) ->
  scale (dep w) (option_map obj (newSet w)) (map obj (oldSets w)) = Some [(obj n, p_size w)].
Proof.
  intros w n H Z0. rewrite H. cbn [option_map]. rewrite Forall_forall in Z0. apply none_active_new. unfold active_sets, all_sets.
  apply filter_none. intros s Hs.
  assert (exists t, In t (p_sets w) /\ s = obj t) as (t & Ht & ->) by (apply in_all; rewrite H; exact Hs).
  specialize (Z0 t Ht). unfold spec, obj in *. lia.
Qed.

Lemma event_zero : forall w, isScalingEvent (dep w) (option_map obj (newSet w)) (map obj (oldSets w)) = true -> NoDup (map t_tmpl (p_sets w)) -> size_known w ->
  exists n, newSet w = Some n /\ 0 < p_size w /\ Forall (fun t => spec t <= 0) (p_sets w).
Proof.
  intros w H N K. unfold isScalingEvent in H. destruct (newSet w) as [n|] eqn:E; [|discriminate]. cbn [option_map] in H. exists n. split; [reflexivity|].
  pose proof (split_perm w n N E) as P.
  assert (forall t, In t (p_sets w) -> In (obj t) (allSets (Some (obj n)) (map obj (oldSets w)))) as I.
  { intros t Ht. eapply Permutation_in in Ht; [|exact P]. unfold allSets. apply in_or_app. destruct Ht as [<-|Ht]; [right; left; reflexivity|left; apply in_map; exact Ht]. }
  destruct (FilterActiveMachineSets (allSets (Some (obj n)) (map obj (oldSets w)))) as [|x act] eqn:EA.
  - change (md_replicas (dep w)) with (p_size w) in H. split; [lia|]. apply Forall_forall. intros t Ht. destruct (0 <? spec t) eqn:L; [|lia]. exfalso.
    assert (In (obj t) (FilterActiveMachineSets (allSets (Some (obj n)) (map obj (oldSets w))))) as A.
    { rewrite active_filter. apply filter_In. split; [apply I; exact Ht|exact L]. }
    rewrite EA in A. destruct A.
  - exfalso. change (existsb (fun s => match ms_desired s with AnnInt n0 => negb (n0 =? p_size w) | _ => false end) (x :: act) = true) in H. apply existsb_exists in H. destruct H as (s & Hs & F). rewrite <- EA in Hs. rewrite active_filter in Hs. apply filter_In in Hs. destruct Hs as (Hs & L).
    assert (exists t, In t (p_sets w) /\ s = obj t) as (t & Ht & ->) by (apply in_all; rewrite E; exact Hs).
    unfold size_known in K. rewrite Forall_forall in K. destruct (ms_desired (obj t)) as [| |z] eqn:D; try discriminate.
    specialize (K t Ht ltac:(unfold spec, obj in *; lia) z D). lia.
Qed.
Lemma event_false : forall w n, isScalingEvent (dep w) (option_map obj (newSet w)) (map obj (oldSets w)) = false -> newSet w = Some n -> NoDup (map t_tmpl (p_sets w)) -> size_known w.
Proof.
  intros w n H E N. unfold isScalingEvent in H. rewrite E in H. cbn [option_map] in H.
  pose proof (split_perm w n N E) as P.
  apply Forall_forall. intros t Ht L m D.
  assert (In (obj t) (FilterActiveMachineSets (allSets (Some (obj n)) (map obj (oldSets w))))) as A.
  { rewrite active_filter. apply filter_In. split; [|unfold spec, obj in *; lia]. eapply Permutation_in in Ht; [|exact P].
    unfold allSets. apply in_or_app. destruct Ht as [<-|Ht]; [right; left; reflexivity|left; apply in_map; exact Ht]. }
  destruct (FilterActiveMachineSets (allSets (Some (obj n)) (map obj (oldSets w)))) as [|x act]; [destruct A|].
  change (existsb (fun s => match ms_desired s with AnnInt n0 => negb (n0 =? p_size w) | _ => false end) (x :: act) = false) in H.
  destruct (m =? p_size w) eqn:F; [lia|]. exfalso.
  assert (existsb (fun s => match ms_desired s with AnnInt n0 => negb (n0 =? p_size w) | _ => false end) (x :: act) = true) as G; [|congruence].
  apply existsb_exists. exists (obj t). split; [exact A|]. unfold obj. rewrite D, F. reflexivity.
Qed.

Lemma withObj_id : forall t, withObj t (obj t) = t.
Proof. intros [c [s h u]]. reflexivity. Qed.
Lemma resized_known : forall w plan, size_known w -> size_known (withSets w (map (gscale w plan) (p_sets w))).
Proof.
  intros w plan K. unfold size_known in *. cbn [withSets p_sets p_size]. rewrite Forall_forall in K. apply Forall_mapx, Forall_forall.
  intros t Ht L m Em. unfold gscale, withObj in Em, L. unfold spec in L. cbn [t_x x_set] in Em, L.
  destruct (resized_res (dep w) plan (obj t)) as [Eq|(j & Eq)]; rewrite Eq in Em, L; [exact (K t Ht L m Em)|]. cbn in Em. congruence.
Qed.
Lemma zero_step : forall w n k, proper w -> newSet w = Some n -> Forall (fun t => spec t <= 0) (p_sets w) -> size_known w ->
  let w' := scaleStep w k in proper w' /\ moved w w' /\ todo w' <= todo w /\ size_known w' /\ ((1 <= k)%nat -> todo w' = 0).
Proof.
  intros w n k P H Z0 K w'. pose proof P as (N & B & C & HR & _).
  assert (w' = withSets w (map (gscale w (firstn k [(obj n, p_size w)])) (p_sets w))) as E.
  { unfold w', scaleStep. rewrite (scale_zero w n H Z0). reflexivity. }
  rewrite E. split; [apply plan_proper; [exact P|apply firstn_plan_pos; constructor; [exact HR|constructor]]|]. split; [apply plan_moved|].
  assert (forall t, In t (p_sets w) -> spec (gscale w (firstn k [(obj n, p_size w)]) t) = spec t \/ t_tmpl t = p_tmpl w /\ spec (gscale w (firstn k [(obj n, p_size w)]) t) = p_size w) as G.
  { intros t Ht. unfold gscale, withObj, spec. cbn [t_x x_set]. destruct k as [|k]; [left; reflexivity|]. cbn [firstn]. rewrite firstn_nil.
    unfold resized. cbn [find fst]. destruct (String.eqb (ms_name (obj n)) (ms_name (obj t))) eqn:En; [|left; reflexivity].
    right. apply String.eqb_eq in En. assert (n = t) as <-. { eapply (key_inj _ _ name); [exact N|apply (new_in w n H)|exact Ht|exact En]. }
    split; [apply (new_in w n H)|reflexivity]. }
  split; [|split; [apply resized_known; exact K|]].
  - unfold todo. cbn [withSets p_sets p_tmpl p_size]. apply sum_map_le. intros t Ht. change (t_tmpl (gscale w (firstn k [(obj n, p_size w)]) t)) with (t_tmpl t).
    destruct (G t Ht) as [->|(F & ->)]; [lia|]. destruct (_ =? _) eqn:X; lia.
  - intro L. destruct k as [|k]; [lia|]. cbn [firstn]. rewrite firstn_nil. unfold todo. cbn [withSets p_sets p_tmpl p_size].
    rewrite sum_map. transitivity (sum (fun _ : TSet => 0) (p_sets w)); [|apply sum_zero]. apply sum_eq. apply Forall_forall. intros t Ht.
    change (t_tmpl (gscale w [(obj n, p_size w)] t)) with (t_tmpl t). rewrite Forall_forall in Z0, C. specialize (Z0 t Ht). destruct (C t Ht) as ((S & _) & _).
    destruct (t_tmpl t =? p_tmpl w) eqn:X.
    + assert (n = t) as <-. { eapply (key_inj _ _ t_tmpl); [exact B|apply (new_in w n H)|exact Ht|]. destruct (new_in w n H). lia. }
      unfold gscale, withObj, spec, resized. cbn [t_x x_set find fst]. rewrite String.eqb_refl. cbn [resize set_size ms_spec snd]. lia.
    + unfold gscale, withObj, spec, resized. cbn [t_x x_set find fst]. destruct (String.eqb (ms_name (obj n)) (ms_name (obj t))) eqn:En.
      * exfalso. apply String.eqb_eq in En. assert (n = t) as <-. { eapply (key_inj _ _ name); [exact N|apply (new_in w n H)|exact Ht|exact En]. }
        destruct (new_in w n H). lia.
      * unfold spec, obj in *. lia.
Qed.

(** *** A set is made *)
Lemma new_none : forall w, newSet w = None -> oldSets w = p_sets w /\ ~ In (p_tmpl w) (map t_tmpl (p_sets w)).
Proof.
  intros w H. unfold newSet, oldSets in *. pose proof (find_none _ _ H) as F. split.
  - clear H. induction (p_sets w) as [|t l IH]; [reflexivity|]. cbn [filter]. rewrite (F t (or_introl eq_refl)). cbn [negb]. f_equal. apply IH. intros; apply F; right; assumption.
  - intro I. apply in_map_iff in I. destruct I as (t & E & Ht). specialize (F t Ht). unfold isNew in F. lia.
Qed.
Lemma created_spec : forall w nm tm olds s, proper w -> createdMS (dep w) nm tm olds = Some s ->
  ms_name s = nm /\ sane_ms s /\ ms_spec s <= p_size w /\ ms_desired s = AnnInt (p_size w) /\ ms_max s = AnnInt (p_size w + MaxSurge (dep w)).
Proof.
  intros w nm tm olds s P H. pose proof P as (_ & _ & _ & HR & _). destruct (surge_ex w P) as (A & B). unfold createdMS in H.
  destruct (NewISNewReplicas _ _ 0) as [k|] eqn:E; [|discriminate]. injection H as <-. cbn [set_size ms_name ms_spec ms_desired ms_max].
  assert (0 <= k <= p_size w) as K.
  { unfold NewISNewReplicas in E. cbn [dep md_strategy md_replicas] in E. destruct (GetValueFromIntOrPercent _ _ _) as [sg|]; [|discriminate].
    cbv zeta in E. destruct (_ <=? _) eqn:L; injection E as <-; lia. }
  split; [reflexivity|]. split; [unfold sane_ms; cbn; lia|]. split; [lia|]. split; reflexivity.
Qed.
Lemma created_some : forall w nm tm olds, proper w -> exists s, createdMS (dep w) nm tm olds = Some s.
Proof.
  intros w nm tm olds (_ & _ & _ & _ & Gs & _). unfold createdMS, NewISNewReplicas. cbn [dep md_strategy md_replicas].
  destruct (p_surge w) as [[z|p|]|]; cbn [good_budget] in Gs; try contradiction; cbn [GetValueFromIntOrPercent]; cbv zeta; destruct (_ <=? _); eauto.
Qed.
(* [w1] is [w] with the set of the template made. *)
Definition made (w w1 : Dep) (n : TSet) : Prop :=
  w1 = withSets w (n :: p_sets w) /\ t_tmpl n = p_tmpl w /\ x_have (t_x n) = 0 /\ x_up (t_x n) = 0 /\ sane_ms (obj n) /\
  ms_spec (obj n) <= p_size w /\ ms_desired (obj n) = AnnInt (p_size w) /\ ms_max (obj n) = AnnInt (p_size w + MaxSurge (dep w)).
Lemma create_spec : forall w a w1, proper w -> newSet w = None -> create w a = Some w1 ->
  proper w1 /\ exists n, made w w1 n /\ newSet w1 = Some n.
Proof.
  intros w a w1 P H E. destruct (new_none w H) as (O & F). unfold create in E.
  destruct (existsb _ _ || _) eqn:X; [discriminate|]. apply orb_false_iff in X. destruct X as (X & _).
  destruct (createdMS _ _ _ _) as [s|] eqn:C; [|discriminate]. injection E as <-. destruct (created_spec _ _ _ _ _ P C) as (C1 & C2 & C3 & C4 & C5).
  pose proof P as (P1 & P2 & P3 & P4). split.
  - unfold proper. cbn [withSets p_sets p_size p_surge p_unavail map]. split; [|split; [|split; [|exact P4]]].
    + constructor; [|exact P1]. intro I. apply in_map_iff in I. destruct I as (t & E & Ht). unfold name in E at 2. cbn [t_x x_set] in E.
      assert (existsb (fun t => String.eqb (ms_name (obj t)) (a_name a)) (p_sets w) = true) as G; [|congruence].
      apply existsb_exists. exists t. split; [exact Ht|]. apply String.eqb_eq. unfold name, obj in *. congruence.
    + constructor; [exact F|exact P2].
    + constructor; [|exact P3]. split; [exact C2|cbn; lia].
  - exists (mkT (p_tmpl w) (mkX s 0 0)). split; [|unfold newSet, isNew; cbn [withSets p_sets p_tmpl find t_tmpl]; rewrite Z.eqb_refl; reflexivity].
    unfold made. split; [reflexivity|]. split; [reflexivity|]. split; [reflexivity|]. split; [reflexivity|]. split; [exact C2|]. split; [exact C3|]. split; [exact C4|exact C5].
Qed.
Lemma create_ok : forall w a, proper w -> newSet w = None -> a_make a = true -> ~ In (a_name a) (map name (p_sets w)) -> exists w1, create w a = Some w1.
Proof.
  intros w a P H M N. unfold create. rewrite M. destruct (existsb _ _) eqn:X.
  - exfalso. apply existsb_exists in X. destruct X as (t & Ht & E). apply String.eqb_eq in E. apply N. rewrite <- E. apply (in_map name). exact Ht.
  - cbn [negb orb]. destruct (created_some w (a_name a) (a_now a) (map obj (oldSets w)) P) as (s & ->). eauto.
Qed.
Definition same_but_sets (w w' : Dep) : Prop := wish w' = wish w /\ p_paused w' = p_paused w /\ p_back w' = p_back w.
Lemma ensure_spec : forall w a w1, proper w -> ensure w a = Some w1 ->
  proper w1 /\ same_but_sets w w1 /\ (exists n, newSet w1 = Some n) /\ (w1 = w \/ exists n, newSet w = None /\ made w w1 n).
Proof.
  intros w a w1 P E. unfold ensure in E. destruct (newSet w) as [n|] eqn:H.
  - injection E as <-. split; [exact P|]. split; [repeat split|]. split; [eauto|left; reflexivity].
  - destruct (create_spec w a w1 P H E) as (A & n & B & C). split; [exact A|]. split; [destruct B as (-> & _); repeat split|]. split; [eauto|]. right. exists n. auto.
Qed.

(** *** What else happens *)
Lemma change_quiet : forall c, match c with CReport r a => 0 <= r /\ 0 <= a | _ => True end -> quiet (change c).
Proof.
  intros c H. destruct c; cbn [change]; [destruct H; apply quiet_report; assumption|apply quiet_work|apply quiet_ready|apply quiet_lost|apply quiet_gone].
Qed.
Lemma change_anns : forall c x, ms_desired (x_set (change c x)) = ms_desired (x_set x) /\ ms_max (x_set (change c x)) = ms_max (x_set x).
Proof.
  intros c x. destruct c; cbn [change]; [split; reflexivity| | | |].
  - unfold work. destruct (_ <? _); split; reflexivity.
  - unfold ready. destruct (_ <? _); split; reflexivity.
  - unfold lost. destruct (_ <? _); split; reflexivity.
  - unfold gone. destruct (_ <? _); split; reflexivity.
Qed.
Definition gchange (nm : string) (c : Change) (t : TSet) : TSet := if String.eqb (ms_name (obj t)) nm then mkT (t_tmpl t) (change c (t_x t)) else t.
Lemma gchange_keeps : forall nm c, keeps (gchange nm c).
Proof. intros nm c t. unfold gchange. destruct (String.eqb _ _); reflexivity. Qed.
Lemma gchange_spec : forall nm c t, match c with CReport r a => 0 <= r /\ 0 <= a | _ => True end -> sane_set (t_x t) ->
  name (gchange nm c t) = name t /\ spec (gchange nm c t) = spec t /\ sane_set (t_x (gchange nm c t)) /\
  ms_desired (obj (gchange nm c t)) = ms_desired (obj t) /\ ms_max (obj (gchange nm c t)) = ms_max (obj t).
Proof.
  intros nm c t H S. unfold gchange. destruct (String.eqb _ _); [|auto]. destruct (change_quiet c H (t_x t) S) as (A & B & C). destruct (change_anns c (t_x t)) as (D & E).
  unfold name, spec, obj. cbn [t_x]. auto.
Qed.
Lemma map_todo : forall w g, keeps g -> (forall t, In t (p_sets w) -> spec (g t) = spec t) -> todo (withSets w (map g (p_sets w))) = todo w.
Proof.
  intros w g K H. unfold todo. cbn [withSets p_sets p_tmpl p_size]. rewrite sum_map. apply sum_eq. apply Forall_forall. intros t Ht. rewrite (H t Ht), K. reflexivity.
Qed.
Lemma happens_spec : forall w nm c, proper w -> match c with CReport r a => 0 <= r /\ 0 <= a | _ => True end ->
  let w' := step w (Happens nm c) in proper w' /\ moved w w' /\ todo w' = todo w /\ (size_known w -> size_known w') /\ (shares_defined w -> shares_defined w').
Proof.
  intros w nm c P H w'. assert (w' = withSets w (map (gchange nm c) (p_sets w))) as -> by reflexivity.
  pose proof P as (_ & _ & C & _). rewrite Forall_forall in C. pose proof (gchange_keeps nm c) as K.
  split; [apply map_proper; [exact P|exact K|]; intros t Ht; destruct (gchange_spec nm c t H (C t Ht)) as (A & _ & B & _); auto|].
  split.
  { repeat split. intros n E. rewrite newSet_map, E by exact K. eexists. split; [reflexivity|]. destruct (gchange_spec nm c n H (C n (proj1 (new_in w n E)))) as (A & _). exact A. }
  split; [apply map_todo; [exact K|]; intros t Ht; destruct (gchange_spec nm c t H (C t Ht)) as (_ & A & _); exact A|].
  split; intro Q.
  - unfold size_known in *. cbn [withSets p_sets p_size]. rewrite Forall_forall in Q. apply Forall_mapx, Forall_forall. intros t Ht.
    destruct (gchange_spec nm c t H (C t Ht)) as (_ & A & _ & B & _). unfold obj in B. rewrite A, B. exact (Q t Ht).
  - unfold shares_defined in *. cbn [withSets p_sets p_size p_surge]. intros sg S1 S2. specialize (Q sg S1 S2). rewrite Forall_forall in Q. apply Forall_mapx, Forall_forall. intros t Ht.
    destruct (gchange_spec nm c t H (C t Ht)) as (_ & A & _ & _ & B). unfold obj in B. rewrite A, B. exact (Q t Ht).
Qed.

Definition dropped (w : Dep) (nm : string) (t : TSet) : bool :=
  String.eqb (ms_name (obj t)) nm && negb (isNew w t) && (ms_spec (obj t) =? 0) && (x_have (t_x t) =? 0).
Lemma find_filter_keep : forall A (f g : A -> bool) l, (forall x, f x = true -> g x = true) -> find f (filter g l) = find f l.
Proof.
  intros A f g l H. induction l as [|x l IH]; [reflexivity|]. cbn [filter find]. destruct (f x) eqn:F.
  - rewrite (H x F). cbn [find]. rewrite F. reflexivity.
  - destruct (g x); [cbn [find]; rewrite F|]; exact IH.
Qed.
Lemma Forall_filter : forall A (P : A -> Prop) f l, Forall P l -> Forall P (filter f l).
Proof. intros A P f l H. apply Forall_forall. intros x Hx. apply filter_In in Hx. rewrite Forall_forall in H. apply H. tauto. Qed.
Lemma clean_spec : forall w nm, proper w ->
  let w' := step w (Clean nm) in proper w' /\ moved w w' /\ todo w' = todo w /\ (size_known w -> size_known w').
Proof.
  intros w nm P w'. assert (w' = withSets w (filter (fun t => negb (dropped w nm t)) (p_sets w))) as -> by reflexivity.
  pose proof P as (A & B & C & D). split.
  { split; [apply map_NoDup_filter; exact A|]. split; [apply map_NoDup_filter; exact B|]. split; [apply Forall_filter; exact C|exact D]. }
  split.
  { repeat split. intros n E. exists n. split; [|reflexivity]. unfold newSet. cbn [withSets p_sets]. change (isNew (withSets w (filter (fun t => negb (dropped w nm t)) (p_sets w)))) with (isNew w).
    rewrite find_filter_keep; [exact E|]. intros x Hx. unfold dropped. rewrite Hx. cbn [negb]. rewrite andb_false_r. reflexivity. }
  split.
  - unfold todo. cbn [withSets p_sets p_tmpl p_size]. clear. induction (p_sets w) as [|t l IH]; [reflexivity|]. cbn [filter]. destruct (dropped w nm t) eqn:E; cbn [negb]; unfold sum in *; cbn [fold_right]; rewrite IH; [|reflexivity].
    unfold dropped, isNew in E. destruct (t_tmpl t =? p_tmpl w); [cbn [negb] in E; rewrite andb_false_r in E; discriminate|]. unfold spec, obj in *. lia.
  - intro K. unfold size_known in *. cbn [withSets p_sets p_size]. apply Forall_filter. exact K.
Qed.

(** *** Steps *)
Lemma event_cases : forall w, proper w -> isScalingEvent (dep w) (option_map obj (newSet w)) (map obj (oldSets w)) = true ->
  (exists n, newSet w = Some n) /\ (0 < p_size w /\ Forall (fun t => spec t <= 0) (p_sets w) /\ size_known w \/ ~ size_known w).
Proof.
  intros w (_ & N & _) H. pose proof H as H0. unfold isScalingEvent in H. destruct (newSet w) as [n|] eqn:E; [|discriminate]. split; [eauto|]. cbn [option_map] in H.
  pose proof (split_perm w n N E) as P.
  destruct (FilterActiveMachineSets (allSets (Some (obj n)) (map obj (oldSets w)))) as [|x act] eqn:EA.
  - left. assert (Forall (fun t => spec t <= 0) (p_sets w)) as Z0.
    { apply Forall_forall. intros t Ht. destruct (0 <? spec t) eqn:L; [|lia]. exfalso.
      assert (In (obj t) (FilterActiveMachineSets (allSets (Some (obj n)) (map obj (oldSets w))))) as A; [|rewrite EA in A; destruct A].
      rewrite active_filter. apply filter_In. split; [|exact L]. unfold allSets. apply in_or_app.
      eapply Permutation_in in Ht; [|exact P]. destruct Ht as [<-|Ht]; [right; left; reflexivity|left; apply in_map; exact Ht]. }
    change (md_replicas (dep w)) with (p_size w) in H. split; [lia|]. split; [exact Z0|]. unfold size_known. rewrite Forall_forall in *. intros t Ht L. specialize (Z0 t Ht). lia.
  - right. change (existsb (fun s => match ms_desired s with AnnInt n0 => negb (n0 =? p_size w) | _ => false end) (x :: act) = true) in H. apply existsb_exists in H. destruct H as (s & Hs & F). rewrite <- EA in Hs. rewrite active_filter in Hs. apply filter_In in Hs. destruct Hs as (Hs & L).
    assert (exists t, In t (p_sets w) /\ s = obj t) as (t & Ht & ->) by (apply in_all; rewrite E; exact Hs).
    intro K. unfold size_known in K. rewrite Forall_forall in K. destruct (ms_desired (obj t)) as [| |z] eqn:D; try discriminate.
    specialize (K t Ht ltac:(unfold spec, obj in *; lia) z D). lia.
Qed.
Lemma rolledBack_proper : forall w nm, proper w -> proper (rolledBack w nm).
Proof. intros w nm P. exact P. Qed.
Lemma do_proper : forall w a, proper w -> possible w (Do a) -> proper (reconcile w a).
Proof.
  intros w a P H. cbn [possible] in H. unfold reconcile. destruct (p_paused w). { apply scaleStep_proper; auto. }
  destruct (p_back w) as [nm|].
  { destruct (ensure w a) as [w1|] eqn:E; [|exact P]. destruct (ensure_spec w a w1 P E) as (P1 & _). destruct (a_dep a); [apply rolledBack_proper|]; exact P1. }
  destruct (isScalingEvent _ _ _) eqn:Ev.
  - destruct (event_cases w P Ev) as ((n & Hn) & [(_ & Z0 & K)|K]); [apply (zero_step w n (a_writes a) P Hn Z0 K)|apply scaleStep_proper; auto].
  - destruct (ensure w a) as [w1|] eqn:E; [|exact P]. destruct (ensure_spec w a w1 P E) as (P1 & _ & (n & Hn) & _). apply (roll_proper w1 n (a_roll a) P1 Hn).
Qed.
Lemma step_proper : forall w o, proper w -> possible w o -> proper (step w o).
Proof.
  intros w o P H. destruct o as [a|e|nm c|nm].
  - apply do_proper; assumption.
  - destruct P as (A & B & C & D & E & F). destruct e; cbn [step edit possible] in *; unfold proper; cbn [p_sets p_size p_surge p_unavail]; repeat (split; try assumption); tauto.
  - apply (happens_spec w nm c P). destruct c; auto.
  - apply (clean_spec w nm P).
Qed.
Lemma run_proper : forall l w, proper w -> always possible w l -> proper (run w l).
Proof. intros l. induction l as [|o l IH]; intros w P H; [exact P|]. destruct H as (H1 & H2). apply (IH (step w o)); [apply step_proper; assumption|exact H2]. Qed.

(* The state of things: unpaused, no rollback asked for, the template's set exists. *)
Definition begun (w : Dep) : Prop := p_paused w = false /\ p_back w = None /\ exists n, newSet w = Some n.
Lemma taken_begun : forall w, taken_up w <-> begun w /\ size_known w.
Proof.
  intro w. split.
  - intros (A & B & (t & T1 & T2) & D). split; [|exact D]. split; [exact A|]. split; [exact B|]. eapply new_ex; eassumption.
  - intros ((A & B & (n & C)) & D). split; [exact A|]. split; [exact B|]. split; [|exact D]. destruct (new_in w n C) as (T1 & T2). exists n. split; [exact T1|exact T2].
Qed.
Lemma moved_begun : forall w w', moved w w' -> begun w -> begun w' /\ wish w' = wish w.
Proof.
  intros w w' (A & B & C & D) (E & F & (n & G)). split; [|exact A]. split; [congruence|]. split; [congruence|]. destruct (D n G) as (n' & H & _). eauto.
Qed.
Lemma ensure_begun : forall w a, begun w -> ensure w a = Some w.
Proof. intros w a (_ & _ & (n & H)). unfold ensure. rewrite H. reflexivity. Qed.

Lemma taken_step : forall w o, proper w -> taken_up w -> possible w o -> no_edit o ->
  taken_up (step w o) /\ wish (step w o) = wish w /\ todo (step w o) <= todo w.
Proof.
  intros w o P T H N. apply taken_begun in T. destruct T as (B & K).
  assert (forall w', moved w w' -> todo w' <= todo w -> size_known w' -> taken_up w' /\ wish w' = wish w /\ todo w' <= todo w) as G.
  { intros w' M L K'. destruct (moved_begun w w' M B) as (B' & W). split; [apply taken_begun; auto|]. split; assumption. }
  destruct o as [a|e|nm c|nm]; [|contradiction| |].
  - cbn [step]. pose proof (ensure_begun w a B) as En. destruct B as (B1 & B2 & (n & B3)). unfold reconcile. rewrite B1, B2.
    destruct (isScalingEvent _ _ _) eqn:Ev.
    + destruct (event_cases w P Ev) as (_ & [(_ & Z0 & _)|K']); [|contradiction]. destruct (zero_step w n (a_writes a) P B3 Z0 K) as (_ & M & L & K' & _). apply G; assumption.
    + rewrite En. destruct (roll_proper w n (a_roll a) P B3) as (_ & M & L & K'). apply G; auto.
  - destruct (happens_spec w nm c P) as (_ & M & L & K' & _); [destruct c; auto|]. apply G; [exact M|lia|apply K'; exact K].
  - destruct (clean_spec w nm P) as (_ & M & L & K'). apply G; [exact M|lia|apply K'; exact K].
Qed.

Lemma helpful_taken : forall w o, proper w -> taken_up w -> helpful w o -> todo (step w o) < todo w \/ todo w = 0.
Proof.
  intros w o P T (H & F). apply taken_begun in T. destruct T as (B & K). destruct o as [a| | |]; try contradiction. destruct H as (A1 & A2 & A3 & A4 & A5 & A6 & A7).
  cbn [step]. pose proof (ensure_begun w a B) as En. destruct B as (B1 & B2 & (n & B3)). unfold reconcile. rewrite B1, B2.
  destruct (isScalingEvent _ _ _) eqn:Ev.
  - destruct (event_cases w P Ev) as (_ & [(S & Z0 & _)|K']); [|contradiction]. destruct (zero_step w n (a_writes a) P B3 Z0 K) as (_ & _ & _ & _ & L).
    left. rewrite L; [|destruct (p_sets w) eqn:X; [destruct (new_in w n B3) as (I & _); rewrite X in I; destruct I|cbn [List.length] in A6; lia]].
    rewrite (todo_distance w n P B3). unfold distance. pose proof (emb_sane w n P B3) as (_ & Se). pose proof (Forall_inv_tail Se) as S2. cbn [emb w_olds] in *.
    pose proof (shrunk_sum _ _ (shrunk_refl _ S2)) as G. change (md_replicas (dep w)) with (p_size w). cbn [w_new].
    rewrite Forall_forall in Z0. specialize (Z0 n (proj1 (new_in w n B3))). change (x_spec (w_new (emb w n))) with (spec n). lia.
  - rewrite En. destruct (roll_spec w n (a_roll a) P B3) as (g & Kg & E & S & R). destruct (roll_proper w n (a_roll a) P B3) as (P' & _).
    assert (newSet (roll w (a_roll a)) = Some (g n)) as Hn. { rewrite E, newSet_map, B3; [reflexivity|exact Kg]. }
    rewrite (todo_distance w n P B3), (todo_distance _ _ P' Hn). assert (dep (roll w (a_roll a)) = dep w) as -> by (rewrite E; reflexivity). rewrite S.
    pose proof P as (_ & _ & _ & HR & Gs & Gu).
    apply (helpful_step (dep w) (p_surge w) (p_unavail w) (emb w n) _ eq_refl Gs Gu HR (emb_sane w n P B3)).
    cbn [WholeSpec.helpful]. split; [apply uptodate_emb|]. split; [exact A1|]. split; [exact A2|]. split; [exact A3|]. rewrite Forall_forall in F. split.
    + destruct (new_in w n B3) as (I & I'). destruct (F n I) as (F1 & _ & F2). split; [exact F1|exact (F2 I')].
    + apply Forall_mapx, Forall_forall. intros t Ht. unfold oldSets in Ht. apply filter_In in Ht. destruct Ht as (I & _). destruct (F t I) as (F1 & F2 & _). split; assumption.
Qed.

Lemma todo_zero : forall w, proper w -> (exists n, newSet w = Some n) -> (todo w = 0 <-> fulfilled w) /\ 0 <= todo w.
Proof.
  intros w P (n & H). pose proof P as (_ & _ & C & HR & _).
  assert (forall l, Forall (fun t => sane_set (t_x t)) l ->
    0 <= sum (fun t => if t_tmpl t =? p_tmpl w then Z.abs (p_size w - spec t) else spec t) l /\
    (sum (fun t => if t_tmpl t =? p_tmpl w then Z.abs (p_size w - spec t) else spec t) l = 0 <->
     Forall (fun t => (of_template w t -> spec t = p_size w) /\ (~ of_template w t -> spec t = 0)) l)) as G.
  { intros l S. induction S as [|t l ((A & _) & _) S (IH1 & IH2)]; [split; [unfold sum; cbn; lia|split; [constructor|reflexivity]]|].
    unfold sum in *. cbn [fold_right]. unfold of_template in *. assert (0 <= spec t) as A' by exact A. destruct (t_tmpl t =? p_tmpl w) eqn:X.
    - split; [lia|]. split; intro Y.
      + constructor; [split; intro; [lia|exfalso; lia]|]. apply IH2. lia.
      + pose proof (Forall_inv Y) as (Y1 & Y2). apply Forall_inv_tail in Y. apply IH2 in Y. specialize (Y1 ltac:(lia)). lia.
    - split; [lia|]. split; intro Y.
      + constructor; [split; intro; [exfalso; lia|lia]|]. apply IH2. lia.
      + pose proof (Forall_inv Y) as (Y1 & Y2). apply Forall_inv_tail in Y. apply IH2 in Y. specialize (Y2 ltac:(lia)). lia. }
  destruct (G (p_sets w) C) as (G1 & G2). split; [|exact G1]. unfold todo. rewrite G2. unfold fulfilled. split; [|tauto].
  intro Y. split; [|exact Y]. destruct (new_in w n H). exists n. auto.
Qed.
Lemma taken_new : forall w, taken_up w -> exists n, newSet w = Some n.
Proof. intros w T. apply taken_begun in T. destruct T as ((_ & _ & T) & _). exact T. Qed.

Lemma taken_run : forall l w, proper w -> taken_up w -> always possible w l -> Forall no_edit l ->
  taken_up (run w l) /\ wish (run w l) = wish w /\ todo (run w l) <= todo w.
Proof.
  intros l. induction l as [|o l IH]; intros w P T A N; [split; [exact T|split; [reflexivity|cbn; lia]]|]. destruct A as (A1 & A2). inversion N as [|? ? N1 N2]; subst.
  destruct (taken_step w o P T A1 N1) as (B1 & B2 & B3). destruct (IH (step w o) (step_proper w o P A1) B1 A2 N2) as (C1 & C2 & C3).
  change (run w (o :: l)) with (run (step w o) l). split; [exact C1|]. split; [congruence|lia].
Qed.
Lemma helped_todo : forall l k w, proper w -> taken_up w -> always possible w l -> Forall no_edit l -> count helpful k w l ->
  todo (run w l) <= Z.max 0 (todo w - Z.of_nat k).
Proof.
  intros l. induction l as [|o l IH]; intros k w P T A N C.
  - destruct k; [|contradiction]. cbn [run fold_left]. lia.
  - pose proof (taken_run (o :: l) w P T A N) as (_ & _ & L0). destruct A as (A1 & A2). inversion N as [|? ? N1 N2]; subst.
    destruct (taken_step w o P T A1 N1) as (B1 & B2 & B3). pose proof (step_proper w o P A1) as P1.
    pose proof (proj2 (todo_zero _ P1 (taken_new _ B1))) as Z1.
    destruct k as [|k]; [lia|]. cbn [count] in C. change (run w (o :: l)) with (run (step w o) l) in *. destruct C as [(C1 & C2)|C2].
    + pose proof (helpful_taken w o P T C1). pose proof (IH k _ P1 B1 A2 N2 C2). lia.
    + pose proof (IH (S k) _ P1 B1 A2 N2 C2). lia.
Qed.

(** *** The last change is taken up *)
Definition settings (w : Dep) : Z * option IntOrString * option IntOrString * bool := (p_size w, p_surge w, p_unavail w, p_paused w).
Lemma withSets_settings : forall w l, settings (withSets w l) = settings w /\ wish (withSets w l) = wish w /\ p_back (withSets w l) = p_back w.
Proof. intros. repeat split. Qed.
Lemma scaleStep_settings : forall w k, settings (scaleStep w k) = settings w /\ wish (scaleStep w k) = wish w /\ p_back (scaleStep w k) = p_back w.
Proof. intros w k. unfold scaleStep. destruct (scale _ _ _); repeat split. Qed.
Lemma roll_settings : forall w api, settings (roll w api) = settings w /\ wish (roll w api) = wish w /\ p_back (roll w api) = p_back w.
Proof. intros w api. unfold roll. destruct (newSet w); [|repeat split]. destruct (rolloutRolling _ _ _ _). repeat split. Qed.
Lemma ensure_settings : forall w a w1, ensure w a = Some w1 -> settings w1 = settings w /\ wish w1 = wish w /\ p_back w1 = p_back w.
Proof.
  intros w a w1 H. unfold ensure, create in H. destruct (newSet w); [injection H as <-; repeat split|]. destruct (_ || _); [discriminate|].
  destruct (createdMS _ _ _ _); [|discriminate]. injection H as <-. repeat split.
Qed.
Lemma step_settings : forall w o, no_edit o -> settings (step w o) = settings w /\ (p_back w = None -> wish (step w o) = wish w /\ p_back (step w o) = None).
Proof.
  intros w o N. destruct o as [a|e|nm c|nm]; [|contradiction| |]; cbn [step]; [|repeat split; auto|repeat split; auto].
  unfold reconcile. destruct (p_paused w). { destruct (scaleStep_settings w (a_writes a)) as (A & B & C). split; [exact A|]. intro; split; congruence. }
  destruct (p_back w) as [x|] eqn:B.
  - split; [|discriminate]. destruct (ensure w a) as [w1|] eqn:E; [|reflexivity]. destruct (ensure_settings w a w1 E) as (C & _). destruct (a_dep a); exact C.
  - destruct (isScalingEvent _ _ _). { destruct (scaleStep_settings w (a_writes a)) as (C & D & F). split; [exact C|]. intro; split; congruence. }
    destruct (ensure w a) as [w1|] eqn:E; [|split; [reflexivity|auto]]. destruct (ensure_settings w a w1 E) as (C & D & F).
    destruct (roll_settings w1 (a_roll a)) as (G & H & I). split; [congruence|]. intro; split; congruence.
Qed.
Lemma begun_step : forall w o, proper w -> possible w o -> no_edit o -> begun w -> begun (step w o).
Proof.
  intros w o P H N B. destruct o as [a|e|nm c|nm]; [|contradiction| |].
  - cbn [step]. pose proof (ensure_begun w a B) as En. pose proof B as (B1 & B2 & (n & B3)). unfold reconcile. rewrite B1, B2.
    destruct (isScalingEvent _ _ _) eqn:Ev.
    + destruct (event_cases w P Ev) as (_ & [(_ & Z0 & K)|K]).
      * destruct (zero_step w n (a_writes a) P B3 Z0 K) as (_ & M & _). apply (moved_begun w _ M B).
      * assert (shares_defined w) as D by (apply H; right; exact K). destruct (scaleStep_proper w (a_writes a) P D) as (_ & M). apply (moved_begun w _ M B).
    + rewrite En. destruct (roll_proper w n (a_roll a) P B3) as (_ & M & _). apply (moved_begun w _ M B).
  - destruct (happens_spec w nm c P) as (_ & M & _); [destruct c; auto|]. apply (moved_begun w _ M B).
  - destruct (clean_spec w nm P) as (_ & M & _). apply (moved_begun w _ M B).
Qed.
Lemma ensure_ok : forall w a, proper w -> a_make a = true -> ~ In (a_name a) (map name (p_sets w)) -> exists w1, ensure w a = Some w1.
Proof. intros w a P M N. unfold ensure. destruct (newSet w) eqn:H; [eauto|]. apply create_ok; assumption. Qed.
Lemma success_begins : forall w o, proper w -> possible w o -> p_paused w = false -> successful w o -> begun (step w o).
Proof.
  intros w o P H U S. destruct o as [a| | |]; try contradiction. destruct S as (A1 & A2 & A3 & A4 & A5 & A6 & A7). cbn [step]. unfold reconcile. rewrite U.
  destruct (ensure_ok w a P A4 A7) as (w1 & E). destruct (ensure_spec w a w1 P E) as (P1 & (W & Pp & Pb) & (n & Hn) & _).
  destruct (p_back w) as [x|] eqn:B.
  - rewrite E, A5. unfold rolledBack. split; [cbn; congruence|]. split; [reflexivity|]. destruct (find _ (p_sets w1)) as [t|] eqn:F.
    + apply find_some in F. eapply new_ex; cbn [p_sets p_tmpl]; [exact (proj1 F)|reflexivity].
    + destruct (new_in w1 n Hn) as (I1 & I2). eapply new_ex; cbn [p_sets p_tmpl]; eassumption.
  - destruct (isScalingEvent _ _ _) eqn:Ev.
    + destruct (event_cases w P Ev) as ((m & Hm) & _). assert (begun w) as Bw by (split; [exact U|split; [exact B|eauto]]).
      pose proof (begun_step w (Do a) P H I Bw) as G. cbn [step] in G. unfold reconcile in G. rewrite U, B, Ev in G. exact G.
    + rewrite E. assert (begun w1) as B1 by (split; [congruence|split; [congruence|eauto]]). destruct (roll_proper w1 n (a_roll a) P1 Hn) as (_ & M & _). apply (moved_begun w1 _ M B1).
Qed.

Lemma plan_length : forall w n plan, newSet w = Some n -> NoDup (map t_tmpl (p_sets w)) ->
  scale (dep w) (Some (obj n)) (map obj (oldSets w)) = Some plan -> (List.length plan <= List.length (p_sets w))%nat.
Proof.
  intros w n plan H N S. pose proof (split_perm w n N H) as P. apply Permutation_length in P. rewrite P. cbn [List.length].
  assert (forall x l, (List.length (active_sets x l) <= List.length (all_sets x l))%nat) as L.
  { intros x l. unfold active_sets. induction (all_sets x l) as [|y r IH]; [reflexivity|]. cbn [filter]. destruct (_ <? _); cbn [List.length]; lia. }
  destruct (scale_covers (dep w) _ _ _ (or_introl (ex_intro _ _ (ex_intro _ _ eq_refl))) S) as [(m & -> & _)|[(_ & Q)|[(_ & Q)|Q]]].
  - cbn [List.length]. lia.
  - apply Permutation_length in Q. rewrite map_length in Q. specialize (L None (map obj (oldSets w))). unfold all_sets in L. rewrite app_nil_r, map_length in L. lia.
  - apply Permutation_length in Q. rewrite map_length in Q. specialize (L (Some (obj n)) (map obj (oldSets w))). unfold all_sets in L. rewrite app_length, map_length in L. cbn [List.length] in L. lia.
  - unfold all_sets in Q. destruct (map obj (oldSets w)); discriminate.
Qed.
Lemma success_takes : forall w o, proper w -> possible w o -> begun w -> successful w o -> taken_up (step w o).
Proof.
  intros w o P H B S. destruct o as [a| | |]; try contradiction. pose proof S as (A1 & A2 & A3 & A4 & A5 & A6 & A7).
  pose proof (begun_step w (Do a) P H I B) as B'. pose proof P as (PN & PT & _).
  pose proof (ensure_begun w a B) as En. pose proof B as (B1 & B2 & (n & B3)).
  destruct (isScalingEvent (dep w) (option_map obj (newSet w)) (map obj (oldSets w))) eqn:Ev.
  - destruct (event_cases w P Ev) as (_ & [(Sz & Z0 & K)|K]). { apply taken_step; [exact P|apply taken_begun; auto|exact H|exact I]. }
    apply taken_begun. split; [exact B'|]. cbn [step]. unfold reconcile. rewrite B1, B2, Ev. unfold scaleStep.
    destruct (scale_defined w P ltac:(apply H; right; exact K)) as (plan & Es & _). rewrite Es.
    rewrite B3 in Es. cbn [option_map] in Es.
    rewrite firstn_all2; [|eapply Nat.le_trans; [eapply plan_length; eassumption|exact A6]].
    assert (NoDup (map ms_name (all_sets (Some (obj n)) (map obj (oldSets w))))) as ND.
    { unfold all_sets. pose proof (emb_sane w n P B3) as (Ne & _). rewrite emb_names in Ne. cbn [map] in Ne. rewrite map_app, map_map. cbn [map].
      eapply Permutation_NoDup; [apply Permutation_cons_append|exact Ne]. }
    assert (all_sets (Some (obj n)) (map obj (oldSets w)) <> []) as NE. { unfold all_sets. destruct (map obj (oldSets w)); discriminate. }
    pose proof (c51_lemma (dep w) _ _ (p_size w + MaxSurge (dep w)) plan ND NE (or_introl (ex_intro _ _ (ex_intro _ _ eq_refl))) Es) as C.
    unfold size_known. cbn [withSets p_sets p_size]. apply Forall_mapx, Forall_forall. intros t Ht L m D.
    unfold withObj in D, L. unfold spec in L. cbn [t_x x_set] in D, L.
    assert (In (obj t) (all_sets (Some (obj n)) (map obj (oldSets w)))) as I1.
    { unfold all_sets. apply in_or_app. apply (in_emb w n t P B3) in Ht. destruct Ht as [<-|Ht]; [right; left; reflexivity|left; apply in_map; exact Ht]. }
    specialize (C (resized (dep w) plan (obj t))). change (md_replicas (dep w)) with (p_size w) in C.
    rewrite C in D; [congruence| |exact L]. apply in_map_iff. exists (obj t). split; [reflexivity|exact I1].
  - apply taken_step; [exact P| |exact H|exact I]. apply taken_begun. split; [exact B|]. eapply event_false; eassumption.
Qed.

Lemma unpaused_step : forall w o, no_edit o -> p_paused w = false -> p_paused (step w o) = false.
Proof. intros w o N U. destruct (step_settings w o N) as (A & _). unfold settings in A. congruence. Qed.
Lemma two_successes : forall l w, proper w -> p_paused w = false -> always possible w l -> Forall no_edit l ->
  (count successful 2 w l -> taken_up (run w l)) /\ (begun w -> count successful 1 w l -> taken_up (run w l)).
Proof.
  intros l. induction l as [|o l IH]; intros w P U A N; [split; [intros []|intros _ []]|]. pose proof A as (A1 & A2). inversion N as [|? ? N1 N2]; subst.
  change (run w (o :: l)) with (run (step w o) l). pose proof (step_proper w o P A1) as P1. pose proof (unpaused_step w o N1 U) as U1.
  destruct (IH (step w o) P1 U1 A2 N2) as (I1 & I2). split.
  - intros [(C1 & C2)|C2]; [|auto]. apply I2; [apply success_begins; assumption|exact C2].
  - intros B [(C1 & _)|C2]; [|apply I2; [apply begun_step; assumption|exact C2]].
    apply (taken_run l (step w o) P1); [apply success_takes; assumption|exact A2|exact N2].
Qed.

(** *** Never stuck *)
Definition small (w : Dep) : Prop := p_size w * (p_size w + MaxSurge (dep w)) < 2147483648.
Lemma defined_ok : forall w, proper w -> (shares_defined w <-> (0 < p_size w -> Forall (fun t => 0 < spec t -> exists z, ms_max (obj t) = AnnInt z /\ 0 < z /\ spec t * (p_size w + MaxSurge (dep w)) < 2147483648) (p_sets w))).
Proof.
  intros w P. destruct (surge_ex w P) as (A & _). split.
  - intros D S. exact (D _ A S).
  - intros D sg S1 S2. destruct (surge_fun w sg P S1) as (<- & _). exact (D S2).
Qed.
Lemma made_defined : forall w w1 n, proper w -> proper w1 -> small w -> made w w1 n -> shares_defined w -> shares_defined w1.
Proof.
  intros w w1 n P P1 Sm (-> & A1 & A2 & A3 & (A4 & _) & A5 & A6 & A7) D. apply (proj2 (defined_ok _ P1)). pose proof (proj1 (defined_ok w P) D) as D0. clear D. rename D0 into D.
  cbn [withSets p_sets p_size]. change (dep (withSets w (n :: p_sets w))) with (dep w). intro S. constructor; [|exact (D S)]. intros L.
  destruct (surge_ex w P) as (_ & B). exists (p_size w + MaxSurge (dep w)). split; [exact A7|]. split; [lia|]. unfold small in Sm. unfold spec in *. fold (obj n) in *. nia.
Qed.
Lemma roll_defined : forall w n api, proper w -> small w -> newSet w = Some n -> shares_defined w -> shares_defined (roll w api).
Proof.
  intros w n api P Sm H D. destruct (roll_proper w n api P H) as (P' & _). destruct (roll_spec w n api P H) as (g & K & E & S & R).
  pose proof P as (_ & _ & _ & HR & Gs & Gu). destruct (surge_ex w P) as (_ & B).
  pose proof (emb_sane w n P H) as Se. pose proof (uptodate_possible (emb w n) api _ _ Se (uptodate_emb w n)) as Po.
  destruct (step_toward (dep w) (p_surge w) (p_unavail w) (emb w n) _ eq_refl HR Se Po) as (_ & (_ & T1 & T2 & T3)). rewrite <- S in T1, T2, T3.
  change (md_replicas (dep w)) with (p_size w) in T1, T2.
  apply (proj2 (defined_ok _ P')). pose proof (proj1 (defined_ok w P) D) as D0. clear D. rename D0 into D. rewrite E. cbn [withSets p_sets p_size]. change (dep (withSets w (map g (p_sets w)))) with (dep w).
  intro Sz. specialize (D Sz). rewrite Forall_forall in D. apply Forall_mapx, Forall_forall. intros t Ht L.
  assert (spec (g t) <= Z.max (spec t) (p_size w)) as U.
  { apply (in_emb w n t P H) in Ht. destruct Ht as [<-|Ht].
    - cbn [emb w_new] in T1, T2. change (x_spec (t_x (g n))) with (spec (g n)) in *. change (x_spec (t_x n)) with (spec n) in *. lia.
    - rewrite E in T3. cbn [emb w_olds] in T3. rewrite (oldSets_map w g K), map_map in T3. clear - T3 Ht.
      induction (oldSets w) as [|x l IH]; [contradiction|]. cbn [map] in T3. inversion T3 as [|? ? ? ? (_ & T4) T5]; subst. destruct Ht as [->|Ht]; [|auto].
      unfold x_spec, spec in *. lia. }
  destruct (R t Ht) as [Eq|(k & Eq)].
  - assert (spec (g t) = spec t) as Es by (unfold spec; fold (obj (g t)); rewrite Eq; reflexivity). rewrite Es, Eq in *. exact (D t Ht L).
  - rewrite Eq. exists (p_size w + MaxSurge (dep w)). split; [reflexivity|]. split; [lia|]. unfold small in Sm.
    destruct (0 <? spec t) eqn:L0; [destruct (D t Ht ltac:(lia)) as (_ & _ & _ & D3); nia|nia].
Qed.
Lemma back_defined : forall w nm, shares_defined w -> shares_defined (rolledBack w nm).
Proof. intros w nm D. exact D. Qed.
Lemma small_set : forall w w', settings w' = settings w -> small w -> small w'.
Proof. intros w w' E. unfold small, MaxSurge, dep, settings in *. cbn [md_strategy md_replicas]. intro H. injection E as E1 E2 E3 E4. rewrite E1, E2, E3. exact H. Qed.
Lemma defined_step : forall w a, proper w -> small w -> p_paused w = false -> (p_back w <> None \/ newSet w = None) -> shares_defined w -> shares_defined (reconcile w a).
Proof.
  intros w a P Sm U B D. unfold reconcile. rewrite U.
  assert (forall w1, ensure w a = Some w1 -> shares_defined w1) as G.
  { intros w1 E. destruct (ensure_spec w a w1 P E) as (P1 & _ & _ & [->|(n & _ & M)]); [exact D|]. exact (made_defined w w1 n P P1 Sm M D). }
  destruct (p_back w) as [x|].
  - destruct (ensure w a) as [w1|] eqn:E; [|exact D]. destruct (a_dep a); [apply back_defined|]; apply G; reflexivity.
  - destruct B as [B|B]; [congruence|]. unfold isScalingEvent. rewrite B. cbn [option_map].
    destruct (ensure w a) as [w1|] eqn:E; [|exact D]. destruct (ensure_spec w a w1 P E) as (P1 & _ & (n & Hn) & _).
    eapply roll_defined; [exact P1| |exact Hn|apply G; reflexivity]. destruct (ensure_settings w a w1 E) as (C & _). eapply small_set; eassumption.
Qed.

(* A name nobody has. *)
Lemma free_name : forall l : list string, exists s, ~ In s l.
Proof.
  intro l. assert (exists n, forall x, In x l -> (String.length x <= n)%nat) as (n & H).
  { induction l as [|x l (n & IH)]; [exists 0%nat; intros ? []|]. exists (String.length x + n)%nat. intros y [<-|Hy]; [lia|]. specialize (IH y Hy). lia. }
  assert (forall k, exists s, String.length s = k) as G. { induction k as [|k (s & E)]; [exists ""%string; reflexivity|]. exists (String (Ascii.ascii_of_nat 120) s). cbn. congruence. }
  destruct (G (S n)) as (s & E). exists s. intro I. specialize (H s I). lia.
Qed.
Definition good_api : Api := mkApi true (fun _ => true) (fun _ => true).
Lemma a_success : forall w, exists o, successful w o /\ exists a, o = Do a.
Proof.
  intro w. destruct (free_name (map name (p_sets w))) as (s & H). exists (Do (mkCalls good_api true s 0 true (List.length (p_sets w)))). split; [|eauto].
  cbn. repeat split; auto.
Qed.

Definition complete (w : Dep) (t : TSet) : Prop :=
  ms_status (x_set (t_x t)) = spec t /\ ms_avail (x_set (t_x t)) <= spec t /\ (of_template w t -> ms_avail (x_set (t_x t)) = spec t).
Lemma run_app : forall l m w, run w (l ++ m) = run (run w l) m.
Proof. intros. unfold run. apply fold_left_app. Qed.
Lemma always_app : forall P l m w, always P w (l ++ m) <-> always P w l /\ always P (run w l) m.
Proof.
  intros P l. induction l as [|o l IH]; intros m w; [split; [intro H; split; [exact I|exact H]|intros (_ & H); exact H]|].
  cbn [app always]. rewrite IH. change (run w (o :: l)) with (run (step w o) l). tauto.
Qed.
(* A sequence of changes of one set. *)
Lemma changes_run : forall cs w nm, run w (map (Happens nm) cs) =
  withSets w (map (fun t => if String.eqb (ms_name (obj t)) nm then mkT (t_tmpl t) (fold_left (fun x c => change c x) cs (t_x t)) else t) (p_sets w)).
Proof.
  assert (forall c x, ms_name (x_set (change c x)) = ms_name (x_set x)) as Nm.
  { intros c x. destruct c; cbn [change]; [reflexivity| | | |]; unfold work, ready, lost, gone; destruct (_ <? _); reflexivity. }
  intros cs. induction cs as [|c cs IH]; intros w nm.
  - cbn [map run fold_left]. unfold withSets. destruct w as [a b c d e f g]. cbn [p_tmpl p_size p_surge p_unavail p_paused p_back p_sets]. f_equal.
    rewrite <- (map_id g) at 1. apply map_ext. intros [x y]. destruct (String.eqb _ _); reflexivity.
  - cbn [map]. change (run w (Happens nm c :: map (Happens nm) cs)) with (run (step w (Happens nm c)) (map (Happens nm) cs)). rewrite IH.
    cbn [step withSets p_tmpl p_size p_surge p_unavail p_paused p_back p_sets]. unfold withSets. cbn [p_tmpl p_size p_surge p_unavail p_paused p_back p_sets]. f_equal. rewrite map_map. apply map_ext. intros t.
    destruct (String.eqb (ms_name (obj t)) nm) eqn:E; [|rewrite E; reflexivity]. unfold obj at 1. cbn [t_x t_tmpl]. rewrite Nm. fold (obj t). rewrite E. reflexivity.
Qed.
Lemma readies : forall k x, sane_set x -> x_have x - x_up x <= Z.of_nat k -> fold_left (fun x c => change c x) (repeat CReady k) x = mkX (x_set x) (x_have x) (x_have x).
Proof.
  intros k. induction k as [|k IH]; intros x ((A & B & C) & D) L.
  - cbn [repeat fold_left]. destruct x as [s h u]. cbn [x_set x_have x_up] in *. f_equal. lia.
  - cbn [repeat fold_left change]. unfold ready. destruct (x_up x <? x_have x) eqn:E.
    + rewrite IH; [reflexivity|unfold sane_set, sane_ms; cbn; repeat split; lia|cbn; lia].
    + rewrite IH; [reflexivity|unfold sane_set, sane_ms; repeat split; lia|lia].
Qed.
Definition scr (isnew : bool) (x : XSet) : list Change :=
  let k := Z.to_nat (Z.abs (ms_spec (x_set x) - x_have x)) in
  let y := work k x in
  CWork k :: (if isnew then repeat CReady (Z.to_nat (x_have y)) else []) ++ [CReport (x_have y) (if isnew then x_have y else x_up y)].
Lemma scr_end : forall isnew x, sane_set x -> exists h u,
  fold_left (fun x c => change c x) (scr isnew x) x = report (ms_spec (x_set x)) u (mkX (x_set x) h u) /\ 0 <= u <= h /\ h = ms_spec (x_set x) /\ (isnew = true -> u = h).
Proof.
  intros isnew x S. pose proof S as ((A & B & C) & D). unfold scr. cbv zeta. set (k := Z.to_nat (Z.abs (ms_spec (x_set x) - x_have x))). set (y := work k x).
  assert (x_set y = x_set x /\ x_have y = ms_spec (x_set x) /\ 0 <= x_up y <= x_have y) as (Y1 & Y2 & Y3).
  { unfold y, work. destruct (x_have x <? ms_spec (x_set x)) eqn:E; cbn [x_set x_have x_up]; repeat split; lia. }
  cbn [fold_left change]. fold y. rewrite fold_left_app. cbn [fold_left change].
  exists (x_have y), (if isnew then x_have y else x_up y). destruct isnew.
  - rewrite readies; [|split; [rewrite Y1; repeat split; lia|lia]|lia]. rewrite Y1, Y2. repeat split; lia.
  - cbn [fold_left]. rewrite <- Y2. destruct y as [ys yh yu]. cbn [x_set x_have x_up] in *. subst ys. repeat split; try lia; try discriminate.
Qed.
Fixpoint okc (isnew : bool) (x : XSet) (cs : list Change) : Prop :=
  match cs with
  | [] => True
  | c :: cs => match c with CWork _ => True | CReady => isnew = true | CReport r a => r = x_have x /\ a = x_up x | _ => False end /\ okc isnew (change c x) cs
  end.
Lemma okc_app : forall b cs ds x, okc b x cs -> okc b (fold_left (fun x c => change c x) cs x) ds -> okc b x (cs ++ ds).
Proof. intros b cs. induction cs as [|c cs IH]; intros ds x A B; [exact B|]. cbn [app okc] in *. destruct A as (A1 & A2). split; [exact A1|]. apply IH; assumption. Qed.
Lemma okc_ready : forall k x, okc true x (repeat CReady k).
Proof. intros k. induction k as [|k IH]; intro x; [exact I|]. cbn [repeat okc]. split; [reflexivity|apply IH]. Qed.
Lemma work_sane : forall k x, sane_set x -> sane_set (work k x).
Proof. intros k x S. destruct (quiet_work k x S) as (_ & _ & A). exact A. Qed.
Lemma okc_scr : forall b x, sane_set x -> okc b x (scr b x).
Proof.
  intros b x S. unfold scr. cbv zeta. cbn [okc change]. split; [exact I|]. pose proof (work_sane (Z.to_nat (Z.abs (ms_spec (x_set x) - x_have x))) x S) as W.
  destruct b.
  - apply okc_app; [apply okc_ready|]. rewrite readies; [|exact W|destruct W; lia]. cbn. auto.
  - cbn. auto.
Qed.
Lemma change_name : forall c x, ms_name (x_set (change c x)) = ms_name (x_set x).
Proof. intros c x. destruct c; cbn [change]; [reflexivity| | | |]; unfold work, ready, lost, gone; destruct (_ <? _); reflexivity. Qed.
Lemma ok_run : forall cs w t, In t (p_sets w) -> okc (isNew w t) (t_x t) cs -> always ordinary w (map (Happens (name t)) cs) /\ Forall no_edit (map (Happens (name t)) cs).
Proof.
  intros cs. induction cs as [|c cs IH]; intros w t Ht O; [split; [exact I|constructor]|]. cbn [okc] in O. destruct O as (O1 & O2). cbn [map always].
  assert (In (mkT (t_tmpl t) (change c (t_x t))) (p_sets (step w (Happens (name t) c)))) as I1.
  { cbn [step withSets p_sets]. apply in_map_iff. exists t. split; [|exact Ht]. unfold name, obj. rewrite String.eqb_refl. reflexivity. }
  assert (isNew (step w (Happens (name t) c)) (mkT (t_tmpl t) (change c (t_x t))) = isNew w t) as I2 by reflexivity.
  destruct (IH _ _ I1) as (A & B). { rewrite I2. exact O2. }
  assert (name (mkT (t_tmpl t) (change c (t_x t))) = name t) as N by (unfold name; cbn [t_x]; apply change_name). rewrite N in A, B.
  split; [|constructor; [exact I|exact B]]. split; [|exact A]. destruct c; cbn [ordinary]; try contradiction; [|exact I|].
  - destruct O1 as (-> & ->). exists t. auto.
  - exists t. split; [exact Ht|]. split; [reflexivity|]. unfold isNew in O1. unfold of_template. lia.
Qed.
Lemma ordinary_possible : forall w o, proper w -> taken_up w -> ordinary w o -> possible w o /\ no_edit o.
Proof.
  intros w o (_ & _ & C & _) (T1 & _ & _ & T2) H. rewrite Forall_forall in C. destruct o as [a|e|nm c|nm]; cbn [ordinary possible no_edit] in *; try contradiction; split; try exact I.
  - intros [X|X]; [congruence|contradiction].
  - destruct c; try exact I. destruct H as (t & H1 & _ & -> & ->). destruct (C t H1) as (_ & ?). lia.
Qed.
Lemma ordinary_run : forall m w, proper w -> taken_up w -> always ordinary w m -> always possible w m /\ Forall no_edit m.
Proof.
  intros m. induction m as [|o m IH]; intros w P T A; [split; [exact I|constructor]|]. destruct A as (A1 & A2). destruct (ordinary_possible w o P T A1) as (B1 & B2).
  destruct (taken_step w o P T B1 B2) as (C & _). destruct (IH (step w o) (step_proper w o P B1) C A2) as (D1 & D2). split; [split; assumption|constructor; assumption].
Qed.
Lemma settle_one : forall w t, proper w -> In t (p_sets w) -> exists m, always ordinary w m /\
  map name (p_sets (run w m)) = map name (p_sets w) /\ p_tmpl (run w m) = p_tmpl w /\
  forall t', In t' (p_sets (run w m)) -> (name t' = name t -> complete w t') /\ (name t' <> name t -> In t' (p_sets w)).
Proof.
  intros w t P Ht. pose proof P as (N & _ & C & _). rewrite Forall_forall in C. pose proof (C t Ht) as S.
  exists (map (Happens (name t)) (scr (isNew w t) (t_x t))). destruct (ok_run _ w t Ht (okc_scr _ _ S)) as (A & _). split; [exact A|].
  rewrite changes_run. cbn [withSets p_sets p_tmpl].
  assert (forall cs x, ms_name (x_set (fold_left (fun x c => change c x) cs x)) = ms_name (x_set x)) as Nf.
  { intros cs. induction cs as [|c cs IH]; intro x; [reflexivity|]. cbn [fold_left]. rewrite IH. apply change_name. }
  split.
  { rewrite map_map. apply map_ext. intro u. destruct (String.eqb _ _); [|reflexivity]. unfold name. cbn [t_x]. apply Nf. }
  split; [reflexivity|]. intros t' H'. apply in_map_iff in H'. destruct H' as (u & <- & Hu). destruct (String.eqb (ms_name (obj u)) (name t)) eqn:E.
  - apply String.eqb_eq in E. assert (u = t) as ->. { eapply (key_inj _ _ name); [exact N|exact Hu|exact Ht|exact E]. }
    unfold name at 1 3. cbn [t_x]. rewrite Nf. split; [|intro X; exfalso; apply X; reflexivity]. intros _.
    destruct (scr_end (isNew w t) (t_x t) S) as (h & u & -> & U & -> & V). unfold complete, spec, of_template. cbn [t_x t_tmpl report x_set ms_status ms_avail ms_spec].
    split; [reflexivity|]. split; [lia|]. intro X. apply V. unfold isNew. lia.
  - apply String.eqb_neq in E. split; [intro X; exfalso; apply E; exact X|intros _; exact Hu].
Qed.
Lemma settle_all : forall ns w, proper w -> taken_up w -> incl ns (map name (p_sets w)) -> exists m, always ordinary w m /\
  map name (p_sets (run w m)) = map name (p_sets w) /\ p_tmpl (run w m) = p_tmpl w /\
  forall t', In t' (p_sets (run w m)) -> (In (name t') ns -> complete w t') /\ (~ In (name t') ns -> In t' (p_sets w)).
Proof.
  intros ns. induction ns as [|x ns IH]; intros w P T J.
  - exists []. split; [exact I|]. split; [reflexivity|]. split; [reflexivity|]. intros t' H'. split; [intros []|intros _; exact H'].
  - assert (In x (map name (p_sets w))) as J1 by (apply J; left; reflexivity). apply in_map_iff in J1. destruct J1 as (t & <- & Ht).
    destruct (settle_one w t P Ht) as (m1 & A1 & A2 & A3 & A4). destruct (ordinary_run m1 w P T A1) as (B1 & B2).
    destruct (taken_run m1 w P T B1 B2) as (C1 & _). pose proof (run_proper m1 w P B1) as P1.
    destruct (IH (run w m1) P1 C1) as (m2 & D1 & D2 & D3 & D4). { intros y Hy. rewrite A2. apply J. right. exact Hy. }
    exists (m1 ++ m2). rewrite run_app. split; [apply always_app; split; assumption|]. split; [congruence|]. split; [congruence|].
    intros t' H'. destruct (D4 t' H') as (E1 & E2).
    assert (complete (run w m1) t' -> complete w t') as F. { unfold complete, of_template. rewrite A3. auto. }
    destruct (in_dec string_dec (name t') ns) as [Y|Y]; [split; [intros _; auto|intro X; exfalso; apply X; right; exact Y]|].
    specialize (E2 Y). destruct (A4 t' E2) as (G1 & G2). split.
    + intros [X|X]; [apply G1; congruence|contradiction].
    + intro X. apply G2. intro Z. apply X. left. congruence.
Qed.
Lemma finish : forall k w, proper w -> taken_up w -> todo w <= Z.of_nat k -> exists m, always ordinary w m /\ fulfilled (run w m).
Proof.
  intros k. induction k as [|k IH]; intros w P T L.
  - exists []. split; [exact I|]. apply (todo_zero w P (taken_new w T)). pose proof (proj2 (todo_zero w P (taken_new w T))). cbn. lia.
  - destruct (settle_all (map name (p_sets w)) w P T (fun _ h => h)) as (m1 & A1 & A2 & A3 & A4). destruct (ordinary_run m1 w P T A1) as (B1 & B2).
    destruct (taken_run m1 w P T B1 B2) as (C1 & C2 & C3). pose proof (run_proper m1 w P B1) as P1. set (w1 := run w m1) in *.
    destruct (a_success w1) as (o & S & (a & ->)).
    assert (helpful w1 (Do a)) as H.
    { split; [exact S|]. apply Forall_forall. intros t' H'. destruct (A4 t' H') as (E & _). assert (complete w t') as F.
      { apply E. rewrite <- A2. apply in_map. exact H'. }
      unfold complete, of_template in *. rewrite A3. exact F. }
    destruct (ordinary_possible w1 (Do a) P1 C1 S) as (Po & No). destruct (taken_step w1 (Do a) P1 C1 Po No) as (D1 & _ & D2).
    pose proof (step_proper w1 (Do a) P1 Po) as P2.
    assert (todo (step w1 (Do a)) <= Z.of_nat k) as L2.
    { pose proof (helpful_taken w1 (Do a) P1 C1 H). pose proof (proj2 (todo_zero w1 P1 (taken_new w1 C1))). lia. }
    destruct (IH (step w1 (Do a)) P2 D1 L2) as (m2 & E1 & E2). exists (m1 ++ Do a :: m2). rewrite run_app. split.
    + apply always_app. split; [exact A1|]. split; [exact S|exact E1].
    + exact E2.
Qed.
Lemma begun_dec : forall w, p_paused w = false -> begun w \/ (p_back w <> None \/ newSet w = None).
Proof.
  intros w U. destruct (p_back w) eqn:B; [right; left; discriminate|]. destruct (newSet w) eqn:N; [|right; right; reflexivity].
  left. split; [exact U|]. split; [exact B|eauto].
Qed.
Lemma get_taken : forall w, proper w -> p_paused w = false -> shares_defined w -> small w ->
  exists m, always ordinary w m /\ proper (run w m) /\ taken_up (run w m).
Proof.
  intros w P U D Sm. destruct (a_success w) as (o & S & (a & ->)). assert (possible w (Do a)) as Po by (intros _; exact D).
  pose proof (step_proper w _ P Po) as P1. destruct (begun_dec w U) as [B|B].
  - exists [Do a]. split; [split; [exact S|exact I]|]. split; [exact P1|]. apply (success_takes w (Do a) P Po B S).
  - pose proof (success_begins w (Do a) P Po U S) as B1. pose proof (defined_step w a P Sm U B D) as D1. change (reconcile w a) with (step w (Do a)) in D1.
    destruct (a_success (step w (Do a))) as (o & S2 & (a2 & ->)). assert (possible (step w (Do a)) (Do a2)) as Po2 by (intros _; exact D1).
    exists [Do a; Do a2]. split; [split; [exact S|split; [exact S2|exact I]]|]. split; [apply (step_proper _ (Do a2) P1 Po2)|].
    apply (success_takes _ (Do a2) P1 Po2 B1 S2).
Qed.
Lemma never_stuck : forall w, proper w -> p_paused w = false -> shares_defined w -> small w ->
  exists m, always ordinary w m /\ taken_up (run w m) /\ fulfilled (run w m).
Proof.
  intros w P U D Sm. destruct (get_taken w P U D Sm) as (m1 & A & P1 & T).
  destruct (finish (Z.to_nat (todo (run w m1))) (run w m1) P1 T) as (m2 & B & F). { pose proof (proj2 (todo_zero _ P1 (taken_new _ T))). lia. }
  exists (m1 ++ m2). rewrite run_app. split; [apply always_app; split; assumption|]. split; [|exact F].
  destruct (ordinary_run m2 _ P1 T B) as (C1 & C2). apply (taken_run m2 _ P1 T C1 C2).
Qed.

(** *** The share is always defined when at least one machine is always wanted *)
Definition totals (w : Dep) : Prop := Forall (fun t => exists z, ms_max (obj t) = AnnInt z /\ 0 < z) (p_sets w).
Lemma res_total : forall w s s', proper w -> 0 < p_size w -> res (dep w) s' s -> (exists z, ms_max s = AnnInt z /\ 0 < z) -> exists z, ms_max s' = AnnInt z /\ 0 < z.
Proof.
  intros w s s' P H [->|(k & ->)] D; [exact D|]. destruct (surge_ex w P) as (_ & B). exists (p_size w + MaxSurge (dep w)). split; [reflexivity|lia].
Qed.
Lemma ensure_totals : forall w a w1, proper w -> 0 < p_size w -> totals w -> ensure w a = Some w1 -> totals w1.
Proof.
  intros w a w1 P H D E. destruct (ensure_spec w a w1 P E) as (_ & _ & _ & [->|(n & _ & M)]); [exact D|]. destruct M as (-> & _ & _ & _ & _ & _ & _ & M).
  destruct (surge_ex w P) as (_ & B). constructor; [|exact D]. exists (p_size w + MaxSurge (dep w)). split; [exact M|lia].
Qed.
Lemma roll_totals : forall w n api, proper w -> 0 < p_size w -> totals w -> newSet w = Some n -> totals (roll w api).
Proof.
  intros w n api P H D N. destruct (roll_spec w n api P N) as (g & _ & E & _ & R). rewrite E. unfold totals in *. cbn [withSets p_sets]. rewrite Forall_forall in D.
  apply Forall_mapx, Forall_forall. intros t Ht. exact (res_total w _ _ P H (R t Ht) (D t Ht)).
Qed.
Lemma scaleStep_totals : forall w k, proper w -> 0 < p_size w -> totals w -> totals (scaleStep w k).
Proof.
  intros w k P H D. unfold scaleStep. destruct (scale _ _ _) as [plan|]; [|exact D]. unfold totals in *. cbn [withSets p_sets]. rewrite Forall_forall in D.
  apply Forall_mapx, Forall_forall. intros t Ht. apply (res_total w (obj t)); [exact P|exact H| |exact (D t Ht)]. unfold withObj, obj at 1. cbn [t_x x_set]. apply resized_res.
Qed.
Lemma change_total : forall c x, ms_max (x_set (change c x)) = ms_max (x_set x).
Proof. intros c x. destruct c; cbn [change]; [reflexivity| | | |]; unfold work, ready, lost, gone; destruct (_ <? _); reflexivity. Qed.
Lemma step_totals : forall w o, proper w -> 0 < p_size w -> totals w -> totals (step w o).
Proof.
  intros w o P H D. destruct o as [a|e|nm c|nm]; cbn [step].
  - unfold reconcile. destruct (p_paused w); [apply scaleStep_totals; assumption|]. destruct (p_back w).
    + destruct (ensure w a) as [w1|] eqn:E; [|exact D]. pose proof (ensure_totals w a w1 P H D E). destruct (a_dep a); assumption.
    + destruct (isScalingEvent _ _ _); [apply scaleStep_totals; assumption|]. destruct (ensure w a) as [w1|] eqn:E; [|exact D].
      destruct (ensure_spec w a w1 P E) as (P1 & _ & (n & Hn) & _). apply (roll_totals w1 n); [exact P1| |exact (ensure_totals w a w1 P H D E)|exact Hn].
      destruct (ensure_settings w a w1 E) as (C & _). unfold settings in C. congruence.
  - destruct e; exact D.
  - unfold totals in *. cbn [withSets p_sets]. rewrite Forall_forall in D. apply Forall_mapx, Forall_forall. intros t Ht. destruct (String.eqb _ _); [|exact (D t Ht)].
    unfold obj. cbn [t_x]. rewrite change_total. exact (D t Ht).
  - unfold totals in *. cbn [withSets p_sets]. rewrite Forall_forall in D. apply Forall_forall. intros t Ht. apply filter_In in Ht. exact (D t (proj1 Ht)).
Qed.
Lemma modest_possible : forall w o, totals w -> modest w o -> possible w o.
Proof.
  intros w o D M. destruct o as [a|e|nm c|nm]; cbn [modest possible] in *; [|destruct e; try exact I; try exact M; lia|exact M|exact I].
  intros _ sg Sg Hs. specialize (M sg Sg). unfold totals in D. rewrite Forall_forall in D, M. apply Forall_forall. intros t Ht _.
  destruct (D t Ht) as (z & A & B). exists z. split; [exact A|]. split; [exact B|exact (M t Ht)].
Qed.
Lemma modest_size : forall w o, 0 < p_size w -> modest w o -> 0 < p_size (step w o).
Proof.
  intros w o H M. destruct o as [a|e|nm c|nm]; [|destruct e; try exact H; exact M|exact H|exact H].
  destruct (step_settings w (Do a) I) as (C & _). unfold settings in C. congruence.
Qed.
Lemma modest_run : forall l w, proper w -> 0 < p_size w -> totals w -> always modest w l ->
  always possible w l /\ proper (run w l) /\ 0 < p_size (run w l) /\ totals (run w l).
Proof.
  intros l. induction l as [|o l IH]; intros w P H D A; [split; [exact I|auto]|]. destruct A as (A1 & A2). pose proof (modest_possible w o D A1) as Po.
  destruct (IH (step w o) (step_proper w o P Po) (modest_size w o H A1) (step_totals w o P H D) A2) as (B1 & B2). split; [split; assumption|exact B2].
Qed.
Lemma fresh_ok : forall w, fresh w -> proper w /\ 0 < p_size w /\ totals w.
Proof.
  intros w (A & B & C & D). unfold proper, totals. rewrite A. repeat split; try constructor; try lia; assumption.
Qed.
Lemma moderate_small : forall w, proper w -> moderate w -> small w.
Proof. intros w P M. destruct (surge_ex w P) as (A & _). exact (M _ A). Qed.
Lemma run_settings : forall l w, Forall no_edit l -> settings (run w l) = settings w /\ (p_back w = None -> wish (run w l) = wish w).
Proof.
  intros l. induction l as [|o l IH]; intros w N; [split; [reflexivity|intros _; reflexivity]|]. inversion N as [|? ? N1 N2]; subst.
  destruct (step_settings w o N1) as (A & B). destruct (IH (step w o) N2) as (C & D). change (run w (o :: l)) with (run (step w o) l). split; [congruence|].
  intro E. destruct (B E) as (B1 & B2). rewrite (D B2). exact B1.
Qed.
Lemma ordinary_no_edit : forall m w, always ordinary w m -> Forall no_edit m.
Proof.
  intros m. induction m as [|o m IH]; intros w A; [constructor|]. destruct A as (A1 & A2). constructor; [|eapply IH; exact A2]. destruct o; try exact I. contradiction.
Qed.
Lemma find_named : forall w t, proper w -> In t (p_sets w) -> find (fun u => String.eqb (ms_name (obj u)) (name t)) (p_sets w) = Some t.
Proof.
  intros w t (N & _) Ht. destruct (find _ _) as [u|] eqn:E.
  - apply find_some in E. destruct E as (A & B). apply String.eqb_eq in B. f_equal. eapply (key_inj _ _ name); [exact N|exact A|exact Ht|exact B].
  - exfalso. pose proof (find_none _ _ E t Ht) as F. cbv beta in F. change (ms_name (obj t)) with (name t) in F. rewrite String.eqb_refl in F. discriminate.
Qed.
Lemma rollback_done : forall w o nm, proper w -> p_paused w = false -> p_back w = Some nm -> successful w o ->
  let w' := step w o in p_back w' = None /\ p_size w' = p_size w /\ p_surge w' = p_surge w /\ p_unavail w' = p_unavail w /\
  (forall t, In t (p_sets w) -> name t = nm -> p_tmpl w' = t_tmpl t) /\ (~ In nm (map name (p_sets w)) -> p_tmpl w' = p_tmpl w).
Proof.
  intros w o nm P U B S w'. destruct o as [a| | |]; try contradiction. destruct S as (_ & _ & _ & S4 & S5 & _ & S7).
  destruct (ensure_ok w a P S4 S7) as (w1 & E). destruct (ensure_spec w a w1 P E) as (P1 & _ & _ & F). destruct (ensure_settings w a w1 E) as (C & _).
  assert (w' = rolledBack w1 nm) as W. { unfold w'. cbn [step]. unfold reconcile. rewrite U, B, E, S5. reflexivity. }
  rewrite W. unfold settings in C. injection C as C1 C2 C3 C4. cbn [rolledBack p_back p_size p_surge p_unavail p_tmpl].
  split; [reflexivity|]. split; [exact C1|]. split; [exact C2|]. split; [exact C3|]. split.
  - intros t Ht <-. assert (In t (p_sets w1)) as H1. { destruct F as [->|(n & _ & (-> & _))]; [exact Ht|right; exact Ht]. }
    rewrite (find_named w1 t P1 H1). reflexivity.
  - intro No. assert (p_tmpl w1 = p_tmpl w) as Tm. { destruct F as [->|(n & _ & (-> & _))]; reflexivity. }
    destruct (find _ (p_sets w1)) as [u|] eqn:Fu; [|exact Tm]. apply find_some in Fu. destruct Fu as (Fu & En). apply String.eqb_eq in En.
    destruct F as [->|(n & _ & (-> & Tn & _))].
    + exfalso. apply No. rewrite <- En. apply (in_map name). exact Fu.
    + destruct Fu as [<-|Fu]; [exact Tn|]. exfalso. apply No. rewrite <- En. apply (in_map name). exact Fu.
Qed.
