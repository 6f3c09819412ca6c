(** A rolling update as a whole (C100): lemmas. *)
Require Import Coq.ZArith.ZArith Coq.Lists.List Coq.Strings.String Coq.Bool.Bool Coq.micromega.Lia Coq.micromega.ZifyBool.
Require Import Coq.Sorting.Permutation.
From Verif Require Import Types Sort RolloutModel RolloutSpec RolloutProofs WholeModel WholeSpec.
Import ListNotations.
Open Scope Z_scope.

(** *** Which sets the loops change *)
Definition pos (s : MachineSet) : Prop := 0 <= ms_spec s /\ 0 <= ms_avail s.
Definition relc (cur : string -> bool) (a b : MachineSet) : Prop := rel a b /\ (a = b \/ cur (ms_name b) = true).

Lemma relc_refl : forall cur s, pos s -> relc cur s s.
Proof. intros. split; [apply rel_refl; assumption|auto]. Qed.
Lemma relc_all_refl : forall cur l, nonneg_specs l -> Forall2 (relc cur) l l.
Proof. intros cur l H. induction H; constructor; auto using relc_refl. Qed.
Lemma rel_name : forall a b, rel a b -> ms_name a = ms_name b.
Proof. intros a b ((N & _) & _). exact N. Qed.
Lemma relc_trans : forall cur a b c, relc cur a b -> relc cur b c -> relc cur a c.
Proof.
  intros cur a b c (A & A') (B & B'). split; [eapply rel_trans; eauto|].
  pose proof (rel_name _ _ B) as N. destruct A' as [->|A']; [exact B'|]. right. rewrite <- N. exact A'.
Qed.
Lemma relc_rel : forall cur l m, Forall2 (relc cur) l m -> Forall2 rel l m.
Proof. intros. eapply F2_weaken; [|eassumption]. intros a b H'. apply H'. Qed.

Lemma scale_cur : forall ok d s n, sr_ms (scaleMachineSetAndRecordEvent ok d s n) = s \/ ok = true.
Proof. intros. unfold scaleMachineSetAndRecordEvent. destruct (_ =? _); [auto|]. destruct ok; auto. Qed.

Lemma cleanup_cur : forall ok cur d maxC l total l' c e,
  (forall s, ok s = true -> cur (ms_name s) = true) -> nonneg_specs l -> 0 <= total ->
  cleanupLoop ok d maxC total l = (l', c, e) -> Forall2 (relc cur) l' l.
Proof.
  intros ok cur d maxC l total l' c e Hok Hn Ht H.
  pose proof (cleanup_loop_spec _ _ _ _ _ _ _ _ Hn Ht H) as (A & _).
  assert (Forall2 (fun a b => a = b \/ cur (ms_name b) = true) l' l) as B.
  { clear A Hn Ht. revert total l' c e H. induction l as [|t rest IH]; intros total l' c e H; cbn [cleanupLoop] in H.
    - injection H as <- <- <-. constructor.
    - assert (forall l, Forall2 (fun a b => a = b \/ cur (ms_name b) = true) l l) as R by (intro l0; induction l0; constructor; auto).
      destruct (maxC <=? total). { injection H as <- <- <-. apply R. }
      destruct (ms_spec t =? 0); [|destruct (ms_spec t =? ms_avail t)].
      1,2: destruct (cleanupLoop ok d maxC total rest) as [[r' c'] e'] eqn:ER; injection H as <- <- <-; constructor; eauto.
      cbv zeta in H. destruct (_ >? ms_spec t). { injection H as <- <- <-. apply R. }
      match type of H with context [sr_err ?r] => destruct (sr_err r) end. { injection H as <- <- <-. apply R. }
      destruct (cleanupLoop ok d maxC (total + _) rest) as [[r' c'] e'] eqn:ER; injection H as <- <- <-.
      constructor; [|eauto].
      match goal with |- context [scaleMachineSetAndRecordEvent ?o ?d ?s ?n] => destruct (scale_cur o d s n) as [E|E] end; [left; exact E|right; apply Hok; exact E]. }
  clear -A B. induction A; inversion B; subst; constructor; auto. split; [tauto|assumption].
Qed.

Lemma scale_down_cur : forall ok cur d budget l total l' c e,
  (forall s, ok s = true -> cur (ms_name s) = true) -> nonneg_specs l -> 0 <= total ->
  scaleDownLoop ok d budget total l = (l', c, e) -> Forall2 (relc cur) l' l.
Proof.
  intros ok cur d budget l total l' c e Hok Hn Ht H.
  pose proof (scale_down_loop_spec _ _ _ _ _ _ _ _ Hn Ht H) as (A & _).
  assert (Forall2 (fun a b => a = b \/ cur (ms_name b) = true) l' l) as B.
  { clear A Hn Ht. revert total l' c e H. induction l as [|t rest IH]; intros total l' c e H; cbn [scaleDownLoop] in H.
    - injection H as <- <- <-. constructor.
    - assert (forall l, Forall2 (fun a b => a = b \/ cur (ms_name b) = true) l l) as R by (intro l0; induction l0; constructor; auto).
      destruct (budget <=? total). { injection H as <- <- <-. apply R. }
      destruct (ms_spec t =? 0).
      1: destruct (scaleDownLoop ok d budget total rest) as [[r' c'] e'] eqn:ER; injection H as <- <- <-; constructor; eauto.
      cbv zeta in H. destruct (_ >? ms_spec t). { injection H as <- <- <-. apply R. }
      match type of H with context [sr_err ?r] => destruct (sr_err r) end. { injection H as <- <- <-. apply R. }
      destruct (scaleDownLoop ok d budget (total + _) rest) as [[r' c'] e'] eqn:ER; injection H as <- <- <-.
      constructor; [|eauto].
      match goal with |- context [scaleMachineSetAndRecordEvent ?o ?d ?s ?n] => destruct (scale_cur o d s n) as [E|E] end; [left; exact E|right; apply Hok; exact E]. }
  clear -A B. induction A; inversion B; subst; constructor; auto. split; assumption.
Qed.

Definition relcp (cur : string -> bool) (l' l : list MachineSet) : Prop := exists m, Permutation m l /\ Forall2 (relc cur) l' m.
Lemma relcp_refl : forall cur l, nonneg_specs l -> relcp cur l l.
Proof. intros. exists l. split; [reflexivity|apply relc_all_refl; assumption]. Qed.
Lemma relcp_trans : forall cur l1 l2 l3, relcp cur l1 l2 -> relcp cur l2 l3 -> relcp cur l1 l3.
Proof.
  intros cur l1 l2 l3 (m & P & F) (m' & P' & F').
  destruct (Forall2_perm _ _ _ _ _ F' m (Permutation_sym P)) as (m1 & P1 & F1).
  exists m1. split; [eapply perm_trans; [apply Permutation_sym; exact P1|exact P']|].
  clear -F F1. revert m1 F1. induction F; intros m1 F1; inversion F1; subst; constructor; eauto using relc_trans.
Qed.
Lemma relcp_relp : forall cur l m, relcp cur l m -> relp l m.
Proof. intros cur l m (x & P & F). exists x. split; [exact P|eapply relc_rel; exact F]. Qed.
Lemma relcp_nonneg : forall cur l m, relcp cur l m -> nonneg_specs l.
Proof. intros cur l m (x & _ & F). eapply rel_nonneg, relc_rel; exact F. Qed.

Lemma active_nonneg : forall l, nonneg_specs l -> nonneg_specs (FilterActiveMachineSets l) /\ nonneg_specs (inactive l).
Proof.
  intros l Hn. unfold nonneg_specs, FilterActiveMachineSets, inactive in *. rewrite !Forall_forall in *.
  split; intros x Hx; apply filter_In in Hx; apply Hn; tauto.
Qed.

Lemma old_cur : forall okC okD cur d all l newIS l' b,
  (forall s, okC s = true -> cur (ms_name s) = true) -> (forall s, okD s = true -> cur (ms_name s) = true) -> nonneg_specs l ->
  reconcileOldMachineSets okC okD d all l newIS = (l', b) -> relcp cur l' l.
Proof.
  intros okC okD cur d all l newIS l' b HC HD Hn EO.
  pose proof (relcp_refl cur l Hn) as Hrefl. unfold reconcileOldMachineSets in EO.
  destruct (GetReplicaCountForMachineSets l =? 0). { injection EO as <- <-; auto. }
  cbv zeta in EO. destruct (_ <=? 0). { injection EO as <- <-; auto. }
  unfold cleanupUnhealthyReplicas in EO.
  destruct (cleanupLoop _ d _ 0 (isort byCreation l)) as [[o1 c1] e1] eqn:EC.
  pose proof (isort_perm byCreation l) as HP'.
  pose proof (cleanup_cur _ cur _ _ _ _ _ _ _ HC (nonneg_perm _ _ HP' Hn) (Z.le_refl 0) EC) as A.
  assert (relcp cur o1 l) as R1. { exists (isort byCreation l). split; [apply Permutation_sym; exact HP'|exact A]. }
  destruct e1. { injection EO as <- <-; auto. }
  pose proof (relcp_nonneg _ _ _ R1) as Hn1.
  unfold scaleDownOld in EO. cbv zeta in EO.
  destruct (_ <=? md_replicas d - MaxUnavailable d). { injection EO as <- <-; auto. }
  destruct (scaleDownLoop _ d _ 0 (isort byCreation o1)) as [[o2 c2] e2] eqn:ED.
  pose proof (isort_perm byCreation o1) as HP1.
  pose proof (scale_down_cur _ cur _ _ _ _ _ _ _ HD (nonneg_perm _ _ HP1 Hn1) (Z.le_refl 0) ED) as B.
  assert (relcp cur o2 l) as R2.
  { apply relcp_trans with o1; [|exact R1]. exists (isort byCreation o1). split; [apply Permutation_sym; exact HP1|exact B]. }
  destruct e2; injection EO as <- <-; auto.
Qed.

Lemma rolling_cur : forall api cur d newIS olds newIS' olds',
  (forall s, api_clean api s = true -> cur (ms_name s) = true) -> (forall s, api_down api s = true -> cur (ms_name s) = true) ->
  nonneg_specs olds -> rolloutRolling api d newIS olds = (newIS', olds') -> relcp cur olds' olds.
Proof.
  intros api cur d newIS olds newIS' olds' HC HD Hn H. unfold rolloutRolling in H.
  pose proof (relcp_refl cur olds Hn) as Hrefl.
  destruct (sr_err _). { injection H as <- <-; auto. }
  destruct (sr_scaled _). { injection H as <- <-; auto. }
  destruct (reconcileOldMachineSets _ _ _ _ _ _) as [o b] eqn:EO. injection H as <- <-.
  destruct (active_nonneg _ Hn) as (Hn1 & Hn2).
  pose proof (filter_split_perm _ (fun s => ms_spec s >? 0) olds) as HP.
  fold (FilterActiveMachineSets olds) in HP. fold (inactive olds) in HP.
  destruct (old_cur _ _ cur _ _ _ _ _ _ HC HD Hn1 EO) as (m & P & F).
  exists (inactive olds ++ m). split.
  - eapply perm_trans; [apply Permutation_app_head; exact P|]. apply Permutation_sym; exact HP.
  - apply Forall2_app; [apply relc_all_refl; assumption|exact F].
Qed.

Lemma rolling_new_cur : forall api d newIS olds newIS' olds', rolloutRolling api d newIS olds = (newIS', olds') ->
  same_set newIS' newIS /\ (newIS' = newIS \/ api_new api = true).
Proof.
  intros api d newIS olds newIS' olds' H. destruct (rolling_new_cases _ _ _ _ _ _ H) as (E & _).
  assert (forall s, same_set s s) as Hs by (unfold same_set; repeat split).
  rewrite E. unfold reconcileNewMachineSet. destruct (_ =? _); [cbn; auto|].
  destruct (_ >? _); [split; [apply scale_spec|apply scale_cur]|].
  destruct (NewISNewReplicas _ _ _); [split; [apply scale_spec|apply scale_cur]|cbn; auto].
Qed.

(** *** Lookup by name *)
Lemma lookup_some : forall n l s, lookup n l = Some s -> In s l /\ ms_name s = n.
Proof. intros n l s H. apply find_some in H. destruct H as (A & B). apply String.eqb_eq in B. auto. Qed.
Lemma lookup_in : forall l s, NoDup (map ms_name l) -> In s l -> lookup (ms_name s) l = Some s.
Proof.
  induction l as [|a l IH]; intros s N H; [contradiction|]. cbn [map] in N. inversion N; subst. unfold lookup in *. cbn [find].
  destruct H as [<-|H]; [rewrite String.eqb_refl; reflexivity|].
  destruct (String.eqb (ms_name a) (ms_name s)) eqn:E; [|auto]. apply String.eqb_eq in E. exfalso. apply H2. rewrite E. apply in_map. exact H.
Qed.

Lemma relcp_names : forall cur l m, relcp cur l m -> Permutation (map ms_name l) (map ms_name m).
Proof.
  intros cur l m (x & P & F). eapply perm_trans; [|apply Permutation_map; exact P]. clear P.
  induction F as [|a b l x H F IH]; [constructor|]. cbn [map]. rewrite (rel_name _ _ (proj1 H)). constructor. exact IH.
Qed.
Lemma relcp_pair : forall cur l m a, relcp cur l m -> In a l -> exists b, In b m /\ relc cur a b.
Proof.
  intros cur l m a (x & P & F) H.
  assert (exists b, In b x /\ relc cur a b) as (b & B & R).
  { clear P. induction F as [|p q l x Hp F IH]; [contradiction|]. destruct H as [->|H]; [exists q; split; [left; reflexivity|exact Hp]|].
    destruct (IH H) as (b & B & R). exists b. split; [right; exact B|exact R]. }
  exists b. split; [eapply Permutation_in; eauto|exact R].
Qed.

Lemma current_spec : forall w v n, current w v n = true <-> exists a, lookup n v = Some a /\ lookup n (stored w) = Some a.
Proof.
  intros w v n. unfold current. split.
  - destruct (lookup n v) as [a|]; [|discriminate]. destruct (lookup n (stored w)) as [b|]; [|discriminate].
    destruct (ms_dec a b) as [->|]; [eauto|discriminate].
  - intros (a & -> & ->). destruct (ms_dec a a); congruence.
Qed.

(** *** One reconcile *)
Definition heir (a b : XSet) : Prop := rel (x_set a) (x_set b) /\ x_have a = x_have b /\ x_up a = x_up b.

Lemma sane_pos : forall l, Forall sane_ms l -> nonneg_specs l.
Proof. intros l H. eapply Forall_impl; [|exact H]. unfold sane_ms. intros; lia. Qed.
Lemma sane_x : forall w x, sane w -> In x (sets w) -> sane_set x.
Proof. intros w x (_ & S) H. rewrite Forall_forall in S. auto. Qed.
Lemma stored_sets : forall w, stored w = map x_set (sets w).
Proof. reflexivity. Qed.
Lemma stored_lookup : forall w x, sane w -> In x (sets w) -> lookup (ms_name (x_set x)) (stored w) = Some (x_set x).
Proof. intros w x (N & _) H. apply lookup_in; [exact N|]. rewrite stored_sets. apply in_map. exact H. Qed.

Lemma reconcile_shape : forall d w api vn vo n' o',
  sane w -> possible w (Reconcile api vn vo) -> rolloutRolling (guard w api vn vo) d vn vo = (n', o') ->
  let w' := reconcile d w api vn vo in
  (x_set (w_new w') = x_set (w_new w) \/ (x_set (w_new w) = vn /\ x_set (w_new w') = n')) /\
  x_have (w_new w') = x_have (w_new w) /\ x_up (w_new w') = x_up (w_new w) /\
  Forall2 heir (w_olds w') (w_olds w) /\ w_lost w' = w_lost w.
Proof.
  intros d w api vn vo n' o' Hs (N & P & E) H w'. unfold w', reconcile. rewrite H. cbn [w_new w_olds w_lost x_set x_have x_up].
  set (cur := current w (vn :: vo)).
  inversion P as [|? ? P1 P2]; subst.
  assert (relcp cur o' vo) as R.
  { eapply rolling_cur; [| |apply sane_pos; exact P2|exact H]; cbn [guard api_clean api_down]; intros s Hs'; apply andb_true_iff in Hs'; apply Hs'. }
  destruct (rolling_new_cur _ _ _ _ _ _ H) as (S & C). cbn [guard api_new] in C.
  assert (ms_name n' = ms_name vn) as Nn by apply S.
  cbn [map] in N. inversion N as [|? ? N1 N2]; subst.
  split; [|repeat split].
  - unfold written. rewrite <- E. unfold lookup. cbn [find]. rewrite Nn, String.eqb_refl.
    destruct (ms_dec vn n') as [->|Hne]; [left; reflexivity|]. destruct C as [C|C]; [congruence|].
    apply andb_true_iff in C. destruct C as (_ & C). apply current_spec in C. destruct C as (a & A1 & A2).
    unfold lookup in A1. cbn [find] in A1. rewrite String.eqb_refl in A1. injection A1 as <-.
    rewrite E, (stored_lookup w _ Hs) in A2 by (left; reflexivity). right. split; [congruence|reflexivity].
  - assert (forall x, In x (w_olds w) -> heir (mkX (written (vn :: vo) (n' :: o') (x_set x)) (x_have x) (x_up x)) x) as Hx.
    { intros x Hx. assert (In x (sets w)) as Hx' by (right; exact Hx).
      pose proof (sane_x _ _ Hs Hx') as ((X1 & X2 & X3) & _).
      unfold heir. cbn [x_set x_have x_up]. split; [|auto].
      assert (rel (x_set x) (x_set x)) as Hr by (apply rel_refl; auto).
      unfold written.
      assert (String.eqb (ms_name vn) (ms_name (x_set x)) = false) as Ne.
      { apply String.eqb_neq. intro Q. destruct Hs as (D & _). unfold x_names, stored in D. cbn [map] in D. inversion D as [|? ? D1 D2]; subst.
        apply D1. rewrite <- E, Q. apply in_map, in_map. exact Hx. }
      unfold lookup. cbn [find]. rewrite Nn, Ne. fold (lookup (ms_name (x_set x)) vo). fold (lookup (ms_name (x_set x)) o').
      destruct (lookup _ vo) as [b|] eqn:Lb; [|exact Hr]. destruct (lookup _ o') as [b'|] eqn:Lb'; [|exact Hr].
      destruct (ms_dec b b') as [|Hne]; [exact Hr|].
      apply lookup_some in Lb'. destruct Lb' as (I' & M').
      destruct (relcp_pair _ _ _ _ R I') as (b0 & I0 & (R0 & C0)).
      pose proof (rel_name _ _ R0) as Nm.
      assert (lookup (ms_name b0) vo = Some b0) as L0 by (apply lookup_in; assumption).
      rewrite <- Nm, M', Lb in L0. injection L0 as ->.
      destruct C0 as [C0|C0]; [congruence|].
      apply current_spec in C0. destruct C0 as (a & A1 & A2).
      assert (a = b0) as ->. { rewrite <- Nm, M' in A1. unfold lookup in A1. cbn [find] in A1. rewrite Ne in A1. fold (lookup (ms_name (x_set x)) vo) in A1. congruence. }
      rewrite <- Nm, M', (stored_lookup w x Hs Hx') in A2. injection A2 as ->. exact R0. }
    clear -Hx. induction (w_olds w) as [|x l IH]; [constructor|]. cbn [map]. constructor; [apply Hx; left; reflexivity|].
    apply IH. intros y Hy. apply Hx. right. exact Hy.
Qed.

(* On what is stored. *)
Lemma written_all : forall cur vn vo n' o', NoDup (map ms_name (vn :: vo)) -> ms_name n' = ms_name vn -> relcp cur o' vo ->
  Permutation (map (written (vn :: vo) (n' :: o')) vo) o'.
Proof.
  intros cur vn vo n' o' N Nn R. cbn [map] in N. inversion N as [|? ? N1 N2]; subst.
  assert (NoDup (map ms_name o')) as No. { eapply Permutation_NoDup; [apply Permutation_sym, (relcp_names cur); exact R|exact N2]. }
  assert (forall l m, Forall2 (relc cur) l m -> (forall a, In a m -> In a vo) -> (forall a, In a l -> In a o') -> map (written (vn :: vo) (n' :: o')) m = l) as G.
  { intros l m F. induction F as [|a b l m Hab F IH]; intros Im Il; [reflexivity|]. cbn [map]. f_equal.
    - unfold written.
      assert (In b vo) as Ib by (apply Im; left; reflexivity).
      assert (String.eqb (ms_name vn) (ms_name b) = false) as Ne.
      { apply String.eqb_neq. intro Q. apply N1. rewrite Q. apply in_map. exact Ib. }
      unfold lookup. cbn [find]. rewrite Nn, Ne. fold (lookup (ms_name b) vo). fold (lookup (ms_name b) o').
      rewrite (lookup_in _ _ N2 Ib). rewrite <- (rel_name _ _ (proj1 Hab)).
      rewrite (lookup_in _ _ No (Il a (or_introl eq_refl))). destruct (ms_dec b a); congruence.
    - apply IH; intros; [apply Im|apply Il]; right; assumption. }
  destruct R as (m & P & F). eapply perm_trans; [apply Permutation_map, Permutation_sym; exact P|].
  rewrite (G o' m F); [reflexivity| |auto]. intros a Ha. eapply Permutation_in; eauto.
Qed.

Lemma reconcile_uptodate : forall d w api vn vo n' o', sane w -> uptodate w vn vo -> rolloutRolling (guard w api vn vo) d vn vo = (n', o') ->
  let w' := reconcile d w api vn vo in
  x_set (w_new w') = n' /\ Permutation (map x_set (w_olds w')) o'.
Proof.
  intros d w api vn vo n' o' Hs (-> & ->) H w'. unfold w', reconcile. rewrite H. cbn [w_new w_olds x_set].
  destruct (rolling_new_cur _ _ _ _ _ _ H) as (S & _). assert (ms_name n' = ms_name (x_set (w_new w))) as Nn by apply S.
  assert (Forall sane_ms (map x_set (w_olds w))) as Sm.
  { destruct Hs as (_ & F). inversion F as [|? ? F1 F2]; subst. clear -F2. induction F2 as [|x l Hx F2 IH]; [constructor|]. cbn [map]. constructor; [apply Hx|exact IH]. }
  assert (relcp (fun _ => true) o' (map x_set (w_olds w))) as R.
  { eapply rolling_cur; [| |apply sane_pos; exact Sm|exact H]; reflexivity. }
  split.
  - unfold written, lookup. cbn [find]. rewrite Nn, String.eqb_refl. destruct (ms_dec _ n'); congruence.
  - rewrite map_map. cbn [x_set].
    rewrite <- (map_map x_set (written (x_set (w_new w) :: map x_set (w_olds w)) (n' :: o'))).
    eapply written_all; [|exact Nn|exact R]. apply Hs.
Qed.

(** *** The other steps *)
Definition atSet (name : string) (f : XSet -> XSet) (x : XSet) : XSet := if String.eqb (ms_name (x_set x)) name then f x else x.
Lemma onSet_sets : forall n f w, sets (onSet n f w) = map (atSet n f) (sets w).
Proof. reflexivity. Qed.

(* A change of machines or of the status. *)
Definition quiet (f : XSet -> XSet) : Prop :=
  forall x, sane_set x -> ms_name (x_set (f x)) = ms_name (x_set x) /\ x_spec (f x) = x_spec x /\ sane_set (f x).
Lemma quiet_work : forall k, quiet (work k).
Proof.
  intros k x ((A & B & C) & D). unfold work, x_spec, sane_set, sane_ms. destruct (x_have x <? ms_spec (x_set x)) eqn:E; cbn; repeat split; lia.
Qed.
Lemma quiet_ready : quiet ready.
Proof. intros x ((A & B & C) & D). unfold ready, x_spec, sane_set, sane_ms. destruct (_ <? _) eqn:E; cbn; repeat split; lia. Qed.
Lemma quiet_lost : quiet lost.
Proof. intros x ((A & B & C) & D). unfold lost, x_spec, sane_set, sane_ms. destruct (_ <? _) eqn:E; cbn; repeat split; lia. Qed.
Lemma quiet_gone : quiet gone.
Proof. intros x ((A & B & C) & D). unfold gone, x_spec, sane_set, sane_ms. destruct (_ <? _) eqn:E; cbn; repeat split; lia. Qed.
Lemma quiet_report : forall r a, 0 <= r -> 0 <= a -> quiet (report r a).
Proof. intros r a Hr Ha x ((A & B & C) & D). unfold report, x_spec, sane_set, sane_ms. cbn. repeat split; lia. Qed.
Lemma quiet_at : forall n f, quiet f -> quiet (atSet n f).
Proof. intros n f H x S. unfold atSet. destruct (String.eqb _ n); [apply H; exact S|auto]. Qed.

(* The numbers of sets never leave their way. *)
Definition shrunk (a b : XSet) : Prop := ms_name (x_set a) = ms_name (x_set b) /\ 0 <= x_spec a <= x_spec b.
Definition toward (d : MachineDeployment) (w' w : World) : Prop :=
  ms_name (x_set (w_new w')) = ms_name (x_set (w_new w)) /\
  (x_spec (w_new w) <= md_replicas d -> x_spec (w_new w) <= x_spec (w_new w') <= md_replicas d) /\
  (md_replicas d <= x_spec (w_new w) -> md_replicas d <= x_spec (w_new w') <= x_spec (w_new w)) /\
  Forall2 shrunk (w_olds w') (w_olds w).

Lemma map_shrunk : forall f l, quiet f -> Forall sane_set l -> Forall2 shrunk (map f l) l /\ Forall sane_set (map f l).
Proof.
  intros f l Q S. induction S as [|x l Hx S (IH1 & IH2)]; [split; constructor|]. cbn [map]. destruct (Q x Hx) as (A & B & C).
  pose proof Hx as ((D & _) & _). split; constructor; auto. split; [exact A|]. rewrite B. unfold x_spec. lia.
Qed.
Lemma shrunk_names : forall l m, Forall2 shrunk l m -> map ms_name (map x_set l) = map ms_name (map x_set m).
Proof. intros l m H. induction H as [|a b l m (A & _) H IH]; [reflexivity|]. cbn [map]. congruence. Qed.

Lemma quiet_step : forall d n f w w', sane w -> quiet f -> sets w' = map (atSet n f) (sets w) -> sane w' /\ toward d w' w.
Proof.
  intros d n f w w' (N & S) Q E. unfold sets in E. cbn [map] in E. assert (E1 : w_new w' = atSet n f (w_new w)) by congruence.
  assert (E2 : w_olds w' = map (atSet n f) (w_olds w)) by congruence.
  inversion S as [|? ? S1 S2]; subst.
  destruct (map_shrunk _ _ (quiet_at n f Q) S2) as (A & B). destruct (quiet_at n f Q _ S1) as (C & D & F).
  split.
  - split.
    + unfold x_names, stored in *. cbn [map] in *. rewrite E1, E2, C, (shrunk_names _ _ A). exact N.
    + unfold sets. rewrite E1, E2. constructor; assumption.
  - unfold toward. rewrite E1, E2, D. repeat split; auto; lia.
Qed.

Lemma heir_sane : forall a b, heir a b -> sane_set b -> sane_set a /\ shrunk a b.
Proof.
  intros a b ((S & R1 & R2) & H1 & H2) ((A & B & C) & D). destruct S as (S1 & S2 & S3 & S4 & S5 & S6).
  unfold sane_set, sane_ms, shrunk, x_spec. rewrite S3, H1, H2. repeat split; try lia; exact S1.
Qed.
Lemma heirs_sane : forall l m, Forall2 heir l m -> Forall sane_set m -> Forall sane_set l /\ Forall2 shrunk l m.
Proof.
  intros l m H. induction H as [|a b l m H1 H IH]; intro S; [split; constructor|]. inversion S as [|? ? S1 S2]; subst.
  destruct (IH S2) as (A & B). destruct (heir_sane _ _ H1 S1). split; constructor; assumption.
Qed.

Lemma step_toward : forall d s u w o, md_strategy d = RollingUpdate s u -> 0 <= md_replicas d -> sane w -> possible w o ->
  sane (step d w o) /\ toward d (step d w o) w.
Proof.
  intros d s u w o Hd HR Hs Hp. destruct o; cbn [step].
  - destruct (rolloutRolling (guard w api vn vo) d vn vo) as [n' o'] eqn:H.
    destruct (reconcile_shape d w api vn vo n' o' Hs Hp H) as (A & B1 & B2 & C & D). cbv zeta in *.
    set (w' := reconcile d w api vn vo) in *.
    destruct Hs as (N & S). inversion S as [|? ? S1 S2]; subst. destruct (heirs_sane _ _ C S2) as (E & F).
    destruct (rolling_new_cases _ _ _ _ _ _ H) as (G & _). destruct (rolling_new_cur _ _ _ _ _ _ H) as (K & _).
    pose proof (reconcile_new_bounds (api_new (guard w api vn vo)) d (vo ++ [vn]) vn ltac:(left; eauto)) as (I & J). cbv zeta in I, J. rewrite <- G in I, J.
    assert (ms_name (x_set (w_new w')) = ms_name (x_set (w_new w))) as Nm.
    { destruct A as [->|(-> & ->)]; [reflexivity|apply K]. }
    destruct S1 as ((S1a & S1b & S1c) & S1d). destruct Hp as (_ & P2 & _). inversion P2 as [|? ? P3 _]; subst. destruct P3 as (P3a & P3b & P3c).
    split.
    + split.
      * unfold x_names, stored in *. cbn [map] in *. rewrite Nm, (shrunk_names _ _ F). exact N.
      * constructor; [|exact E]. split; [|rewrite B1, B2; exact S1d]. destruct A as [->|(A1 & ->)]; [split; auto|].
        destruct K as (_ & _ & K3 & K4 & _). unfold sane_ms. rewrite K3, K4. repeat split; lia.
    + split; [exact Nm|]. unfold x_spec. destruct A as [->|(-> & ->)]; (split; [lia|]; split; [lia|exact F]).
  - destruct Hp as (Hp1 & Hp2). eapply quiet_step; [exact Hs|exact (quiet_report _ _ Hp1 Hp2)|apply onSet_sets].
  - eapply quiet_step; [exact Hs|apply (quiet_work k)|apply onSet_sets].
  - eapply quiet_step; [exact Hs|apply quiet_ready|apply onSet_sets].
  - eapply quiet_step; [exact Hs|apply quiet_lost|apply onSet_sets].
  - eapply quiet_step; [exact Hs|apply quiet_gone|apply onSet_sets].
Qed.

Lemma shrunk_trans : forall l m n, Forall2 shrunk l m -> Forall2 shrunk m n -> Forall2 shrunk l n.
Proof.
  intros l m n H. revert n. induction H as [|a b l m (A & B) H IH]; intros n H'; inversion H' as [|? c ? ? (C & D) ?]; subst; constructor; auto.
  split; [congruence|lia].
Qed.
Lemma shrunk_refl : forall l, Forall sane_set l -> Forall2 shrunk l l.
Proof. intros l H. induction H as [|x l ((A & _) & _) H IH]; constructor; auto. split; [reflexivity|unfold x_spec; lia]. Qed.
Lemma toward_refl : forall d w, sane w -> toward d w w.
Proof. intros d w (_ & S). inversion S; subst. repeat split; try lia. apply shrunk_refl; assumption. Qed.
Lemma toward_trans : forall d a b c, toward d a b -> toward d b c -> toward d a c.
Proof.
  intros d a b c (A1 & A2 & A3 & A4) (B1 & B2 & B3 & B4). split; [congruence|].
  split; [intro H; specialize (B2 H); specialize (A2 ltac:(lia)); lia|]. split; [intro H; specialize (B3 H); specialize (A3 ltac:(lia)); lia|].
  eapply shrunk_trans; eassumption.
Qed.
Lemma run_toward : forall d s u l w, md_strategy d = RollingUpdate s u -> 0 <= md_replicas d -> sane w -> always d possible w l ->
  sane (run d w l) /\ toward d (run d w l) w.
Proof.
  intros d s u l. induction l as [|o l IH]; intros w Hd HR Hs Ha; [split; [exact Hs|apply toward_refl; exact Hs]|].
  destruct Ha as (Hp & Ha). destruct (step_toward d s u w o Hd HR Hs Hp) as (A & B).
  destruct (IH (step d w o) Hd HR A Ha) as (C & D). cbn [run fold_left]. fold (run d (step d w o) l).
  split; [exact C|]. eapply toward_trans; eassumption.
Qed.
Lemma shrunk_sum : forall l m, Forall2 shrunk l m -> 0 <= sum x_spec l <= sum x_spec m.
Proof. intros l m H. induction H as [|a b l m (_ & A) H IH]; unfold sum in *; cbn [fold_right]; lia. Qed.
Lemma toward_distance : forall d w' w, toward d w' w -> distance d w' <= distance d w.
Proof.
  intros d w' w (_ & A & B & C). pose proof (shrunk_sum _ _ C). unfold distance.
  destruct (Z_le_dec (x_spec (w_new w)) (md_replicas d)); lia.
Qed.
Lemma always_weaken : forall d (P Q : World -> Op -> Prop) l w, (forall w o, P w o -> Q w o) -> always d P w l -> always d Q w l.
Proof. intros d P Q l. induction l as [|o l IH]; intros w H Ha; cbn [always] in *; [exact I|]. destruct Ha. split; auto. Qed.

(** *** Progress *)
Lemma scale_ok : forall d s n, let r := scaleMachineSetAndRecordEvent true d s n in sr_err r = false /\ ms_spec (sr_ms r) = n.
Proof. intros d s n r. unfold r, scaleMachineSetAndRecordEvent. destruct (_ =? n) eqn:E; cbn; lia. Qed.

Lemma cleanup_no_error : forall ok d maxC l total, (forall s, In s l -> ok s = true) -> Forall (fun s => ms_avail s <= ms_spec s) l ->
  snd (cleanupLoop ok d maxC total l) = false.
Proof.
  intros ok d maxC l. induction l as [|t rest IH]; intros total Hok Ha; [reflexivity|]. cbn [cleanupLoop].
  inversion Ha as [|? ? A1 A2]; subst.
  assert (forall tot, snd (cleanupLoop ok d maxC tot rest) = false) as IH' by (intro; apply IH; [intros; apply Hok; right; assumption|exact A2]).
  destruct (maxC <=? total) eqn:E1; [reflexivity|].
  destruct (ms_spec t =? 0); [|destruct (ms_spec t =? ms_avail t) eqn:E3].
  1,2: specialize (IH' total); destruct (cleanupLoop ok d maxC total rest) as [[? ?] ?]; exact IH'.
  cbv zeta. destruct (_ >? ms_spec t) eqn:E4; [lia|].
  rewrite (Hok t (or_introl eq_refl)). destruct (scale_ok d t (ms_spec t - Z.min (maxC - total) (ms_spec t - ms_avail t))) as (-> & _).
  specialize (IH' (total + Z.min (maxC - total) (ms_spec t - ms_avail t))).
  destruct (cleanupLoop ok d maxC (total + _) rest) as [[? ?] ?]; exact IH'.
Qed.

Lemma cleanup_progress : forall ok d maxC l total l' c e, (forall s, In s l -> ok s = true) -> Forall (fun s => ms_avail s <= ms_spec s) l ->
  nonneg_specs l -> 0 <= total -> total < maxC -> cleanupLoop ok d maxC total l = (l', c, e) ->
  requested l' < requested l \/ (l' = l /\ Forall (fun s => ms_avail s = ms_spec s) l).
Proof.
  intros ok d maxC l. induction l as [|t rest IH]; intros total l' c e Hok Ha Hn Ht Hm H; cbn [cleanupLoop] in H.
  { injection H as <- <- <-. right. split; [reflexivity|constructor]. }
  inversion Ha as [|? ? A1 A2]; subst. inversion Hn as [|? ? N1 N2]; subst.
  assert (Hok' : forall s, In s rest -> ok s = true) by (intros; apply Hok; right; assumption).
  destruct (maxC <=? total) eqn:E1; [lia|].
  destruct (ms_spec t =? 0) eqn:E2; [|destruct (ms_spec t =? ms_avail t) eqn:E3].
  1,2: destruct (cleanupLoop ok d maxC total rest) as [[r' c'] e'] eqn:ER; injection H as <- <- <-;
    destruct (IH _ _ _ _ Hok' A2 N2 Ht Hm ER) as [P|(-> & P)]; [left; unfold requested, sum in *; cbn [fold_right]; lia|right; split; [reflexivity|constructor; [lia|exact P]]].
  cbv zeta in H. destruct (_ >? ms_spec t) eqn:E4; [lia|].
  rewrite (Hok t (or_introl eq_refl)) in H. destruct (scale_ok d t (ms_spec t - Z.min (maxC - total) (ms_spec t - ms_avail t))) as (Q1 & Q2).
  rewrite Q1 in H. remember (total + Z.min (maxC - total) (ms_spec t - ms_avail t)) as tot.
  destruct (cleanupLoop ok d maxC tot rest) as [[r' c'] e'] eqn:ER. injection H as <- <- <-. left.
  assert (0 <= tot) as Htot by lia. destruct (cleanup_loop_spec _ _ _ _ _ _ _ _ N2 Htot ER) as (F & _).
  assert (requested r' <= requested rest) as L.
  { clear -F. induction F as [|a b l m ((_ & Hab & _) & _) F IH]; unfold requested, sum in *; cbn [fold_right] in *; lia. }
  unfold requested, sum in *. cbn [fold_right]. lia.
Qed.

Lemma scale_down_ext : forall ok d budget l total, (forall s, In s l -> ok s = true) ->
  scaleDownLoop ok d budget total l = scaleDownLoop (fun _ => true) d budget total l.
Proof.
  intros ok d budget l. induction l as [|t rest IH]; intros total H; [reflexivity|]. cbn [scaleDownLoop].
  assert (forall tot, scaleDownLoop ok d budget tot rest = scaleDownLoop (fun _ => true) d budget tot rest) as IH' by (intro; apply IH; intros; apply H; right; assumption).
  rewrite (H t (or_introl eq_refl)). cbv zeta. rewrite !IH'. reflexivity.
Qed.

Lemma old_progress : forall okC okD d newIS olds o b, 0 <= md_replicas d ->
  (forall s, In (ms_name s) (map ms_name olds) -> okC s = true) -> (forall s, In (ms_name s) (map ms_name olds) -> okD s = true) ->
  nonneg_specs olds -> Forall (fun s => ms_avail s <= ms_spec s) olds -> ms_avail newIS = ms_spec newIS ->
  0 < requested olds -> md_replicas d - MaxUnavailable d < requested olds + ms_spec newIS ->
  reconcileOldMachineSets okC okD d (olds ++ [newIS]) (FilterActiveMachineSets olds) newIS = (o, b) ->
  requested o < requested olds.
Proof.
  intros okC okD d newIS olds o b _ HC HD Hn Ha Hnew Hpos Hroom H.
  destruct (active_nonneg _ Hn) as (Hn1 & _).
  pose proof (requested_filter olds) as Hf. rewrite requested_inactive in Hf by (eapply Forall_impl; [|exact Hn]; cbn; tauto).
  assert (Forall (fun s => ms_avail s <= ms_spec s) (FilterActiveMachineSets olds)) as Ha1.
  { rewrite Forall_forall in *. intros x Hx. apply filter_In in Hx. apply Ha; tauto. }
  assert (forall s, In s (FilterActiveMachineSets olds) -> In (ms_name s) (map ms_name olds)) as Hin.
  { intros x Hx. apply filter_In in Hx. apply in_map. tauto. }
  set (act := FilterActiveMachineSets olds) in *.
  unfold reconcileOldMachineSets in H. rewrite !count_spec in H.
  destruct (requested act =? 0) eqn:E0; [lia|]. cbv zeta in H.
  assert (requested (olds ++ [newIS]) = requested olds + ms_spec newIS) as Hall.
  { unfold requested. rewrite sum_app. unfold sum; cbn; lia. }
  rewrite ?count_spec, Hall in H. destruct (_ <=? 0) eqn:E1; [lia|].
  unfold cleanupUnhealthyReplicas in H.
  pose proof (isort_perm byCreation act) as HP.
  assert (forall s, In s (isort byCreation act) -> In (ms_name s) (map ms_name olds)) as Hin'.
  { intros x Hx. apply Hin. eapply Permutation_in; [apply Permutation_sym; exact HP|exact Hx]. }
  assert (Forall (fun s => ms_avail s <= ms_spec s) (isort byCreation act)) as Ha2 by (eapply Permutation_Forall; eauto).
  assert (requested (isort byCreation act) = requested act) as Hra by (symmetry; apply sum_perm; exact HP).
  match type of H with context [cleanupLoop okC d ?m 0 ?l] => remember m as mx; destruct (cleanupLoop okC d mx 0 l) as [[o1 c1] e1] eqn:EC end.
  pose proof (cleanup_no_error okC d mx (isort byCreation act) 0 ltac:(auto) Ha2) as Q. rewrite EC in Q. cbn [snd] in Q. subst e1.
  assert (forall s, In s (isort byCreation act) -> okC s = true) as HokC by auto. assert (0 < mx) as Hmx by lia.
  pose proof (cleanup_progress okC d mx _ 0 _ _ _ HokC Ha2 (nonneg_perm _ _ HP Hn1) (Z.le_refl 0) Hmx EC) as PR.
  assert (relcp (fun _ => true) o1 (isort byCreation act)) as R1.
  { exists (isort byCreation act). split; [reflexivity|]. eapply cleanup_cur; [|apply (nonneg_perm _ _ HP Hn1)| |exact EC]; [reflexivity|lia]. }
  pose proof (relcp_nonneg _ _ _ R1) as Hno1.
  pose proof (isort_perm byCreation o1) as HP1.
  assert (requested (isort byCreation o1) = requested o1) as Hr1 by (symmetry; apply sum_perm; exact HP1).
  unfold scaleDownOld in H. cbv zeta in H. rewrite count_avail in H.
  destruct PR as [PR|(-> & PR)].
  - destruct (_ <=? md_replicas d - MaxUnavailable d). { injection H as <- <-. lia. }
    destruct (scaleDownLoop okD d _ 0 (isort byCreation o1)) as [[o2 c2] e2] eqn:ED.
    assert (requested o2 <= requested o1) as L.
    { destruct (scale_down_loop_spec _ _ _ _ _ _ _ _ (nonneg_perm _ _ HP1 Hno1) (Z.le_refl 0) ED) as (F & _).
      assert (relp o2 (isort byCreation o1)) as R by (exists (isort byCreation o1); split; [reflexivity|exact F]).
      apply relp_requested in R. lia. }
    destruct e2; injection H as <- <-; lia.
  - assert (available (isort byCreation act ++ [newIS]) = requested act + ms_spec newIS) as Hav.
    { unfold available, requested in *. rewrite sum_app. rewrite (sum_eq _ ms_avail ms_spec _ PR), Hra. unfold sum; cbn. lia. }
    rewrite Hav in H. destruct (_ <=? md_replicas d - MaxUnavailable d) eqn:E2; [lia|].
    rewrite scale_down_ext in H.
    2:{ intros x Hx. apply HD, Hin'. eapply Permutation_in; [apply Permutation_sym; exact HP1|exact Hx]. }
    destruct (scale_down_exact d (requested act + ms_spec newIS - (md_replicas d - MaxUnavailable d)) (isort byCreation (isort byCreation act)) 0) as (l' & A & B & _).
    { eapply Permutation_Forall; [exact HP1|]. eapply Forall_impl; [|exact Hno1]. cbn; tauto. }
    { lia. }
    rewrite A in H. injection H as <- <-. lia.
Qed.

Lemma rolling_progress : forall api d s u newIS olds newIS' olds', md_strategy d = RollingUpdate s u -> good_budget s -> good_budget u -> 0 <= md_replicas d ->
  api_new api = true ->
  (forall s, In (ms_name s) (map ms_name olds) -> api_clean api s = true) -> (forall s, In (ms_name s) (map ms_name olds) -> api_down api s = true) ->
  nonneg_specs olds -> 0 <= ms_spec newIS -> ms_status newIS = ms_spec newIS -> ms_avail newIS = ms_spec newIS ->
  Forall (fun s => ms_status s = ms_spec s /\ ms_avail s <= ms_spec s) olds ->
  rolloutRolling api d newIS olds = (newIS', olds') ->
  Z.abs (md_replicas d - ms_spec newIS') + requested olds' < Z.abs (md_replicas d - ms_spec newIS) + requested olds \/
  (ms_spec newIS = md_replicas d /\ requested olds = 0).
Proof.
  intros api d s u newIS olds newIS' olds' Hd Gs Gu HR HN HC HD Hn Hp0 Hst Hav Ho H.
  assert (0 <= requested olds) as Hro by (apply sum_nonneg; eapply Forall_impl; [|exact Hn]; cbn; tauto).
  assert (exists surge, GetValueFromIntOrPercent s (md_replicas d) true = Some surge /\ 0 <= surge /\ 0 <= MaxUnavailable d /\ (0 < md_replicas d -> 0 < surge + MaxUnavailable d)) as (surge & Hg & G1 & G2 & G3).
  { destruct (Z.eq_dec (md_replicas d) 0) as [Z0|Z0].
    - rewrite (unavail_zero d s u Hd Z0), Z0. destruct s as [[z|p|]|]; cbn [good_budget GetValueFromIntOrPercent] in *; try contradiction.
      + exists z. repeat split; lia.
      + exists 0. rewrite Z.mul_0_r. repeat split; lia.
    - destruct (budget_props d s u Hd Gs Gu ltac:(lia)) as ((x & A & _) & P1 & P2 & P3).
      exists (MaxSurge d). split; [|repeat split; lia].
      destruct s as [[z|p|]|]; cbn [is_surge GetValueFromIntOrPercent] in *; try contradiction; f_equal; lia. }
  assert (GetActualReplicaCountForMachineSets (olds ++ [newIS]) = requested olds + ms_spec newIS) as Hact.
  { rewrite count_actual, sum_app. unfold requested. rewrite (sum_eq _ ms_status ms_spec olds).
    - unfold sum; cbn; lia.
    - eapply Forall_impl; [|exact Ho]. cbn; tauto. }
  assert (forall n o, (newIS, inactive olds ++ o) = (newIS', olds') -> n = true -> requested o < requested olds -> requested olds' < requested olds /\ newIS' = newIS) as Fin.
  { intros n o E _ L. injection E as <- <-. split; [|reflexivity]. unfold requested in *. rewrite sum_app. fold (requested (inactive olds)).
    rewrite requested_inactive by (eapply Forall_impl; [|exact Hn]; cbn; tauto). lia. }
  assert (Forall (fun s => ms_avail s <= ms_spec s) olds) as Ha by (eapply Forall_impl; [|exact Ho]; cbn; tauto).
  unfold rolloutRolling in H. cbv zeta in H. unfold reconcileNewMachineSet in H. rewrite HN in H.
  destruct (ms_spec newIS =? md_replicas d) eqn:E1.
  - cbn [sr_err sr_scaled] in H. destruct (reconcileOldMachineSets _ _ _ _ _ _) as [o b] eqn:EO.
    destruct (Z.eq_dec (requested olds) 0) as [Z0|Z0]; [right; split; lia|]. left.
    assert (requested o < requested olds) as L by (eapply old_progress; [exact HR|exact HC|exact HD|exact Hn|exact Ha|exact Hav|lia|lia|exact EO]).
    destruct (Fin true o H eq_refl L) as (L' & ->). lia.
  - destruct (ms_spec newIS >? md_replicas d) eqn:E2.
    + unfold scaleMachineSetAndRecordEvent in H. rewrite E1 in H. cbn [sr_err sr_scaled sr_ms] in H. injection H as <- <-. left. cbn. lia.
    + unfold NewISNewReplicas in H. rewrite Hd, Hg, Hact in H. cbv zeta in H.
      destruct (md_replicas d + surge <=? requested olds + ms_spec newIS) eqn:E3.
      * unfold scaleMachineSetAndRecordEvent in H. rewrite Z.eqb_refl in H. cbn [sr_err sr_scaled] in H.
        destruct (reconcileOldMachineSets _ _ _ _ _ _) as [o b] eqn:EO. left.
        assert (requested o < requested olds) as L by (eapply old_progress; [exact HR|exact HC|exact HD|exact Hn|exact Ha|exact Hav|lia|lia|exact EO]).
        destruct (Fin true o H eq_refl L) as (L' & ->). lia.
      * unfold scaleMachineSetAndRecordEvent in H. match type of H with context [?a =? ?b] => destruct (a =? b) eqn:E4 end; [lia|].
        cbn [sr_err sr_scaled sr_ms] in H. injection H as <- <-. left. cbn [ms_spec resize set_size]. lia.
Qed.

Lemma uptodate_current : forall w vn vo s, sane w -> uptodate w vn vo -> In (ms_name s) (map ms_name (vn :: vo)) -> current w (vn :: vo) (ms_name s) = true.
Proof.
  intros w vn vo s Hs (-> & ->) H. apply current_spec.
  change (x_set (w_new w) :: map x_set (w_olds w)) with (stored w) in *. apply in_map_iff in H. destruct H as (a & E & H).
  exists a. rewrite <- E. assert (lookup (ms_name a) (stored w) = Some a) by (apply lookup_in; [apply Hs|exact H]). auto.
Qed.
Lemma sum_map : forall A B (f : B -> Z) (g : A -> B) l, sum f (map g l) = sum (fun x => f (g x)) l.
Proof. intros A B f g l. induction l as [|x l IH]; [reflexivity|]. unfold sum in *. cbn [map fold_right]. congruence. Qed.
Lemma spec_requested : forall l, sum x_spec l = requested (map x_set l).
Proof. intro l. unfold requested. rewrite sum_map. reflexivity. Qed.
Lemma uptodate_possible : forall w api vn vo, sane w -> uptodate w vn vo -> possible w (Reconcile api vn vo).
Proof.
  intros w api vn vo (N & S) (-> & ->). split; [exact N|]. split; [|reflexivity].
  change (x_set (w_new w) :: map x_set (w_olds w)) with (map x_set (sets w)). clear N. induction S as [|x l (A & _) S IH]; constructor; assumption.
Qed.

Lemma helpful_step : forall d s u w o, md_strategy d = RollingUpdate s u -> good_budget s -> good_budget u -> 0 <= md_replicas d ->
  sane w -> helpful w o -> distance d (step d w o) < distance d w \/ distance d w = 0.
Proof.
  intros d s u w o Hd Gs Gu HR Hs Hh. destruct o; try contradiction. destruct Hh as (U & A1 & A2 & A3 & (B1 & B2) & B3). cbn [step].
  destruct (rolloutRolling (guard w api vn vo) d vn vo) as [n' o'] eqn:H.
  destruct (reconcile_uptodate d w api vn vo n' o' Hs U H) as (E1 & E2). cbv zeta in *.
  destruct (uptodate_possible w api vn vo Hs U) as (N & S & _). pose proof (Forall_inv S) as S1. pose proof (Forall_inv_tail S) as S2.
  assert (forall x, In (ms_name x) (map ms_name (vn :: vo)) -> current w (vn :: vo) (ms_name x) = true) as C by (intros; apply uptodate_current; assumption).
  assert (api_new (guard w api vn vo) = true) as G1. { cbn [guard api_new]. rewrite A1, C; [reflexivity|left; reflexivity]. }
  assert (forall x, In (ms_name x) (map ms_name vo) -> api_clean (guard w api vn vo) x = true) as G2. { intros x Hx. cbn [guard api_clean]. rewrite A2, C; [reflexivity|right; exact Hx]. }
  assert (forall x, In (ms_name x) (map ms_name vo) -> api_down (guard w api vn vo) x = true) as G3. { intros x Hx. cbn [guard api_down]. rewrite A3, C; [reflexivity|right; exact Hx]. }
  destruct S1 as (S1a & S1b & S1c).
  pose proof (rolling_progress _ d s u vn vo n' o' Hd Gs Gu HR G1 G2 G3 (sane_pos _ S2) S1a B1 B2 B3 H) as P.
  unfold distance. rewrite !spec_requested. unfold x_spec. rewrite E1. unfold requested in *. rewrite (sum_perm _ ms_spec _ _ E2).
  destruct U as (-> & ->). lia.
Qed.

Lemma distance_nonneg : forall d w, sane w -> 0 <= distance d w.
Proof.
  intros d w (_ & S). inversion S as [|? ? S1 S2]; subst. unfold distance. pose proof (shrunk_sum _ _ (shrunk_refl _ S2)). lia.
Qed.
Lemma distance_finished : forall d w, sane w -> (distance d w = 0 <-> finished d w).
Proof.
  intros d w (_ & S). inversion S as [|? ? S1 S2]; subst. unfold distance, finished.
  assert (sum x_spec (w_olds w) = 0 <-> Forall (fun x => x_spec x = 0) (w_olds w)) as E.
  { clear S S1. induction S2 as [|x l ((A & _) & _) S2 IH]; [split; [constructor|reflexivity]|].
    pose proof (shrunk_sum _ _ (shrunk_refl _ S2)) as P. unfold sum in *. cbn [fold_right]. unfold x_spec in *. split.
    - intro H. constructor; [lia|]. apply IH. lia.
    - intro H. inversion H; subst. apply IH in H3. lia. }
  pose proof (shrunk_sum _ _ (shrunk_refl _ S2)). rewrite <- E. lia.
Qed.

Lemma helped_distance : forall d s u l k w, md_strategy d = RollingUpdate s u -> good_budget s -> good_budget u -> 0 <= md_replicas d ->
  sane w -> always d possible w l -> helped d k w l -> distance d (run d w l) <= Z.max 0 (distance d w - Z.of_nat k).
Proof.
  intros d s u l. induction l as [|o l IH]; intros k w Hd Gs Gu HR Hs Ha Hh.
  - destruct k; [|contradiction]. cbn [run fold_left]. lia.
  - destruct Ha as (Hp & Ha). destruct (step_toward d s u w o Hd HR Hs Hp) as (A & B). apply toward_distance in B.
    cbn [run fold_left]. fold (run d (step d w o) l). pose proof (distance_nonneg d _ A) as N.
    destruct k as [|k].
    + assert (distance d (run d (step d w o) l) <= distance d (step d w o)) as L.
      { apply toward_distance. eapply run_toward; eassumption. }
      lia.
    + cbn [helped] in Hh. destruct Hh as [(H1 & H2)|H2].
      * pose proof (helpful_step d s u w o Hd Gs Gu HR Hs H1) as P.
        pose proof (IH k _ Hd Gs Gu HR A Ha H2). lia.
      * pose proof (IH (S k) _ Hd Gs Gu HR A Ha H2). lia.
Qed.

(** *** The number of machines *)
Definition room (w : World) : Z := sum (fun x => Z.max (x_have x) (x_spec x)) (sets w).
Lemma sum_le2 : forall A (R : A -> A -> Prop) (f : A -> Z) l m, (forall a b, R a b -> f a <= f b) -> Forall2 R l m -> sum f l <= sum f m.
Proof. intros A R f l m H F. induction F as [|a b l m Hab F IH]; unfold sum in *; cbn [fold_right]; [lia|]. specialize (H a b Hab). lia. Qed.
Lemma sum_map_le : forall A (f : A -> Z) g l, (forall a, In a l -> f (g a) <= f a) -> sum f (map g l) <= sum f l.
Proof.
  intros A f g l H. induction l as [|a l IH]; unfold sum in *; cbn [map fold_right]; [lia|].
  pose proof (H a (or_introl eq_refl)). assert (forall b, In b l -> f (g b) <= f b) as H' by (intros; apply H; right; assumption).
  specialize (IH H'). lia.
Qed.

Lemma room_step : forall d s u surge w o, md_strategy d = RollingUpdate s u -> is_surge s (md_replicas d) surge -> 0 <= md_replicas d ->
  sane w -> possible w o -> sees_machines w o -> room (step d w o) <= Z.max (room w) (md_replicas d + surge).
Proof.
  intros d s u surge w o Hd Hs HR Sw Hp Hm.
  assert (forall n f w', (forall x, sane_set x -> Z.max (x_have (f x)) (x_spec (f x)) <= Z.max (x_have x) (x_spec x)) -> sets w' = map (atSet n f) (sets w) -> room w' <= room w) as Q.
  { intros n f w' Hf E. unfold room. rewrite E. apply sum_map_le. intros x Hx. pose proof (sane_x _ _ Sw Hx) as Sx. unfold atSet. destruct (String.eqb _ n); [auto|lia]. }
  destruct o; cbn [step].
  - destruct Hm as (U & T & M). destruct (rolloutRolling (guard w api vn vo) d vn vo) as [n' o'] eqn:H.
    destruct (reconcile_shape d w api vn vo n' o' Sw Hp H) as (_ & B1 & B2 & C & _).
    destruct (reconcile_uptodate d w api vn vo n' o' Sw U H) as (E1 & E2). cbv zeta in *.
    set (w' := reconcile d w api vn vo) in *.
    destruct (rolling_new_cases _ _ _ _ _ _ H) as (G & _).
    assert (sum (fun x => Z.max (x_have x) (x_spec x)) (w_olds w') <= sum (fun x => Z.max (x_have x) (x_spec x)) (w_olds w)) as L.
    { eapply sum_le2; [|exact C]. intros a b ((_ & R1 & _) & R2 & _). unfold x_spec. lia. }
    assert (sum (fun x => Z.max (x_have x) (x_spec x)) (w_olds w) = sum ms_status vo) as L2.
    { destruct U as (_ & ->). rewrite sum_map. apply sum_eq. inversion T as [|? ? _ T2]; subst. inversion M as [|? ? _ M2]; subst.
      rewrite Forall_forall in *. intros x Hx. destruct (T2 x Hx). specialize (M2 x Hx). cbn beta in M2. lia. }
    assert (ms_status vn = x_have (w_new w) /\ ms_spec vn <= x_have (w_new w) /\ ms_spec vn = x_spec (w_new w)) as (V1 & V2 & V3).
    { destruct U as (-> & _). inversion T as [|? ? (T1 & _) _]; subst. inversion M as [|? ? M1 _]; subst. unfold x_spec in *. auto. }
    unfold room, sets, sum. cbn [fold_right]. fold (sum (fun x => Z.max (x_have x) (x_spec x)) (w_olds w')). fold (sum (fun x => Z.max (x_have x) (x_spec x)) (w_olds w)).
    rewrite B1. unfold x_spec at 1. rewrite E1, G. unfold reconcileNewMachineSet.
    assert (GetValueFromIntOrPercent s (md_replicas d) true = Some surge) as Hg.
    { destruct s as [[z|p|]|]; cbn [is_surge GetValueFromIntOrPercent] in *; try contradiction; f_equal; lia. }
    destruct (ms_spec vn =? md_replicas d) eqn:F1; [cbn [sr_ms]; lia|].
    destruct (ms_spec vn >? md_replicas d) eqn:F2.
    + unfold scaleMachineSetAndRecordEvent. rewrite F1. destruct (api_new _); cbn [sr_ms resize set_size ms_spec]; lia.
    + unfold NewISNewReplicas. rewrite Hd, Hg, count_actual, sum_app. cbv zeta.
      assert (sum ms_status [vn] = ms_status vn) as -> by (unfold sum; cbn; lia).
      destruct (_ <=? sum ms_status vo + _) eqn:F3.
      * unfold scaleMachineSetAndRecordEvent. rewrite Z.eqb_refl. cbn [sr_ms]. lia.
      * unfold scaleMachineSetAndRecordEvent. match goal with |- context [?a =? ?b] => destruct (a =? b) eqn:F4 end; [cbn [sr_ms]; lia|].
        destruct (api_new _); cbn [sr_ms resize set_size ms_spec]; lia.
  - apply Z.le_trans with (room w); [|lia]. eapply Q; [|apply onSet_sets]. intros x Sx. unfold report, x_spec. cbn. lia.
  - apply Z.le_trans with (room w); [|lia]. eapply Q; [|apply onSet_sets]. intros x Sx. unfold work, x_spec. destruct (_ <? _) eqn:E; cbn; lia.
  - apply Z.le_trans with (room w); [|lia]. eapply Q; [|apply onSet_sets]. intros x Sx. unfold ready, x_spec. destruct (_ <? _) eqn:E; cbn; lia.
  - apply Z.le_trans with (room w); [|lia]. eapply Q; [|apply onSet_sets]. intros x Sx. unfold lost, x_spec. destruct (_ <? _) eqn:E; cbn; lia.
  - apply Z.le_trans with (room w); [|lia]. eapply Q; [|apply onSet_sets]. intros x Sx. unfold gone, x_spec. destruct (_ <? _) eqn:E; cbn; lia.
Qed.

Lemma room_run : forall d s u surge l w, md_strategy d = RollingUpdate s u -> is_surge s (md_replicas d) surge -> 0 <= md_replicas d ->
  sane w -> always d possible w l -> always d sees_machines w l -> room (run d w l) <= Z.max (room w) (md_replicas d + surge).
Proof.
  intros d s u surge l. induction l as [|o l IH]; intros w Hd Hs HR Sw Hp Hm; [cbn [run fold_left]; lia|].
  destruct Hp as (Hp1 & Hp2). destruct Hm as (Hm1 & Hm2). destruct (step_toward d s u w o Hd HR Sw Hp1) as (A & _).
  pose proof (room_step d s u surge w o Hd Hs HR Sw Hp1 Hm1). pose proof (IH _ Hd Hs HR A Hp2 Hm2).
  cbn [run fold_left]. fold (run d (step d w o) l). lia.
Qed.
Lemma machines_room : forall w, machines w <= room w /\ all_requested w <= room w.
Proof. intro w. split; apply sum_le; apply Forall_forall; intros; lia. Qed.

(** *** Available machines *)
Lemma sum_map_ge : forall A (f : A -> Z) (h : A -> Z) g l, (forall a, In a l -> f a <= f (g a) + h a) -> sum f l <= sum f (map g l) + sum h l.
Proof.
  intros A f h g l H. induction l as [|a l IH]; unfold sum in *; cbn [map fold_right]; [lia|].
  pose proof (H a (or_introl eq_refl)). assert (forall b, In b l -> f b <= f (g b) + h b) as H' by (intros; apply H; right; assumption).
  specialize (IH H'). lia.
Qed.
Lemma sum_zero : forall A (l : list A), sum (fun _ => 0) l = 0.
Proof. intros A l. induction l; unfold sum in *; cbn [fold_right]; lia. Qed.

Lemma kept_step : forall d s u surge unavail w o, md_strategy d = RollingUpdate s u -> good_budget s -> good_budget u -> 0 < md_replicas d ->
  is_budget s u (md_replicas d) surge unavail -> sane w -> possible w o -> sees_available w o ->
  Z.min (md_replicas d - unavail) (all_kept w) <= all_kept (step d w o) + (w_lost (step d w o) - w_lost w) /\ w_lost w <= w_lost (step d w o).
Proof.
  intros d s u surge unavail w o Hd Gs Gu HR HB Sw Hp Hm.
  destruct (is_budget_fun _ _ _ _ _ Hd Gs Gu HR HB) as (-> & ->).
  destruct (budget_props d s u Hd Gs Gu HR) as (_ & P1 & P2 & P3).
  assert (forall n f h w', (forall x, sane_set x -> ms_name (x_set x) = n -> x_kept x <= x_kept (f x) + h x) -> (forall x, 0 <= h x) -> sets w' = map (atSet n f) (sets w) -> all_kept w <= all_kept w' + sum (fun x => if String.eqb (ms_name (x_set x)) n then h x else 0) (sets w)) as Q.
  { intros n f h w' Hf Hh E. unfold all_kept. rewrite E. apply sum_map_ge. intros x Hx. pose proof (sane_x _ _ Sw Hx) as Sx. unfold atSet.
    destruct (String.eqb _ n) eqn:En; [apply String.eqb_eq in En; auto|lia]. }
  assert (forall n f w', (forall x, sane_set x -> x_kept x <= x_kept (f x)) -> sets w' = map (atSet n f) (sets w) -> all_kept w <= all_kept w') as Q0.
  { intros n f w' Hf E. pose proof (Q n f (fun _ => 0) w') as Q'. cbv beta in Q'.
    assert (sum (fun x => if String.eqb (ms_name (x_set x)) n then 0 else 0) (sets w) = 0) as Z0.
    { transitivity (sum (fun _ : XSet => 0) (sets w)); [|apply sum_zero]. apply sum_eq. apply Forall_forall. intros x _. destruct (String.eqb _ n); reflexivity. }
    rewrite Z0 in Q'. assert (all_kept w <= all_kept w' + 0); [|lia]. apply Q'; [|lia|exact E]. intros x Sx _. specialize (Hf x Sx). lia. }
  destruct o; cbn [step].
  - destruct Hm as (U & T & M). destruct (rolloutRolling (guard w api vn vo) d vn vo) as [n' o'] eqn:H.
    destruct (reconcile_shape d w api vn vo n' o' Sw Hp H) as (_ & B1 & B2 & C & D).
    destruct (reconcile_uptodate d w api vn vo n' o' Sw U H) as (E1 & E2). cbv zeta in *.
    set (w' := reconcile d w api vn vo) in *. rewrite D.
    pose proof (Forall_inv T) as T1. pose proof (Forall_inv_tail T) as T2. pose proof (Forall_inv M) as M1. pose proof (Forall_inv_tail M) as M2.
    cbn beta in T1, M1. pose proof (sane_x _ _ Sw (or_introl eq_refl)) as ((Sn1 & Sn2 & Sn3) & Sn4).
    assert (Forall sane_set (w_olds w)) as So by (destruct Sw as (_ & F); exact (Forall_inv_tail F)).
    assert (vn = x_set (w_new w)) as Vn by apply U. assert (vo = map x_set (w_olds w)) as Vo by apply U.
    assert (Forall (fun s => 0 <= ms_avail s <= ms_spec s) vo) as Ho.
    { rewrite Vo. apply Forall_forall. intros y Hy. apply in_map_iff in Hy. destruct Hy as (x & <- & Hx). rewrite Forall_forall in *.
      destruct (T2 x Hx) as (_ & ->). specialize (M2 x Hx). specialize (So x Hx). destruct So as (_ & So). unfold x_spec in M2. lia. }
    assert (nonneg_specs vo) as Hn by (eapply Forall_impl; [|exact Ho]; cbn; intros; lia).
    destruct (rolling_floor _ _ _ _ _ _ Hn Ho H) as (_ & S & F).
    destruct (rolling_new_cases _ _ _ _ _ _ H) as (G & G').
    pose proof (reconcile_new_bounds (api_new (guard w api vn vo)) d (vo ++ [vn]) vn ltac:(left; eauto)) as (I & J). cbv zeta in I, J. rewrite <- G in I, J.
    assert (sum x_kept (w_olds w') = sum kept o') as K1.
    { rewrite <- (sum_perm _ kept _ _ E2), sum_map. clear -C T2. induction C as [|a b l m (((_ & _ & _ & A1 & _) & _) & _ & A2) C IH]; [reflexivity|].
      inversion T2 as [|? ? (_ & T3) T4]; subst. unfold sum in *. cbn [fold_right]. rewrite (IH T4). unfold x_kept, kept, x_spec. rewrite A1, A2, T3. reflexivity. }
    assert (sum x_kept (w_olds w) = sum kept vo /\ sum kept vo = available vo) as (K2 & K3).
    { split.
      - rewrite Vo, sum_map. apply sum_eq. eapply Forall_impl; [|exact T2]. cbn beta. intros x (_ & A). unfold x_kept, kept, x_spec. rewrite A. reflexivity.
      - apply sum_eq. eapply Forall_impl; [|exact Ho]. unfold kept. cbn beta. intros; lia. }
    assert (0 <= sum kept o') as K4.
    { rewrite <- K1. apply sum_nonneg. pose proof (heirs_sane _ _ C So) as (S' & _). eapply Forall_impl; [|exact S']. intros x ((X1 & X2 & X3) & X4). unfold x_kept, x_spec. lia. }
    assert (ms_avail n' = ms_avail vn) as Av by apply S.
    assert (ms_avail vn = x_up (w_new w)) as Av2 by (rewrite Vn; apply T1).
    unfold all_kept, sets, sum. cbn [fold_right]. fold (sum x_kept (w_olds w')). fold (sum x_kept (w_olds w)).
    rewrite K1, K2, K3. unfold x_kept. rewrite B2. unfold x_spec in *. rewrite E1. rewrite <- Vn in *. split; [|lia].
    destruct G' as [->|G']; [lia|]. rewrite G' in *. lia.
  - rewrite Z.sub_diag. split; [|cbn; lia]. apply Z.le_trans with (all_kept w); [lia|]. rewrite Z.add_0_r. eapply Q0; [|apply onSet_sets]. intros x Sx. unfold report, x_kept, x_spec. cbn. lia.
  - rewrite Z.sub_diag. split; [|cbn; lia]. apply Z.le_trans with (all_kept w); [lia|]. rewrite Z.add_0_r. eapply Q0; [|apply onSet_sets]. intros x Sx. unfold work, x_kept, x_spec. destruct (_ <? _) eqn:E; cbn; lia.
  - rewrite Z.sub_diag. split; [|cbn; lia]. apply Z.le_trans with (all_kept w); [lia|]. rewrite Z.add_0_r. eapply Q0; [|apply onSet_sets]. intros x Sx. unfold ready, x_kept, x_spec. destruct (_ <? _) eqn:E; cbn; lia.
  - assert (losses name w = sum (fun x => if String.eqb (ms_name (x_set x)) name then (if 0 <? x_up x then 1 else 0) else 0) (sets w)) as EL.
    { unfold losses, sets, sum. induction (w_new w :: w_olds w) as [|x l IH]; [reflexivity|]. cbn [fold_right]. rewrite IH. destruct (String.eqb _ name); reflexivity. }
    cbn [w_lost]. assert (0 <= losses name w) as L0.
    { rewrite EL. apply sum_nonneg. apply Forall_forall. intros x _. destruct (String.eqb _ name); [destruct (_ <? _)|]; lia. }
    split; [|lia]. apply Z.le_trans with (all_kept w); [lia|].
    replace (w_lost w + losses name w - w_lost w) with (losses name w) by lia. rewrite EL.
    eapply Q with (f := lost); [| |reflexivity].
    + intros x ((X1 & X2 & X3) & X4) _. unfold lost, x_kept, x_spec. destruct (_ <? _) eqn:E; cbn; lia.
    + intro x. destruct (_ <? _); lia.
  - rewrite Z.sub_diag. split; [|cbn; lia]. apply Z.le_trans with (all_kept w); [lia|]. rewrite Z.add_0_r. eapply Q0; [|apply onSet_sets]. intros x Sx. unfold gone, x_kept, x_spec. destruct (_ <? _) eqn:E; cbn; lia.
Qed.

Lemma kept_run : forall d s u surge unavail l w, md_strategy d = RollingUpdate s u -> good_budget s -> good_budget u -> 0 < md_replicas d ->
  is_budget s u (md_replicas d) surge unavail -> sane w -> always d possible w l -> always d sees_available w l ->
  Z.min (md_replicas d - unavail) (all_kept w) <= all_kept (run d w l) + (w_lost (run d w l) - w_lost w) /\ w_lost w <= w_lost (run d w l).
Proof.
  intros d s u surge unavail l. induction l as [|o l IH]; intros w Hd Gs Gu HR HB Sw Hp Hm; [cbn [run fold_left]; lia|].
  destruct Hp as (Hp1 & Hp2). destruct Hm as (Hm1 & Hm2). destruct (step_toward d s u w o Hd ltac:(lia) Sw Hp1) as (A & _).
  pose proof (kept_step d s u surge unavail w o Hd Gs Gu HR HB Sw Hp1 Hm1). pose proof (IH _ Hd Gs Gu HR HB A Hp2 Hm2).
  cbn [run fold_left]. fold (run d (step d w o) l). lia.
Qed.
Lemma kept_up : forall w, all_kept w <= all_up w.
Proof. intro w. apply sum_le. apply Forall_forall. intros x _. unfold x_kept. lia. Qed.

(** *** From every state the end can be reached *)
Lemma run_app : forall d w l m, run d w (l ++ m) = run d (run d w l) m.
Proof. intros. unfold run. apply fold_left_app. Qed.
Lemma always_app : forall d P l w m, always d P w l -> always d P (run d w l) m -> always d P w (l ++ m).
Proof.
  intros d P l. induction l as [|o l IH]; intros w m A B; [exact B|]. destruct A as (A1 & A2). cbn [app always]. split; [exact A1|]. apply IH; [exact A2|exact B].
Qed.
Lemma onSet_comp : forall n f g w, (forall x, ms_name (x_set (f x)) = ms_name (x_set x)) -> onSet n g (onSet n f w) = onSet n (fun x => g (f x)) w.
Proof.
  intros n f g w H.
  assert (E : forall x, atSet n g (atSet n f x) = atSet n (fun x => g (f x)) x).
  { intro x. unfold atSet. destruct (String.eqb (ms_name (x_set x)) n) eqn:E; [rewrite H, E; reflexivity|rewrite E; reflexivity]. }
  unfold onSet. cbn [w_new w_olds w_lost]. rewrite map_map. f_equal; [exact (E (w_new w))|]. apply map_ext. exact E.
Qed.
Lemma work_name : forall k x, ms_name (x_set (work k x)) = ms_name (x_set x).
Proof. intros. unfold work. destruct (_ <? _); reflexivity. Qed.
Lemma ready_set : forall k x, x_set (Nat.iter k ready x) = x_set x.
Proof. intros k x. induction k as [|k IH]; [reflexivity|]. cbn [Nat.iter nat_rect]. unfold ready at 1. destruct (_ <? _); exact IH. Qed.
Lemma run_ready : forall d n k w, run d w (repeat (Ready n) k) = onSet n (Nat.iter k ready) w.
Proof.
  intros d n k. induction k as [|k IH]; intros w.
  - cbn [repeat run fold_left]. unfold onSet. destruct w as [a b c]. cbn [w_new w_olds w_lost Nat.iter nat_rect].
    assert (E : forall x, (if String.eqb (ms_name (x_set x)) n then x else x) = x) by (intro; destruct (String.eqb _ n); reflexivity).
    rewrite E. f_equal. symmetry. rewrite (map_ext _ (fun x => x) E). apply map_id.
  - cbn [repeat]. rewrite repeat_cons, run_app, IH. cbn [run fold_left step].
    rewrite onSet_comp; [reflexivity|]. intro x. rewrite ready_set. reflexivity.
Qed.
Lemma ready_many : forall k s h u, u <= h -> Nat.iter k ready (mkX s h u) = mkX s h (Z.min h (u + Z.of_nat k)).
Proof.
  intros k s h u H. induction k as [|k IH]; [cbn [Nat.iter nat_rect]; f_equal; lia|]. cbn [Nat.iter nat_rect].
  change (nat_rect (fun _ => XSet) (mkX s h u) (fun _ => ready) k) with (Nat.iter k ready (mkX s h u)). rewrite IH. unfold ready. cbn [x_up x_have x_set].
  destruct (Z.min h (u + Z.of_nat k) <? h) eqn:E; f_equal; lia.
Qed.
Lemma work_enough : forall k x, sane_set x -> (Z.to_nat (Z.abs (x_have x) + Z.abs (x_spec x)) <= k)%nat -> work k x = mkX (x_set x) (x_spec x) (Z.min (x_up x) (x_spec x)).
Proof.
  intros k x ((A & _) & B) K. unfold work, x_spec in *. destruct (x_have x <? ms_spec (x_set x)) eqn:E; f_equal; lia.
Qed.

(* The status tells that the set is complete; that of the new one also that it is available. *)
Definition calm (isnew : bool) (x : XSet) : Prop :=
  ms_status (x_set x) = x_spec x /\ ms_avail (x_set x) <= x_spec x /\ (isnew = true -> ms_avail (x_set x) = x_spec x).

Lemma settle_one : forall d w n, sane w -> exists l f, always d ordinary w l /\ quiet f /\ run d w l = onSet n f w /\
  (forall x, In x (sets w) -> ms_name (x_set x) = n -> calm (String.eqb n (ms_name (x_set (w_new w)))) (f x)).
Proof.
  intros d w n Sw.
  destruct (find (fun x => String.eqb (ms_name (x_set x)) n) (sets w)) as [x|] eqn:F.
  - apply find_some in F. destruct F as (Hx & En). apply String.eqb_eq in En.
    pose proof (sane_x w x Sw Hx) as Sx. pose proof Sx as ((A & _) & B). fold (x_spec x) in A.
    assert (U : forall y, In y (sets w) -> ms_name (x_set y) = n -> y = x).
    { intros y Hy Ny. destruct Sw as (ND & _). unfold x_names in ND. rewrite stored_sets, map_map in ND.
      clear -ND Hx Hy Ny En. induction (sets w) as [|z l IH]; [destruct Hx|]. cbn [map] in ND. inversion ND as [|? ? N1 N2]; subst.
      destruct Hx as [->|Hx]; destruct Hy as [->|Hy]; auto.
      - exfalso. apply N1. rewrite <- Ny. apply (in_map (fun z => ms_name (x_set z))). exact Hy.
      - exfalso. apply N1. rewrite Ny. apply (in_map (fun z => ms_name (x_set z))). exact Hx. }
    remember (String.eqb n (ms_name (x_set (w_new w)))) as isnew eqn:Ei.
    remember (Z.to_nat (Z.abs (x_have x) + Z.abs (x_spec x))) as K eqn:EK.
    remember (if isnew then K else 0%nat) as K2 eqn:EK2.
    remember (Z.min (x_spec x) (Z.min (x_up x) (x_spec x) + Z.of_nat K2)) as up eqn:Eu.
    remember (fun y => Nat.iter K2 ready (work K y)) as g eqn:Eg.
    assert (Gx : g x = mkX (x_set x) (x_spec x) up).
    { subst g. cbv beta. rewrite work_enough by (subst K; auto; lia). rewrite ready_many by lia. subst up. reflexivity. }
    assert (Hw1 : run d w (Work n K :: repeat (Ready n) K2) = onSet n g w).
    { change (Work n K :: repeat (Ready n) K2) with ([Work n K] ++ repeat (Ready n) K2). rewrite run_app, run_ready. cbn [run fold_left step].
      rewrite onSet_comp by (intro; apply work_name). subst g. reflexivity. }
    exists ((Work n K :: repeat (Ready n) K2) ++ [Report n (x_spec x) up]), (fun y => report (x_spec x) up (g y)).
    assert (Qg : quiet g).
    { subst g. intros y Sy. destruct (quiet_work K y Sy) as (Q1 & Q2 & Q3). clear -Q1 Q2 Q3.
      induction K2 as [|k IH]; [auto|]. cbn [Nat.iter nat_rect]. destruct IH as (I1 & I2 & I3). destruct (quiet_ready _ I3) as (R1 & R2 & R3).
      split; [exact (eq_trans R1 I1)|]. split; [exact (eq_trans R2 I2)|exact R3]. }
    assert (Gn : forall y, ms_name (x_set (g y)) = ms_name (x_set y)).
    { intro y. subst g. cbv beta. rewrite ready_set. apply work_name. }
    split; [|split; [|split]].
    + apply always_app.
      * cbn [always]. split; [exact I|]. 
        assert (Nn : K2 <> 0%nat -> n = ms_name (x_set (w_new w))).
        { intro H. subst K2. destruct isnew; [|congruence]. symmetry in Ei. apply String.eqb_eq in Ei. exact Ei. }
        assert (R : forall k v, (k <> 0%nat -> n = ms_name (x_set (w_new v))) -> always d ordinary v (repeat (Ready n) k)).
        { clear. induction k as [|k IH]; intros v H; [exact I|]. cbn [repeat always]. split; [apply H; discriminate|]. apply IH. intros _. cbn [step].
          assert (H' : n = ms_name (x_set (w_new v))) by (apply H; discriminate). unfold onSet. cbn [w_new].
          destruct (String.eqb (ms_name (x_set (w_new v))) n); [|exact H']. rewrite H'. unfold ready. destruct (_ <? _); reflexivity. }
        apply R. intro H. specialize (Nn H). cbn [step]. unfold onSet. cbn [w_new].
        destruct (String.eqb (ms_name (x_set (w_new w))) n); [rewrite work_name; exact Nn|exact Nn].
      * rewrite Hw1. cbn [always]. split; [|exact I]. cbn [ordinary]. exists (g x). split; [|split; [|split]].
        -- rewrite onSet_sets. replace (g x) with (atSet n g x); [apply in_map; exact Hx|]. unfold atSet. rewrite En, String.eqb_refl. reflexivity.
        -- rewrite Gn. exact En.
        -- rewrite Gx. reflexivity.
        -- rewrite Gx. reflexivity.
    + intros y Sy. destruct (Qg y Sy) as (Q1 & Q2 & Q3). destruct (quiet_report (x_spec x) up A ltac:(subst up; lia) _ Q3) as (R1 & R2 & R3).
      split; [exact (eq_trans R1 Q1)|]. split; [exact (eq_trans R2 Q2)|exact R3].
    + rewrite run_app, Hw1. cbn [run fold_left step]. rewrite onSet_comp by exact Gn. reflexivity.
    + intros y Hy Ny. rewrite (U y Hy Ny). cbv beta. rewrite Gx. unfold calm, report, x_spec. cbn [x_set ms_status ms_avail ms_spec]. fold (x_spec x).
      split; [reflexivity|]. split; [subst up; lia|]. intro T. subst up K2. rewrite T. lia.
  - exists [], (fun y => y). split; [exact I|]. split; [intros y Sy; auto|]. split.
    + cbn [run fold_left]. rewrite <- (run_ready d n 0). reflexivity.
    + intros x Hx Nx. exfalso. apply (find_none _ _ F) in Hx. rewrite Nx, String.eqb_refl in Hx. discriminate.
Qed.

Lemma settle_all : forall d names w, sane w -> exists l, always d ordinary w l /\ sane (run d w l) /\ distance d (run d w l) = distance d w /\
  x_names (run d w l) = x_names w /\ ms_name (x_set (w_new (run d w l))) = ms_name (x_set (w_new w)) /\
  (forall x, In x (sets (run d w l)) -> In (ms_name (x_set x)) names -> calm (String.eqb (ms_name (x_set x)) (ms_name (x_set (w_new w)))) x).
Proof.
  intros d names. induction names as [|n names IH]; intros w Sw.
  - exists []. cbn [run fold_left always]. split; [exact I|]. split; [exact Sw|]. split; [reflexivity|]. split; [reflexivity|]. split; [reflexivity|]. intros x _ [].
  - destruct (IH w Sw) as (l & A & S & D & N & Nn & C). destruct (settle_one d (run d w l) n S) as (m & f & A' & Q & E & C').
    exists (l ++ m). rewrite run_app. split; [apply always_app; assumption|].
    destruct (quiet_step d n f (run d w l) (run d (run d w l) m) S Q ltac:(rewrite E; reflexivity)) as (S' & T').
    split; [exact S'|].
    assert (Sp : Forall2 (fun a b => ms_name (x_set a) = ms_name (x_set b) /\ x_spec a = x_spec b) (sets (run d (run d w l) m)) (sets (run d w l))).
    { rewrite E, onSet_sets. destruct S as (_ & S). clear -S Q. induction S as [|x k Hx S IHS]; [constructor|]. cbn [map]. constructor; [|exact IHS].
      destruct (quiet_at n f Q x Hx) as (Q1 & Q2 & _). auto. }
    unfold sets in Sp. inversion Sp as [|? ? ? ? (P1 & P2) P3]; subst.
    split; [|split; [|split]].
    + rewrite <- D. unfold distance. rewrite P2. f_equal. clear -P3. induction P3 as [|? ? ? ? (_ & H) P3 IHP]; [reflexivity|]. unfold sum in *. cbn [fold_right]. lia.
    + rewrite <- N. unfold x_names, stored. cbn [map]. f_equal; [exact P1|]. clear -P3. induction P3 as [|? ? ? ? (H & _) P3 IHP]; [reflexivity|]. cbn [map]. congruence.
    + congruence.
    + intros x Hx Hin. rewrite E, onSet_sets in Hx. apply in_map_iff in Hx. destruct Hx as (y & <- & Hy). unfold atSet in *.
      destruct (String.eqb (ms_name (x_set y)) n) eqn:Ey.
      * apply String.eqb_eq in Ey. pose proof (C' y Hy Ey) as G. pose proof (Q y (sane_x _ _ S Hy)) as (Q1 & _). rewrite Q1, Ey, <- Nn. exact G.
      * destruct Hin as [H|H]; [subst; rewrite String.eqb_refl in Ey; discriminate|]. apply C; assumption.
Qed.

Lemma ordinary_possible : forall w o, sane w -> ordinary w o -> possible w o.
Proof.
  intros w o S H. destruct o; cbn [ordinary possible] in *; auto.
  - apply (uptodate_possible w api vn vo S). apply H.
  - destruct H as (x & Hx & _ & -> & ->). pose proof (sane_x w x S Hx) as (_ & B). lia.
Qed.
Lemma ordinary_always : forall d s u l w, md_strategy d = RollingUpdate s u -> 0 <= md_replicas d -> sane w -> always d ordinary w l -> always d possible w l.
Proof.
  intros d s u l. induction l as [|o l IH]; intros w Hd HR S A; [exact I|]. destruct A as (A1 & A2). pose proof (ordinary_possible w o S A1) as P.
  split; [exact P|]. apply IH; auto. exact (proj1 (step_toward d s u w o Hd HR S P)).
Qed.

Lemma never_stuck : forall d s u k w, md_strategy d = RollingUpdate s u -> good_budget s -> good_budget u -> 0 <= md_replicas d -> sane w ->
  distance d w <= Z.of_nat k -> exists l, always d ordinary w l /\ finished d (run d w l).
Proof.
  intros d s u k. induction k as [|k IH]; intros w Hd Gs Gu HR S K.
  - exists []. split; [exact I|]. apply distance_finished; [exact S|]. pose proof (distance_nonneg d w S). cbn [run fold_left]. lia.
  - destruct (settle_all d (x_names w) w S) as (l & A & S1 & D & N & Nn & C).
    remember (run d w l) as w1 eqn:E1.
    remember (Reconcile (mkApi true (fun _ => true) (fun _ => true)) (x_set (w_new w1)) (map x_set (w_olds w1))) as o eqn:Eo.
    assert (O : ordinary w1 o) by (subst o; cbn; repeat split; reflexivity).
    assert (CC : forall x, In x (sets w1) -> calm (String.eqb (ms_name (x_set x)) (ms_name (x_set (w_new w)))) x).
    { intros x Hx. apply C; [exact Hx|]. rewrite <- N. unfold x_names. rewrite stored_sets. apply in_map, in_map. exact Hx. }
    assert (H : helpful w1 o).
    { subst o. cbn [helpful api_new api_clean api_down]. split; [split; reflexivity|]. split; [reflexivity|]. split; [reflexivity|]. split; [reflexivity|]. split.
      - destruct (CC (w_new w1) ltac:(left; reflexivity)) as (C1 & _ & C3). split; [exact C1|]. apply C3. rewrite Nn. apply String.eqb_refl.
      - rewrite Forall_map, Forall_forall. intros x Hx. destruct (CC x ltac:(right; exact Hx)) as (C1 & C2 & _). auto. }
    pose proof (helpful_step d s u w1 o Hd Gs Gu HR S1 H) as P.
    pose proof (ordinary_possible w1 o S1 O) as Po. destruct (step_toward d s u w1 o Hd HR S1 Po) as (S2 & T2). apply toward_distance in T2.
    assert (K2 : distance d (step d w1 o) <= Z.of_nat k) by lia.
    destruct (IH (step d w1 o) Hd Gs Gu HR S2 K2) as (m & A2 & F).
    exists (l ++ o :: m). split.
    + apply always_app; [exact A|]. rewrite <- E1. cbn [always]. auto.
    + rewrite run_app, <- E1. exact F.
Qed.
