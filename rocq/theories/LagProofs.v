(** Proofs for C103. *)
Require Import Coq.ZArith.ZArith Coq.Lists.List Coq.Strings.String Coq.Bool.Bool Coq.Sorting.Permutation Coq.micromega.Lia Coq.micromega.ZifyBool.
From Verif Require Import MSetModel MSetSpec MSetProofs LagModel LagSpec.
Import ListNotations.
Open Scope string_scope.
Open Scope list_scope.
Open Scope Z_scope.

(** Counting. *)
Lemma count_perm : forall f a b, Permutation a b -> count f a = count f b.
Proof.
  intros f a b H. unfold count. induction H; simpl; auto.
  - destruct (f x); simpl; auto.
  - destruct (f x), (f y); reflexivity.
  - congruence.
Qed.
Lemma count_app : forall f a b, count f (a ++ b) = (count f a + count f b)%nat.
Proof. intros. unfold count. rewrite filter_app, app_length. reflexivity. Qed.
Lemma nserving_count : forall l, nserving l = Z.of_nat (count servingb l).
Proof. reflexivity. Qed.
Lemma nkept_count : forall l, nkept l = Z.of_nat (count keptb l).
Proof. reflexivity. Qed.
Lemma count_split : forall l, (count keptb l + count goingb l = count servingb l)%nat.
Proof.
  unfold count. induction l as [|m l IH]; [reflexivity|]. simpl. assert (H : keptb m = servingb m && negb (m_deleting m)) by reflexivity. assert (G : goingb m = servingb m && m_deleting m) by reflexivity.
  rewrite H, G. destruct (servingb m), (m_deleting m); simpl; lia.
Qed.

Lemma kept_served : forall l, filter keptb (filter servingb l) = filter keptb l.
Proof.
  induction l as [|m l IH]; [reflexivity|]. simpl. assert (H : keptb m = servingb m && negb (m_deleting m)) by reflexivity. rewrite H.
  destruct (servingb m) eqn:E; simpl; [|exact IH]. rewrite H, ?E. simpl. destruct (negb (m_deleting m)); congruence.
Qed.
Lemma going_served : forall l, filter goingb (filter servingb l) = filter goingb l.
Proof.
  induction l as [|m l IH]; [reflexivity|]. simpl. assert (H : goingb m = servingb m && m_deleting m) by reflexivity. rewrite H.
  destruct (servingb m) eqn:E; simpl; [|exact IH]. rewrite H, ?E. simpl. destruct (m_deleting m); congruence.
Qed.

Lemma edit_id : forall o m, m_id (edit o m) = m_id m.
Proof. intros o m. destruct o; reflexivity. Qed.
Lemma edited_ids : forall o l, map m_id (edited o l) = map m_id l.
Proof. intros o l. unfold edited. rewrite map_map. apply map_ext. intro m. destruct (about o m); [apply edit_id|reflexivity]. Qed.

Lemma edited_serving : forall o l, (count servingb (edited o l) <= count servingb l + count (regains o) l)%nat.
Proof.
  intros o l. unfold count. induction l as [|m l IH]; [simpl; lia|]. simpl. unfold regains at 1.
  destruct (about o m); simpl.
  - destruct (servingb m), (servingb (edit o m)); simpl; lia.
  - destruct (servingb m); simpl; lia.
Qed.
Lemma edited_kept : forall o l, (count keptb l <= count keptb (edited o l) + count (loses o) l)%nat.
Proof.
  intros o l. unfold count. induction l as [|m l IH]; [simpl; lia|]. simpl. unfold loses at 1.
  destruct (about o m); simpl.
  - destruct (keptb m), (keptb (edit o m)), (goingb m), (goingb (edit o m)); simpl; lia.
  - destruct (keptb m); simpl; lia.
Qed.
Lemma edited_going : forall o l, (count goingb (edited o l) <= count goingb l + count (loses o) l)%nat.
Proof.
  intros o l. unfold count. induction l as [|m l IH]; [simpl; lia|]. simpl. unfold loses at 1.
  destruct (about o m); simpl.
  - destruct (keptb m), (keptb (edit o m)), (goingb m), (goingb (edit o m)); simpl; lia.
  - destruct (goingb m); simpl; lia.
Qed.

Lemma gone_le : forall f id l, (count f (filter (fun m => negb (Nat.eqb (m_id m) id && m_deleting m)) l) <= count f l)%nat.
Proof. intros f id l. unfold count. induction l as [|m l IH]; [simpl; lia|]. simpl. destruct (negb _); simpl; destruct (f m); simpl; lia. Qed.
Lemma gone_kept : forall id l, count keptb (filter (fun m => negb (Nat.eqb (m_id m) id && m_deleting m)) l) = count keptb l.
Proof.
  intros id l. unfold count. induction l as [|m l IH]; [reflexivity|]. simpl. destruct (Nat.eqb (m_id m) id); simpl.
  - unfold keptb at 2. destruct (m_deleting m) eqn:E; simpl; [rewrite andb_false_r; exact IH|]. unfold keptb at 1. rewrite E. destruct (servingb m); simpl; lia.
  - destruct (keptb m); simpl; lia.
Qed.

(** A reconcile creates at most what its view misses. *)
Lemma reconcile_up : forall api now w,
  nserving (w_machines (reconcileMachineSet api now w)) <= nserving (w_machines w) + Z.max 0 (Z.min (w_spec w - nserving (w_cache w)) 100).
Proof.
  intros api now w. destruct (slowStartBatch (pl_create (planned w)) 1 (a_create api)) as [[c s] e] eqn:E.
  rewrite (reconcile_eq api now w c s e E). cbn [w_machines]. unfold nserving in *. rewrite filter_app, app_length.
  destruct (created_serving now s (w_next w)) as (-> & ->).
  pose proof (filter_map_le (targeted api w) (w_machines w) (fun m _ => targeted_serving api w m)) as HL.
  apply slow_start in E. destruct E as (A & B & C & _). pose proof (nsucc_le (a_create api) c 0) as HN.
  pose proof (plan_create (w_spec w) (w_frozen w) (w_cache w)) as HP. fold (planned w) in HP. unfold nserving in HP.
  destruct (w_frozen w); lia.
Qed.

(** The upper bound. [B]: bound before regained machines. *)
Definition upper (c B : Z) (lo hi : Z) (l : LW) : Prop :=
  lo <= w_spec (l_w l) <= hi /\
  Z.of_nat (l_seen l) <= Z.of_nat (l_done l) /\
  (exists s, In s (l_hist l) /\ Permutation (w_cache (l_w l)) (s_ms s) /\ s_done s = l_seen l) /\
  nserving (w_machines (l_w l)) <= B + Z.of_nat (l_got l) /\
  (forall s, In s (l_hist l) -> (s_done s <= l_done l)%nat /\ (s_got s <= l_got l)%nat /\
     nserving (w_machines (l_w l)) <= nserving (s_ms s) + Z.of_nat (l_done l - s_done s) * c + Z.of_nat (l_got l - s_got s)).

Lemma upper_outside : forall c B lo hi l w x y, upper c B lo hi l -> w_cache w = w_cache (l_w l) -> lo <= w_spec w <= hi ->
  nserving (w_machines w) <= nserving (w_machines (l_w l)) + Z.of_nat y -> upper c B lo hi (outside l w x y).
Proof.
  intros c B lo hi l w x y (A & S & (s & Hs & Hp & Hd) & N & H) Ec Hw Hn. unfold upper, outside. cbn [l_w l_seen l_done l_hist l_got].
  split; [exact Hw|]. split; [exact S|]. split; [exists s; split; [right; exact Hs|]; rewrite Ec; auto|]. split; [lia|].
  intros t [<-|Ht]; cbn [s_done s_got s_ms]; [split; [lia|]; split; lia|].
  destruct (H t Ht) as (H1 & H2 & H3). split; [exact H1|]. split; lia.
Qed.

Lemma upper_step : forall k N B lo l o, (1 <= k)%nat -> 0 <= lo -> N + (Z.of_nat k - 1) * Z.min N 100 <= B ->
  upper (Z.min N 100) B lo N l -> shown l o -> sized lo N o -> behind k l o -> upper (Z.min N 100) B lo N (lstep l o).
Proof.
  intros k N B lo l o Hk Hlo HB HU Hsh Hsz Hbe. destruct o as [api now|i v|n|b|id ph|id p t|id|id]; cbn [lstep].
  - destruct HU as (A & S & (s & Hs & Hp & Hd) & HN & H). unfold upper. cbn [l_w l_seen l_done l_hist l_got].
    pose proof (reconcile_up api now (l_w l)) as HR.
    assert (E : w_spec (reconcileMachineSet api now (l_w l)) = w_spec (l_w l) /\ w_cache (reconcileMachineSet api now (l_w l)) = w_cache (l_w l)).
    { unfold reconcileMachineSet. destruct (slowStartBatch _ _ _) as [[? ?] ?]. split; reflexivity. }
    destruct E as (E1 & E2). rewrite E1, E2.
    assert (Ev : nserving (w_cache (l_w l)) = nserving (s_ms s)) by (rewrite !nserving_count, (count_perm servingb _ _ Hp); reflexivity).
    assert (Hpos : 0 <= nserving (s_ms s)) by (rewrite nserving_count; lia).
    destruct (H s Hs) as (H1 & H2 & H3). cbn [behind] in Hbe. rewrite Hd in H3.
    split; [exact A|]. split; [lia|]. split; [exists s; split; [right; exact Hs|]; auto|]. split.
    + rewrite Ev in HR. destruct (Z_le_gt_dec (w_spec (l_w l)) (nserving (s_ms s))); [lia|].
      assert (Z.of_nat (l_done l - l_seen l) * Z.min N 100 <= (Z.of_nat k - 1) * Z.min N 100) by (apply Z.mul_le_mono_nonneg_r; lia). lia.
    + intros t [<-|Ht]; cbn [s_done s_got s_ms]; [split; [lia|]; split; lia|].
      destruct (H t Ht) as (K1 & K2 & K3). split; [lia|]. split; [exact K2|].
      replace (Z.of_nat (Datatypes.S (l_done l) - s_done t)) with (Z.of_nat (l_done l - s_done t) + 1) by lia.
      rewrite Z.mul_add_distr_r. rewrite Ev in HR. lia.
  - destruct Hsh as (s & Es & Hp). rewrite Es. destruct HU as (A & S & _ & HN & H). unfold upper. cbn [l_w l_seen l_done l_hist l_got w_spec w_machines w_cache].
    apply nth_error_In in Es. destruct (H s Es) as (H1 & _). split; [exact A|]. split; [lia|]. split; [exists s; auto|]. split; auto.
  - apply upper_outside; auto. cbn. lia.
  - apply upper_outside; auto; cbn; [apply HU|lia].
  - apply upper_outside; auto; cbn [w_machines w_spec]; [apply HU|]. rewrite !nserving_count. pose proof (edited_serving (LPhase id ph) (w_machines (l_w l))). lia.
  - apply upper_outside; auto; cbn [w_machines w_spec]; [apply HU|]. rewrite !nserving_count. pose proof (edited_serving (LMark id p t) (w_machines (l_w l))). lia.
  - apply upper_outside; auto; cbn [w_machines w_spec]; [apply HU|]. rewrite !nserving_count. pose proof (edited_serving (LDelete id) (w_machines (l_w l))). lia.
  - apply upper_outside; auto; cbn [step w_machines w_spec]; [apply HU|]. rewrite !nserving_count. pose proof (gone_le servingb id (w_machines (l_w l))). lia.
Qed.

Lemma upper_run : forall os k N B lo l, (1 <= k)%nat -> 0 <= lo -> N + (Z.of_nat k - 1) * Z.min N 100 <= B ->
  upper (Z.min N 100) B lo N l -> each (fun l o => shown l o /\ sized lo N o /\ behind k l o) l os -> upper (Z.min N 100) B lo N (lrun l os).
Proof.
  induction os as [|o os IH]; intros k N B lo l Hk Hlo HB HU HE; [exact HU|]. destruct HE as ((H1 & H2 & H3) & HE). unfold lrun. simpl. fold (lrun (lstep l o) os).
  eapply IH; eauto. eapply upper_step; eauto.
Qed.

Lemma upper_begin : forall c B lo hi spec fr ms next, lo <= spec <= hi -> nserving ms <= B -> upper c B lo hi (begin spec fr ms next).
Proof.
  intros c B lo hi spec fr ms next H1 H2. unfold upper, begin. cbn [l_w l_seen l_done l_hist l_got w_spec w_cache w_machines].
  split; [exact H1|]. split; [lia|]. split; [exists (mkSnap ms 0 0 0); split; [left; reflexivity|]; split; [apply Permutation_refl|reflexivity]|].
  split; [lia|]. intros s [<-|[]]. cbn [s_done s_got s_ms]. split; [lia|]. split; lia.
Qed.

Lemma over : forall os k N spec fr ms next, (1 <= k)%nat -> 0 <= spec <= N ->
  each (fun l o => shown l o /\ sized 0 N o /\ behind k l o) (begin spec fr ms next) os ->
  let l := lrun (begin spec fr ms next) os in
  nserving (w_machines (l_w l)) <= Z.max (nserving ms) (N + (Z.of_nat k - 1) * Z.min N 100) + Z.of_nat (l_got l).
Proof.
  intros os k N spec fr ms next Hk Hs HE l.
  assert (U : upper (Z.min N 100) (Z.max (nserving ms) (N + (Z.of_nat k - 1) * Z.min N 100)) 0 N l).
  { apply (upper_run os k); auto; try lia. apply upper_begin; lia. }
  apply U.
Qed.

(** Well-formedness. *)
Lemma wf_lstep : forall l o, wf (l_w l) -> wf (l_w (lstep l o)).
Proof.
  intros l o H. assert (HE : forall o, wf (mkW (w_spec (l_w l)) (w_frozen (l_w l)) (edited o (w_machines (l_w l))) (w_cache (l_w l)) (w_next (l_w l)))).
  { intro o'. destruct H as (A & B). split; cbn [w_machines w_next]; [rewrite edited_ids; exact A|]. apply Forall_forall. intros m Hm.
    unfold edited in Hm. apply in_map_iff in Hm. destruct Hm as (a & <- & Ha). rewrite Forall_forall in B. specialize (B a Ha).
    destruct (about o' a); [rewrite edit_id|]; exact B. }
  destruct o as [api now|i v|n|b|id ph|id p t|id|id]; cbn [lstep].
  - apply wf_reconcile. exact H.
  - destruct (nth_error _ _); exact H.
  - exact H.
  - exact H.
  - apply HE.
  - apply HE.
  - apply HE.
  - cbn [outside l_w step]. destruct H as (A & B). split; cbn [w_machines w_next].
    + clear - A. induction (w_machines (l_w l)) as [|m ms IH]; simpl; [constructor|]. inversion A as [|? ? A1 A2]; subst. destruct (negb _); [|auto].
      simpl. constructor; [|auto]. intro X. apply A1. apply in_map_iff in X. destruct X as (x & E & Hx). apply filter_In in Hx. rewrite <- E. apply in_map. tauto.
    + apply Forall_forall. intros m Hm. apply filter_In in Hm. rewrite Forall_forall in B. apply B. tauto.
Qed.

(** The lower bound. *)
Definition there (ms : list Mach) (i : nat) : bool := existsb (fun m => Nat.eqb (m_id m) i && keptb m) ms.
Definition missing (s ms : list Mach) : nat := List.length (filter (fun m => keptb m && negb (there ms (m_id m))) s).

Lemma there_kept : forall ms i, NoDup (map m_id ms) -> forall m, In m ms -> m_id m = i -> there ms i = keptb m.
Proof.
  intros ms i HN m Hm Ei. unfold there. induction ms as [|a ms IH]; [destruct Hm|]. inversion HN as [|? ? N1 N2]; subst. simpl. destruct Hm as [->|Hm].
  - rewrite Nat.eqb_refl. simpl. destruct (keptb m); [reflexivity|]. simpl. destruct (existsb _ ms) eqn:E; [|reflexivity].
    apply existsb_exists in E. destruct E as (x & Hx & Ex). exfalso. apply N1. apply andb_prop in Ex. destruct Ex as (Ex & _). apply Nat.eqb_eq in Ex. rewrite <- Ex. apply in_map; exact Hx.
  - destruct (Nat.eqb (m_id a) (m_id m)) eqn:E; simpl; [|apply IH; auto]. exfalso. apply N1. apply Nat.eqb_eq in E. rewrite E. apply in_map; exact Hm.
Qed.

(** Names kept before but not after. *)
Lemma missing_le : forall s a b n, NoDup (map m_id s) -> (forall r, NoDup r -> (forall i, In i r -> there a i = true /\ there b i = false) -> (List.length r <= n)%nat) ->
  (missing s b <= missing s a + n)%nat.
Proof.
  intros s a b n HN H. unfold missing.
  assert (HR : forall s, (List.length (filter (fun m => keptb m && negb (there b (m_id m))) s) <=
     List.length (filter (fun m => keptb m && negb (there a (m_id m))) s) + List.length (filter (fun i => there a i && negb (there b i)) (map m_id s)))%nat).
  { induction s0 as [|m s' IH]; [simpl; lia|]. simpl. destruct (keptb m), (there a (m_id m)), (there b (m_id m)); simpl; lia. }
  specialize (HR s). specialize (H (filter (fun i => there a i && negb (there b i)) (map m_id s))). assert (NoDup (filter (fun i => there a i && negb (there b i)) (map m_id s))) as X by (apply NoDup_filter; exact HN).
  specialize (H X). assert (forall i, In i (filter (fun i => there a i && negb (there b i)) (map m_id s)) -> there a i = true /\ there b i = false) as Y.
  { intros i Hi. apply filter_In in Hi. destruct Hi as (_ & Hi). destruct (there a i), (there b i); try discriminate; auto. }
  specialize (H Y). lia.
Qed.

Lemma there_in : forall ms i, there ms i = true -> exists m, In m ms /\ m_id m = i /\ keptb m = true.
Proof. intros ms i H. apply existsb_exists in H. destruct H as (m & Hm & E). apply andb_prop in E. destruct E as (E1 & E2). apply Nat.eqb_eq in E1. exists m. auto. Qed.
Lemma in_there : forall ms m, In m ms -> keptb m = true -> there ms (m_id m) = true.
Proof. intros ms m H K. apply existsb_exists. exists m. split; [exact H|]. rewrite Nat.eqb_refl, K. reflexivity. Qed.

Lemma missing_edited : forall s o ms, NoDup (map m_id s) -> (missing s (edited o ms) <= missing s ms + count (loses o) ms)%nat.
Proof.
  intros s o ms HN. apply missing_le; [exact HN|]. intros r Hr H.
  assert (incl r (map m_id (filter (loses o) ms))) as HI.
  { intros i Hi. destruct (H i Hi) as (A & B). apply there_in in A. destruct A as (m & Hm & <- & K). apply in_map. apply filter_In. split; [exact Hm|].
    unfold loses. destruct (about o m) eqn:E; simpl.
    - rewrite K. simpl. destruct (keptb (edit o m)) eqn:K2; [|reflexivity]. exfalso.
      assert (there (edited o ms) (m_id m) = true) as X; [|congruence]. rewrite <- (edit_id o m). apply in_there; [|exact K2].
      unfold edited. apply in_map_iff. exists m. rewrite E. auto.
    - exfalso. assert (there (edited o ms) (m_id m) = true) as X; [|congruence]. apply in_there; [|exact K]. unfold edited. apply in_map_iff. exists m. rewrite E. auto. }
  apply NoDup_incl_length in HI; [|exact Hr]. rewrite map_length in HI. exact HI.
Qed.
Lemma missing_gone : forall s id ms, NoDup (map m_id s) -> (missing s (filter (fun m => negb (Nat.eqb (m_id m) id && m_deleting m)) ms) <= missing s ms)%nat.
Proof.
  intros s id ms HN. rewrite <- (Nat.add_0_r (missing s ms)). apply missing_le; [exact HN|]. intros r Hr H. destruct r as [|i r]; [simpl; lia|]. exfalso.
  destruct (H i (or_introl eq_refl)) as (A & B). apply there_in in A. destruct A as (m & Hm & <- & K).
  rewrite in_there in B; [discriminate| |exact K]. apply filter_In. split; [exact Hm|]. unfold keptb in K. destruct (m_deleting m); [rewrite andb_false_r in K; discriminate|]. rewrite andb_false_r. reflexivity.
Qed.
Lemma missing_same : forall ms, missing ms ms = 0%nat.
Proof.
  intro ms. unfold missing. assert (forall s, incl s ms -> filter (fun m => keptb m && negb (there ms (m_id m))) s = []) as H.
  { induction s as [|m s IH]; intro Hi; [reflexivity|]. simpl. rewrite IH by (intros x Hx; apply Hi; right; exact Hx).
    destruct (keptb m) eqn:K; [|reflexivity]. rewrite in_there; [reflexivity|apply Hi; left; reflexivity|exact K]. }
  rewrite H; [reflexivity|apply incl_refl].
Qed.
Lemma missing_perm : forall a b ms, Permutation a b -> missing a ms = missing b ms.
Proof. intros a b ms H. apply (count_perm (fun m => keptb m && negb (there ms (m_id m))) a b H). Qed.

Lemma created_all : forall now n from m, In m (created now from n) -> keptb m = true /\ goingb m = false.
Proof. induction n as [|n IH]; intros from m H; simpl in H; [contradiction|]. destruct H as [<-|H]; [split; reflexivity|eapply IH; eauto]. Qed.

(** A reconcile leaves the requested number of the machines its view shows. *)
Lemma reconcile_down : forall api now w, 0 <= w_spec w -> NoDup (map m_id (w_machines w)) -> NoDup (map m_id (w_cache w)) ->
  let w' := reconcileMachineSet api now w in
  Z.min (w_spec w) (nserving (w_cache w)) - Z.of_nat (count goingb (w_cache w)) - Z.of_nat (missing (w_cache w) (w_machines w)) <= nkept (w_machines w') /\
  (nserving (w_cache w) <= w_spec w -> nkept (w_cache w) - Z.of_nat (missing (w_cache w) (w_machines w)) <= nkept (w_machines w')).
Proof.
  intros api now w Hs HN HC w'. destruct (slowStartBatch (pl_create (planned w)) 1 (a_create api)) as [[c s] e] eqn:E.
  unfold w'. rewrite (reconcile_eq api now w c s e E). cbn [w_machines].
  destruct (plan_surplus (w_spec w) (w_frozen w) (w_cache w) Hs) as (rest & A & B & _). fold (planned w) in A, B.
  (* kept machines of rest that are still there *)
  assert (K : (count keptb rest <= List.length (filter keptb (map (targeted api w) (w_machines w))) + missing (w_cache w) (w_machines w))%nat).
  { assert (HP : Permutation (filter keptb (w_cache w)) (filter keptb (pl_surplus (planned w)) ++ filter keptb rest)).
    { rewrite <- filter_app, <- kept_served.
      clear - B. induction B; simpl; auto; [destruct (keptb x); auto|destruct (keptb x), (keptb y); auto; constructor|econstructor; eauto]. }
    assert (HNR : NoDup (map m_id rest)).
    { assert (NoDup (map m_id (filter servingb (w_cache w)))) as X.
      { clear - HC. induction (w_cache w) as [|m l IH]; simpl; [constructor|]. inversion HC; subst. destruct (servingb m); simpl; auto. constructor; auto.
        intro X. apply in_map_iff in X. destruct X as (x & Ex & Hx). apply filter_In in Hx. apply H1. rewrite <- Ex. apply in_map. tauto. }
      assert (NoDup (map m_id (pl_surplus (planned w) ++ rest))) as Y by (eapply Permutation_NoDup; [apply Permutation_map; exact B|exact X]).
      rewrite map_app in Y. clear - Y. induction (map m_id (pl_surplus (planned w))) as [|x l IH]; [exact Y|]. simpl in Y. inversion Y; subst. auto. }
    assert (HD : forall t m, In t (pl_stale (planned w) ++ pl_surplus (planned w)) -> In m rest -> m_id t <> m_id m).
    { intros t m Ht Hm Eq.
      assert (Hmc : In m (filter servingb (w_cache w))) by (eapply Permutation_in; [apply Permutation_sym; exact B|apply in_or_app; right; exact Hm]).
      apply filter_In in Hmc. destruct Hmc as (Hmc & Hms).
      assert (Htc : In t (w_cache w)) by (eapply plan_in_view; [exact Hs|exact Ht]).
      assert (t = m) as ->.
      { clear - HC Htc Hmc Eq. induction (w_cache w) as [|x l IH]; [destruct Htc|]. simpl in HC. inversion HC as [|? ? N1 N2]; subst.
        destruct Htc as [->|Htc], Hmc as [->|Hmc]; auto.
        - exfalso. apply N1. rewrite Eq. apply in_map; exact Hmc.
        - exfalso. apply N1. rewrite <- Eq. apply in_map; exact Htc. }
      apply in_app_or in Ht. destruct Ht as [Ht|Ht].
      - assert (In m (filter isStale (w_cache w))) as Ht' by (unfold planned, manageReplicas in Ht; destruct (_ <? 0); [exact Ht|destruct (_ >? 0); exact Ht]).
        apply filter_In in Ht'. destruct Ht' as (_ & Ht'). apply stale_not_serving in Ht'. congruence.
      - assert (NoDup (map m_id (filter servingb (w_cache w)))) as X.
        { clear - HC. induction (w_cache w) as [|x l IH]; simpl; [constructor|]. inversion HC; subst. destruct (servingb x); simpl; auto. constructor; auto.
          intro X. apply in_map_iff in X. destruct X as (y & Ey & Hy). apply filter_In in Hy. apply H1. rewrite <- Ey. apply in_map. tauto. }
        assert (NoDup (map m_id (pl_surplus (planned w) ++ rest))) as Y by (eapply Permutation_NoDup; [apply Permutation_map; exact B|exact X]).
        rewrite map_app in Y. clear - Y Ht Hm. induction (pl_surplus (planned w)) as [|x l IH]; [destruct Ht|]. simpl in Y. inversion Y; subst.
        destruct Ht as [->|Ht]; [|auto]. apply H1. apply in_or_app. right. apply in_map; exact Hm. }
    (* split rest's kept machines into those still kept and the missing ones *)
    assert (S1 : (count keptb rest <= List.length (filter (fun m => keptb m && there (w_machines w) (m_id m)) rest) + missing rest (w_machines w))%nat).
    { unfold count, missing. clear. induction rest as [|m l IH]; [simpl; lia|]. simpl. destruct (keptb m), (there _ _); simpl; lia. }
    assert (S2 : (missing rest (w_machines w) <= missing (w_cache w) (w_machines w))%nat).
    { unfold missing.
      assert (EX : forall l, filter (fun m => keptb m && negb (there (w_machines w) (m_id m))) l = filter (fun m => negb (there (w_machines w) (m_id m))) (filter keptb l)).
      { induction l as [|m l IH]; [reflexivity|]. simpl. destruct (keptb m); simpl; [destruct (negb _); simpl; congruence|exact IH]. }
      rewrite !EX. change (count (fun m => negb (there (w_machines w) (m_id m))) (filter keptb rest) <= count (fun m => negb (there (w_machines w) (m_id m))) (filter keptb (w_cache w)))%nat.
      rewrite (count_perm _ _ _ HP), count_app. lia. }
    assert (S3 : (List.length (filter (fun m => keptb m && there (w_machines w) (m_id m)) rest) <= List.length (filter keptb (map (targeted api w) (w_machines w))))%nat).
    { rewrite <- (map_length m_id (filter (fun m => keptb m && there (w_machines w) (m_id m)) rest)), <- (map_length m_id (filter keptb (map (targeted api w) (w_machines w)))).
      apply NoDup_incl_length.
      - clear - HNR. induction rest as [|x l IH]; simpl; [constructor|]. inversion HNR; subst. destruct (_ && _); simpl; auto. constructor; auto.
        intro X. apply in_map_iff in X. destruct X as (y & Ey & Hy). apply filter_In in Hy. apply H1. rewrite <- Ey. apply in_map. tauto.
      - intros i Hi. apply in_map_iff in Hi. destruct Hi as (m & <- & Hm). apply filter_In in Hm. destruct Hm as (Hm & Hk). apply andb_prop in Hk. destruct Hk as (_ & Hk).
        apply there_in in Hk. destruct Hk as (x & Hx & Ei & Hk). rewrite <- Ei. rewrite <- (targeted_id api w x). apply in_map. apply filter_In.
        assert (targeted api w x = x) as EQ.
        { unfold targeted. destruct (find _ _) as [t|] eqn:EF; [|reflexivity]. exfalso. apply find_some in EF. destruct EF as (F1 & F2). apply Nat.eqb_eq in F2.
          apply (HD t m F1 Hm). congruence. }
        rewrite EQ. split; [|exact Hk]. apply in_map_iff. exists x. split; [exact EQ|exact Hx]. }
    lia. }
  assert (L : nkept (map (targeted api w) (w_machines w) ++ created now (w_next w) s) >= Z.of_nat (List.length (filter keptb (map (targeted api w) (w_machines w))))).
  { rewrite nkept_count, count_app. unfold count. lia. }
  assert (R : (count servingb (w_cache w) = List.length (pl_surplus (planned w)) + List.length rest)%nat).
  { unfold count. rewrite (Permutation_length B), app_length. reflexivity. }
  assert (R2 : (List.length rest <= count keptb rest + count goingb (w_cache w))%nat).
  { assert (G : (count goingb rest <= count goingb (w_cache w))%nat).
    { assert (count goingb (w_cache w) = count goingb (filter servingb (w_cache w))) as -> by (unfold count; rewrite going_served; reflexivity).
      rewrite (count_perm goingb _ _ B), count_app. lia. }
    pose proof (count_split rest) as CS. assert (count servingb rest = List.length rest) as CR.
    { assert (forall m, In m rest -> servingb m = true) as X.
      { intros m Hm. assert (In m (filter servingb (w_cache w))) as Y by (eapply Permutation_in; [apply Permutation_sym; exact B|apply in_or_app; right; exact Hm]). apply filter_In in Y. tauto. }
      clear - X. unfold count. induction rest as [|m l IH]; [reflexivity|]. simpl. rewrite X by (left; reflexivity). simpl. rewrite IH; [reflexivity|]. intros y Hy. apply X. right. exact Hy. }
    lia. }
  rewrite nserving_count in *. split; [lia|]. intro Hle.
  assert (E0 : pl_surplus (planned w) = []) by (destruct (pl_surplus (planned w)); [reflexivity|simpl in A; lia]).
  assert (count keptb rest = count keptb (w_cache w)) as EK.
  { assert (count keptb (w_cache w) = count keptb (filter servingb (w_cache w))) as -> by (unfold count; rewrite kept_served; reflexivity).
    rewrite (count_perm keptb _ _ B), E0. reflexivity. }
  rewrite nkept_count. lia.
Qed.

(** Machines that are being deleted and still counted come only from outside. *)
Lemma reconcile_going : forall api now w, (forall id, a_delete api id = true -> a_status api id = true) ->
  (count goingb (w_machines (reconcileMachineSet api now w)) <= count goingb (w_machines w))%nat.
Proof.
  intros api now w Ht. destruct (slowStartBatch (pl_create (planned w)) 1 (a_create api)) as [[c s] e] eqn:E.
  rewrite (reconcile_eq api now w c s e E). cbn [w_machines]. rewrite count_app.
  assert (count goingb (created now (w_next w) s) = 0%nat) as ->.
  { clear. unfold count. generalize (w_next w). induction s as [|s IH]; intro n; [reflexivity|]. simpl. apply IH. }
  rewrite Nat.add_0_r. unfold count. induction (w_machines w) as [|m l IH]; [simpl; lia|]. simpl.
  assert (goingb (targeted api w m) = true -> goingb m = true) as H.
  { unfold targeted. destruct (find _ _) as [t|]; [|auto]. unfold terminate. destruct (m_deleting t); [auto|]. unfold goingb, servingb. cbn [m_phase m_prio m_trigger m_deleting].
    specialize (Ht (m_id m)). destruct (a_status api (m_id m)); [discriminate|]. destruct (a_delete api (m_id m)); [specialize (Ht eq_refl); discriminate|]. rewrite orb_false_r. auto. }
  destruct (goingb (targeted api w m)), (goingb m); simpl; try lia.
Qed.

Definition floor (F lo hi : Z) (l : LW) : Prop :=
  wf (l_w l) /\ lo <= w_spec (l_w l) <= hi /\ (l_seen l <= l_done l)%nat /\
  (exists s, In s (l_hist l) /\ Permutation (w_cache (l_w l)) (s_ms s) /\ s_done s = l_seen l) /\
  F <= nkept (w_machines (l_w l)) + Z.of_nat (l_lost l) /\
  (count goingb (w_machines (l_w l)) <= l_lost l)%nat /\
  (forall s, In s (l_hist l) -> NoDup (map m_id (s_ms s)) /\ (s_done s <= l_done l)%nat /\ (s_lost s <= l_lost l)%nat /\
     F <= nkept (s_ms s) + Z.of_nat (s_lost s) /\ (count goingb (s_ms s) <= s_lost s)%nat /\
     (s_done s = l_done l -> (missing (s_ms s) (w_machines (l_w l)) <= l_lost l - s_lost s)%nat)).

Lemma floor_outside : forall F lo hi l w x y, floor F lo hi l -> wf w -> w_cache w = w_cache (l_w l) -> lo <= w_spec w <= hi ->
  nkept (w_machines (l_w l)) <= nkept (w_machines w) + Z.of_nat x ->
  (count goingb (w_machines w) <= count goingb (w_machines (l_w l)) + x)%nat ->
  (forall s, NoDup (map m_id s) -> (missing s (w_machines w) <= missing s (w_machines (l_w l)) + x)%nat) ->
  floor F lo hi (outside l w x y).
Proof.
  intros F lo hi l w x y (W & A & S & (s & Hs & Hp & Hd) & N & G & H) Hwf Ec Hw Hn Hg Hm. unfold floor, outside. cbn [l_w l_seen l_done l_hist l_lost].
  split; [exact Hwf|]. split; [exact Hw|]. split; [exact S|]. split; [exists s; split; [right; exact Hs|]; rewrite Ec; auto|]. split; [lia|]. split; [lia|].
  intros t [<-|Ht]; cbn [s_done s_lost s_ms].
  - split; [apply Hwf|]. split; [lia|]. split; [lia|]. split; [lia|]. split; [lia|]. intros _. rewrite missing_same. lia.
  - destruct (H t Ht) as (H0 & H1 & H2 & H3 & H4 & H5). split; [exact H0|]. split; [exact H1|]. split; [lia|]. split; [exact H3|]. split; [exact H4|].
    intro E. specialize (H5 E). specialize (Hm (s_ms t) H0). lia.
Qed.

Lemma floor_step : forall F lo hi l o, 0 <= lo -> F <= lo -> floor F lo hi l -> shown l o -> sized lo hi o -> behind 1 l o -> told o -> floor F lo hi (lstep l o).
Proof.
  intros F lo hi l o Hlo HF HU Hsh Hsz Hbe Hto. pose proof (wf_lstep l o (proj1 HU)) as HW. destruct o as [api now|i v|n|b|id ph|id p t|id|id]; cbn [lstep] in *.
  - destruct HU as (W & A & S & (s & Hs & Hp & Hd) & N & G & H). unfold floor. cbn [l_w l_seen l_done l_hist l_lost] in *.
    assert (E : w_spec (reconcileMachineSet api now (l_w l)) = w_spec (l_w l) /\ w_cache (reconcileMachineSet api now (l_w l)) = w_cache (l_w l)).
    { unfold reconcileMachineSet. destruct (slowStartBatch _ _ _) as [[? ?] ?]. split; reflexivity. }
    destruct E as (E1 & E2). rewrite E1, E2. destruct (H s Hs) as (H0 & H1 & H2 & H3 & H4 & H5).
    cbn [behind] in Hbe. assert (Ed : s_done s = l_done l) by lia. specialize (H5 Ed).
    assert (HC : NoDup (map m_id (w_cache (l_w l)))) by (eapply Permutation_NoDup; [apply Permutation_map, Permutation_sym; exact Hp|exact H0]).
    destruct (reconcile_down api now (l_w l)) as (D1 & D2); [lia|apply W|exact HC|].
    rewrite !nserving_count, nkept_count, (count_perm servingb _ _ Hp), (count_perm goingb _ _ Hp), (missing_perm _ _ _ Hp) in D1.
    rewrite !nserving_count, !nkept_count, (count_perm servingb _ _ Hp), (count_perm keptb _ _ Hp), (missing_perm _ _ _ Hp) in D2.
    assert (FF : F <= nkept (w_machines (reconcileMachineSet api now (l_w l))) + Z.of_nat (l_lost l)).
    { rewrite nkept_count in *. destruct (Z_le_gt_dec (Z.of_nat (count servingb (s_ms s))) (w_spec (l_w l))) as [Hle|Hgt]; [specialize (D2 Hle); lia|lia]. }
    pose proof (reconcile_going api now (l_w l) Hto) as HG.
    split; [exact HW|]. split; [exact A|]. split; [lia|]. split; [exists s; split; [right; exact Hs|]; auto|]. split; [exact FF|]. split; [lia|].
    intros t [<-|Ht]; cbn [s_done s_lost s_ms].
    + split; [apply HW|]. split; [lia|]. split; [lia|]. split; [exact FF|]. split; [lia|]. intros _. rewrite missing_same. lia.
    + destruct (H t Ht) as (K0 & K1 & K2 & K3 & K4 & K5). split; [exact K0|]. split; [lia|]. split; [exact K2|]. split; [exact K3|]. split; [exact K4|]. intro X. lia.
  - destruct Hsh as (s & Es & Hp). rewrite Es in *. destruct HU as (W & A & S & _ & N & G & H). unfold floor. cbn [l_w l_seen l_done l_hist l_lost w_spec w_machines w_cache] in *.
    apply nth_error_In in Es. destruct (H s Es) as (_ & H1 & _). split; [exact HW|]. split; [exact A|]. split; [lia|]. split; [exists s; auto|]. split; [exact N|]. split; [exact G|]. exact H.
  - apply floor_outside; auto; cbn [w_machines]; try lia.
  - apply floor_outside; auto; cbn [w_machines w_spec]; try lia. apply HU.
  - apply floor_outside; auto; cbn [w_machines w_spec]; [apply HU| | |].
    + rewrite !nkept_count. pose proof (edited_kept (LPhase id ph) (w_machines (l_w l))). lia.
    + apply edited_going.
    + intros s Hs. apply missing_edited; exact Hs.
  - apply floor_outside; auto; cbn [w_machines w_spec]; [apply HU| | |].
    + rewrite !nkept_count. pose proof (edited_kept (LMark id p t) (w_machines (l_w l))). lia.
    + apply edited_going.
    + intros s Hs. apply missing_edited; exact Hs.
  - apply floor_outside; auto; cbn [w_machines w_spec]; [apply HU| | |].
    + rewrite !nkept_count. pose proof (edited_kept (LDelete id) (w_machines (l_w l))). lia.
    + apply edited_going.
    + intros s Hs. apply missing_edited; exact Hs.
  - apply floor_outside; auto; cbn [step w_machines w_spec]; [apply HU| | |].
    + rewrite !nkept_count, gone_kept. lia.
    + pose proof (gone_le goingb id (w_machines (l_w l))). lia.
    + intros s Hs. pose proof (missing_gone s id (w_machines (l_w l)) Hs). lia.
Qed.

Lemma floor_run : forall os F lo hi l, 0 <= lo -> F <= lo -> floor F lo hi l ->
  each (fun l o => shown l o /\ sized lo hi o /\ behind 1 l o /\ told o) l os -> floor F lo hi (lrun l os).
Proof.
  induction os as [|o os IH]; intros F lo hi l Hlo HF HU HE; [exact HU|]. destruct HE as ((H1 & H2 & H3 & H4) & HE). unfold lrun. simpl. fold (lrun (lstep l o) os).
  eapply IH; eauto. eapply floor_step; eauto.
Qed.

Lemma under : forall os lo hi spec fr ms next, 0 <= lo -> lo <= spec <= hi -> named ms next -> Forall (fun m => m_deleting m = false) ms ->
  each (fun l o => shown l o /\ sized lo hi o /\ behind 1 l o /\ told o) (begin spec fr ms next) os ->
  let l := lrun (begin spec fr ms next) os in
  Z.min (nserving ms) lo <= nkept (w_machines (l_w l)) + Z.of_nat (l_lost l).
Proof.
  intros os lo hi spec fr ms next Hlo Hs HN Hd HE l.
  assert (Ek : nkept ms = nserving ms).
  { rewrite nkept_count, nserving_count. f_equal. unfold count. clear - Hd. induction Hd as [|m ms E Hd IH]; [reflexivity|]. simpl. unfold keptb at 1. rewrite E.
    destruct (servingb m); simpl; congruence. }
  assert (Eg : count goingb ms = 0%nat).
  { clear - Hd. unfold count. induction Hd as [|m ms E Hd IH]; [reflexivity|]. simpl. unfold goingb at 1. rewrite E, andb_false_r. exact IH. }
  assert (U : floor (Z.min (nserving ms) lo) lo hi l).
  { apply floor_run; auto; try lia. unfold floor, begin. cbn [l_w l_seen l_done l_hist l_lost w_spec w_cache w_machines].
    split; [exact HN|]. split; [exact Hs|]. split; [lia|]. split; [exists (mkSnap ms 0 0 0); split; [left; reflexivity|]; split; [apply Permutation_refl|reflexivity]|].
    split; [lia|]. split; [lia|]. intros s [<-|[]]. cbn [s_ms s_done s_lost]. split; [apply HN|]. split; [lia|]. split; [lia|]. split; [lia|]. split; [lia|].
    intros _. rewrite missing_same. lia. }
  apply U.
Qed.

(** Tightness. *)
Lemma blind_step : forall N ms next j h lo go, 0 <= N <= 100 ->
  exists ms' next' h', lstep (mkLW (mkW N false ms [] next) h 0 j lo go) (LReconcile allok 0) = mkLW (mkW N false ms' [] next') h' 0 (S j) lo go /\
    nserving ms' = nserving ms + N.
Proof.
  intros N ms next j h lo go HN. cbn [lstep l_w l_hist l_seen l_done l_lost l_got].
  remember (mkW N false ms [] next) as w eqn:Ew.
  destruct (slowStartBatch (pl_create (planned w)) 1 (a_create allok)) as [[c s] e] eqn:E.
  rewrite (reconcile_eq allok 0 w c s e E). 
  assert (Hp : pl_stale (planned w) ++ pl_surplus (planned w) = [] /\ pl_create (planned w) = Z.to_nat N).
  { subst w. unfold planned, manageReplicas. cbn [w_spec w_frozen w_cache filter List.length]. destruct (_ <? 0) eqn:E1; cbn [pl_stale pl_surplus pl_create app].
    - split; [reflexivity|]. unfold BurstReplicas. f_equal. lia.
    - destruct (_ >? 0) eqn:E2; cbn [pl_stale pl_surplus pl_create app]; [lia|]. split; [reflexivity|]. lia. }
  destruct Hp as (Hp & Hc).
  assert (s = Z.to_nat N) as ->.
  { apply slow_start in E. destruct E as (_ & B & C & D). destruct e; [|destruct (C eq_refl); lia].
    destruct (D eq_refl) as (d & b & _ & _ & _ & (i & _ & Hi) & _). discriminate. }
  assert (Hm : map (targeted allok w) (w_machines w) = ms).
  { subst w. cbn [w_machines]. unfold targeted. rewrite Hp. cbn [find]. apply map_id. }
  rewrite Hm. subst w. cbn [w_spec w_frozen w_cache w_next w_machines].
  eexists _, _, _. split; [reflexivity|]. unfold nserving. rewrite filter_app, app_length. destruct (created_serving 0 (Z.to_nat N) next) as (-> & ->). lia.
Qed.

Lemma blind_run : forall k N ms next j h lo go, 0 <= N <= 100 ->
  let l := mkLW (mkW N false ms [] next) h 0 j lo go in
  nserving (w_machines (l_w (lrun l (repeat (LReconcile allok 0) k)))) = nserving ms + Z.of_nat k * N /\
  each (fun l o => shown l o /\ sized 0 N o /\ behind (j + k) l o) l (repeat (LReconcile allok 0) k).
Proof.
  induction k as [|k IH]; intros N ms next j h lo go HN l; [split; [cbn; lia|exact I]|].
  cbn [repeat]. destruct (blind_step N ms next j h lo go HN) as (ms' & next' & h' & E & En).
  destruct (IH N ms' next' (S j) h' lo go HN) as (A & B). rewrite <- E in A, B. split.
  - unfold lrun in *. cbn [fold_left]. fold l in A. rewrite A, En. lia.
  - cbn [each]. split; [split; [exact I|]; split; [exact I|]; cbn; lia|]. replace (j + S k)%nat with (S j + k)%nat by lia. exact B.
Qed.

Lemma over_tight : forall k N, (1 <= k)%nat -> 0 <= N <= 100 ->
  exists os, each (fun l o => shown l o /\ sized 0 N o /\ behind k l o) (begin N false [] 0) os /\
    let l := lrun (begin N false [] 0) os in
    l_got l = 0%nat /\ nserving (w_machines (l_w l)) = N + (Z.of_nat k - 1) * Z.min N 100.
Proof.
  intros k N Hk HN. exists (repeat (LReconcile allok 0) k). destruct (blind_run k N [] 0 0 [mkSnap [] 0 0 0] 0 0 HN) as (A & B). split; [exact B|]. split.
  - assert (G : forall k l, l_got (lrun l (repeat (LReconcile allok 0) k)) = l_got l).
    { clear. induction k as [|k IH]; intro l; [reflexivity|]. cbn [repeat]. unfold lrun in *. cbn [fold_left]. rewrite IH. reflexivity. }
    rewrite G. reflexivity.
  - unfold begin. rewrite A. unfold nserving at 1. cbn [filter List.length]. replace (Z.min N 100) with N by lia. lia.
Qed.

(** Never stuck. *)
Definition fresh (l : LW) : Prop := exists s h, l_hist l = s :: h /\ s_ms s = w_machines (l_w l).
Lemma fresh_step : forall l o, fresh l -> fresh (lstep l o).
Proof.
  intros l o (s & h & A & B). destruct o as [api now|i v|n|b|id ph|id p t|id|id]; cbn [lstep]; try (eexists _, _; split; reflexivity).
  destruct (nth_error _ _); exists s, h; auto.
Qed.
Lemma fresh_run : forall os l, fresh l -> fresh (lrun l os).
Proof. induction os as [|o os IH]; intros l H; [exact H|]. apply IH, fresh_step, H. Qed.
Lemma wf_lrun : forall os l, wf (l_w l) -> wf (l_w (lrun l os)).
Proof. induction os as [|o os IH]; intros l H; [exact H|]. apply (IH (lstep l o)), wf_lstep, H. Qed.
Lemma each_app : forall P a b l, each P l (a ++ b) <-> each P l a /\ each P (lrun l a) b.
Proof. induction a as [|o a IH]; intros b l; cbn [app each lrun fold_left]; [tauto|]. rewrite IH. unfold lrun. tauto. Qed.

Lemma gone_all : forall ids l, each ordinary l (map LGone ids) /\
  w_spec (l_w (lrun l (map LGone ids))) = w_spec (l_w l) /\ w_frozen (l_w (lrun l (map LGone ids))) = w_frozen (l_w l) /\
  forall m, In m (w_machines (l_w (lrun l (map LGone ids)))) <-> In m (w_machines (l_w l)) /\ (In (m_id m) ids -> m_deleting m = false).
Proof.
  induction ids as [|i ids IH]; intro l; cbn [map each].
  - split; [exact I|]. split; [reflexivity|]. split; [reflexivity|]. intro m. unfold lrun. cbn. tauto.
  - destruct (IH (lstep l (LGone i))) as (A & B & C & D). split; [split; [exact I|exact A]|]. unfold lrun in *. cbn [fold_left].
    rewrite B, C. split; [reflexivity|]. split; [reflexivity|]. intro m. rewrite D. cbn [lstep outside l_w step w_machines]. rewrite filter_In.
    destruct (Nat.eqb (m_id m) i) eqn:E; cbn [andb negb].
    + apply Nat.eqb_eq in E. destruct (m_deleting m); cbn [negb].
      * split; [intros ((_ & X) & _); discriminate|]. intros (X & Y). specialize (Y (or_introl (eq_sym E))). discriminate.
      * tauto.
    + apply Nat.eqb_neq in E. split; [intros ((X & _) & Y)|intros (X & Y)].
      * split; [exact X|]. intros [Z|Z]; [congruence|auto].
      * split; [auto|]. intro Z. apply Y. right. exact Z.
Qed.

Lemma round_ops : forall n now l, fresh l -> exists os, each ordinary l os /\ l_w (lrun l os) = rounds n now (l_w l).
Proof.
  induction n as [|n IH]; intros now l HF; [exists []; split; [exact I|reflexivity]|].
  destruct HF as (s & h & A & B).
  assert (E1 : lstep l (LSee 0 (w_machines (l_w l))) = mkLW (step (l_w l) OObserve) (l_hist l) (s_done s) (l_done l) (l_lost l) (l_got l)).
  { cbn [lstep]. rewrite A. reflexivity. }
  destruct (IH now (lstep (lstep l (LSee 0 (w_machines (l_w l)))) (LReconcile allok now))) as (os & H1 & H2).
  { apply fresh_step, fresh_step. exists s, h. auto. }
  exists (LSee 0 (w_machines (l_w l)) :: LReconcile allok now :: os). split.
  - cbn [each]. split; [split; reflexivity|]. split; [reflexivity|exact H1].
  - unfold lrun in *. cbn [fold_left rounds]. rewrite H2. f_equal. rewrite E1. reflexivity.
Qed.

Lemma rounds_keep : forall n now w, wf w -> settled (w_machines w) -> w_frozen w = false -> 0 <= w_spec w ->
  settled (w_machines (rounds n now w)) /\ w_spec (rounds n now w) = w_spec w.
Proof.
  induction n as [|n IH]; intros now w H1 H2 H3 H4; [split; [exact H2|reflexivity]|]. cbn [rounds].
  destruct (one_round now w H1 H2 H3 H4) as (A & B & C & D & _). destruct (IH now _ A B C) as (X & Y); [lia|]. split; [exact X|]. congruence.
Qed.

Lemma never_stuck : forall os0 spec fr ms next, named ms next -> 
  let l := lrun (begin spec fr ms next) os0 in w_frozen (l_w l) = false -> 0 <= w_spec (l_w l) ->
  exists os, each ordinary l os /\ w_spec (l_w (lrun l os)) = w_spec (l_w l) /\
    nkept (w_machines (l_w (lrun l os))) = w_spec (l_w l) /\ nserving (w_machines (l_w (lrun l os))) = w_spec (l_w l).
Proof.
  intros os0 spec fr ms next HN l Hf Hs.
  assert (HW : wf (l_w l)) by (apply wf_lrun; exact HN).
  assert (HF : fresh l) by (apply fresh_run; exists (mkSnap ms 0 0 0), []; split; reflexivity).
  clearbody l. clear HN os0 spec fr ms next.
  remember (map LGone (map m_id (w_machines (l_w l)))) as g eqn:Eg.
  destruct (gone_all (map m_id (w_machines (l_w l))) l) as (A & B & C & D). rewrite <- Eg in *.
  assert (HS : settled (w_machines (l_w (lrun l g)))).
  { apply Forall_forall. intros m Hm Hd. apply D in Hm. destruct Hm as (Hm & Hx). rewrite Hx in Hd; [discriminate|]. apply in_map; exact Hm. }
  remember (Z.to_nat (w_spec (l_w l) + nserving (w_machines (l_w (lrun l g))))) as n eqn:En.
  destruct (round_ops n 0 (lrun l g) (fresh_run g l HF)) as (os & H1 & H2).
  assert (HW2 : wf (l_w (lrun l g))) by (apply wf_lrun; exact HW).
  assert (Hf2 : w_frozen (l_w (lrun l g)) = false) by congruence. assert (Hs2 : 0 <= w_spec (l_w (lrun l g))) by lia.
  destruct (rounds_lemma n 0 _ HW2 HS Hf2 Hs2) as (R1 & R2). destruct (rounds_keep n 0 _ HW2 HS Hf2 Hs2) as (R3 & R4).
  assert (P : 0 <= nserving (w_machines (l_w (lrun l g)))) by (rewrite nserving_count; lia).
  assert (NS : nserving (w_machines (rounds n 0 (l_w (lrun l g)))) = w_spec (l_w l)).
  { destruct (Z_le_gt_dec (nserving (w_machines (l_w (lrun l g)))) (w_spec (l_w (lrun l g)))) as [Hle|Hgt]; [rewrite (R1 Hle); lia|rewrite R2; lia]. }
  assert (NK : nkept (w_machines (rounds n 0 (l_w (lrun l g)))) = nserving (w_machines (rounds n 0 (l_w (lrun l g))))).
  { rewrite nkept_count, nserving_count. f_equal. unfold count. clear - R3. unfold settled in R3. induction R3 as [|m ms E Hd IH]; [reflexivity|]. simpl. unfold keptb at 1.
    destruct (m_deleting m) eqn:Ed; [rewrite (E eq_refl); exact IH|]. destruct (servingb m); simpl; congruence. }
  exists (g ++ os). assert (ER : lrun l (g ++ os) = lrun (lrun l g) os) by (unfold lrun; apply fold_left_app).
  split; [apply each_app; auto|]. rewrite ER, H2. split; [congruence|]. split; congruence.
Qed.
