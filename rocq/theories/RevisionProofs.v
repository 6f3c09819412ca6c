Require Import Coq.ZArith.ZArith Coq.Lists.List Coq.Bool.Bool Coq.micromega.Lia.
Require Import Coq.Sorting.Permutation.
From Verif Require Import Sort RevisionModel RevisionSpec.
Import ListNotations.
Open Scope Z_scope.
Require Import Coq.micromega.ZifyBool.

Lemma Revision_revs : forall s, match Revision (v_rev s) with Some v => [v] | None => [] end =
  match v_rev s with RevInt z => [z] | RevMissing => [0] | _ => [] end.
Proof. intro s. destruct (v_rev s); reflexivity. Qed.

Lemma maxFrom_spec : forall l m, m <= maxRevisionFrom m l /\ Forall (fun v => v <= maxRevisionFrom m l) (revs l) /\
  (maxRevisionFrom m l = m \/ In (maxRevisionFrom m l) (revs l)).
Proof.
  induction l as [|s l IH]; intro m; simpl; [repeat split; auto; lia|].
  rewrite <- Revision_revs. destruct (Revision (v_rev s)) as [v|]; [|apply IH]. simpl.
  destruct (v >? m) eqn:E; destruct (IH (if v >? m then v else m)) as (A & B & C); rewrite E in *.
  - split; [lia|]. split; [constructor; [lia|exact B]|]. destruct C as [C|C]; [right; left; congruence|right; right; exact C].
  - split; [lia|]. split; [constructor; [lia|exact B]|]. destruct C as [C|C]; [left; exact C|right; right; exact C].
Qed.

Lemma lastFrom_spec : forall l pre m sec, 0 <= sec <= m ->
  (* m and sec are the two largest of pre and two zeros *)
  (count (fun v => Z.ltb sec v) pre <= 1)%nat ->
  (count (fun v => Z.ltb m v) pre = 0)%nat ->
  (0 < sec -> (2 <= count (fun v => Z.leb sec v) pre)%nat) ->
  (0 < m -> (1 <= count (fun v => Z.leb m v) pre)%nat) ->
  second_highest (pre ++ revs l) (lastRevisionFrom m sec l).
Proof.
  assert (forall p a b, count p (a ++ b) = (count p a + count p b)%nat) as CA.
  { intros. unfold count. rewrite filter_app, app_length. reflexivity. }
  assert (forall (p q : Z -> bool) l, (forall v, p v = true -> q v = true) -> (count p l <= count q l)%nat) as CM.
  { intros p q l H. unfold count. induction l as [|a l IH]; simpl; [lia|].
    destruct (p a) eqn:E1; [rewrite (H a E1); simpl; lia|]. destruct (q a); simpl; lia. }
  induction l as [|s l IH]; intros pre m sec H0 H1 H2 H3 H4; cbn [lastRevisionFrom revs flat_map].
  - rewrite app_nil_r. unfold second_highest. split; [lia|]. split; assumption.
  - rewrite <- Revision_revs. destruct (Revision (v_rev s)) as [v|].
    2:{ apply IH; assumption. }
    change ([v] ++ flat_map (fun s0 => match v_rev s0 with RevInt z => [z] | RevMissing => [0] | _ => [] end) l) with (v :: revs l).
    change (pre ++ v :: revs l) with (pre ++ [v] ++ revs l). rewrite app_assoc.
    assert (forall p, count p [v] = if p v then 1%nat else 0%nat) as C1 by (intro p; unfold count; simpl; destruct (p v); reflexivity).
    destruct (v >=? m) eqn:E1; [|destruct (v >? sec) eqn:E2]; apply IH; try lia; rewrite ?CA, ?C1.
    + destruct (m <? v) eqn:E; lia.
    + assert (count (fun x => Z.ltb v x) pre <= count (fun x => Z.ltb m x) pre)%nat by (apply CM; intros; lia).
      destruct (v <? v) eqn:E; lia.
    + intro. specialize (H4 H). destruct (m <=? v) eqn:E; lia.
    + intro. destruct (v <=? v) eqn:E; lia.
    + assert (count (fun x => Z.ltb v x) pre <= count (fun x => Z.ltb sec x) pre)%nat by (apply CM; intros; lia).
      destruct (v <? v) eqn:E; lia.
    + destruct (m <? v) eqn:E; lia.
    + intro. assert (count (fun x => Z.leb m x) pre <= count (fun x => Z.leb v x) pre)%nat by (apply CM; intros; lia).
      destruct (v <=? v) eqn:E; [|lia]. assert (1 <= count (fun x => Z.leb m x) pre)%nat by (apply H4; lia). lia.
    + intro HH. specialize (H4 HH). lia.
    + destruct (sec <? v) eqn:E; lia.
    + destruct (m <? v) eqn:E; lia.
    + intro HH. specialize (H3 HH). lia.
    + intro HH. specialize (H4 HH). lia.
Qed.

Lemma last_revision_spec : forall l, second_highest (revs l) (LastRevision l).
Proof.
  intro l. unfold LastRevision. apply (lastFrom_spec l [] 0 0); unfold count; simpl; lia.
Qed.

Lemma second_highest_unique : forall l a b, second_highest l a -> second_highest l b -> a = b.
Proof.
  assert (forall l a b, second_highest l a -> second_highest l b -> a < b -> False) as H.
  { intros l a b (A1 & A2 & A3) (B1 & B2 & B3) Hlt. specialize (B3 ltac:(lia)).
    assert (count (fun v => Z.leb b v) l <= count (fun v => Z.ltb a v) l)%nat; [|lia].
    unfold count. clear - Hlt. induction l as [|v l IH]; simpl; [lia|].
    destruct (b <=? v) eqn:E1, (a <? v) eqn:E2; simpl; try lia. }
  intros l a b Ha Hb. destruct (Z.lt_trichotomy a b) as [L|[L|L]]; [exfalso; eauto|exact L|exfalso; eauto].
Qed.

(** *** The invariant of histories *)
Definition vinv (k : Z) (w : VWorld) : Prop :=
  Forall (fun s => exists z, has_rev s z /\ 1 <= z <= k) (vw_sets w) /\
  NoDup (map v_rev (vw_sets w)) /\ NoDup (map v_uid (vw_sets w)) /\
  Forall (fun s => (v_uid s < vw_next w)%nat) (vw_sets w).

Lemma byTime_total : total byTime.
Proof. intros a b. unfold byTime. destruct (Nat.leb (v_uid a) (v_uid b)) eqn:E; destruct (Nat.leb (v_uid b) (v_uid a)) eqn:F; lia. Qed.
Lemma byTime_trans : transitive byTime.
Proof.
  intros a b c. unfold byTime. destruct (Nat.leb (v_uid a) (v_uid b)) eqn:E; destruct (Nat.leb (v_uid b) (v_uid c)) eqn:F;
  destruct (Nat.leb (v_uid a) (v_uid c)) eqn:G; lia.
Qed.

Lemma find_sorted_first : forall A (p : A -> bool) (le : A -> A -> Prop) l x,
  Sorted.StronglySorted le l -> find p l = Some x -> forall y, In y l -> p y = true -> y = x \/ le x y.
Proof.
  intros A p le l x HS. induction HS as [|a l HS IH HF]; simpl; [discriminate|].
  destruct (p a) eqn:E.
  - intro H; injection H as <-. intros y [->|Hy] _; [left; reflexivity|]. rewrite Forall_forall in HF. right; auto.
  - intros H y [->|Hy] Hp; [congruence|]. auto.
Qed.

Lemma findNew_spec : forall t l n, FindNewMachineSet t l = Some n ->
  In n l /\ v_template n = t /\ forall s, In s l -> v_template s = t -> v_ctime n <= v_ctime s.
Proof.
  intros t l n H. unfold FindNewMachineSet in H.
  pose proof (isort_perm byTime l) as HP.
  pose proof (find_some _ _ H) as (H1 & H2). apply Nat.eqb_eq in H2.
  split; [eapply Permutation_in; [apply Permutation_sym; exact HP|exact H1]|]. split; [exact H2|].
  intros s Hs Ht. eapply Permutation_in in Hs; [|exact HP].
  destruct (find_sorted_first _ _ _ _ _ (isort_sorted byTime byTime_total byTime_trans l) H s Hs ltac:(apply Nat.eqb_eq; exact Ht)) as [->|HL]; [lia|].
  unfold byTime in HL. lia.
Qed.

Lemma findNew_none' : forall t l, FindNewMachineSet t l = None -> forall s, In s l -> v_template s <> t.
Proof.
  intros t l H s Hs Ht. unfold FindNewMachineSet in H. eapply find_none in H.
  - cbv beta in H. rewrite Ht, Nat.eqb_refl in H. discriminate.
  - eapply Permutation_in; [apply isort_perm|exact Hs].
Qed.

Lemma olds_in : forall t l s, In s (FindOldMachineSets t l) <->
  In s l /\ match FindNewMachineSet t l with None => True | Some n => v_uid s <> v_uid n end.
Proof.
  intros t l s. unfold FindOldMachineSets. pose proof (isort_perm byTime l) as HP.
  assert (In s (isort byTime l) <-> In s l) as HI.
  { split; intro H; eapply Permutation_in; [apply Permutation_sym; exact HP|exact H|exact HP|exact H]. }
  destruct (FindNewMachineSet t l) as [n|]; [|tauto].
  rewrite filter_In, HI, negb_true_iff, Nat.eqb_neq. tauto.
Qed.

Lemma in_revs : forall l s z, In s l -> has_rev s z -> In z (revs l).
Proof. intros l s z Hs Hz. unfold revs. apply in_flat_map. exists s. split; [exact Hs|]. rewrite Hz. left; reflexivity. Qed.

Lemma revs_in : forall l z, In z (revs l) -> z = 0 \/ exists s, In s l /\ has_rev s z.
Proof.
  intros l z H. unfold revs in H. apply in_flat_map in H. destruct H as (s & Hs & H).
  destruct (v_rev s) eqn:E; simpl in H; try tauto.
  - destruct H as [<-|[]]. left; reflexivity.
  - destruct H as [<-|[]]. right. exists s. split; [exact Hs|exact E].
Qed.

Lemma wrap64_id : forall z, 0 <= z < 9223372036854775808 -> wrap64 z = z.
Proof. intros z H. unfold wrap64. rewrite Z.mod_small; lia. Qed.

Lemma bump_keep : forall c r s z, has_rev s z -> r <= z ->
  exists h, bumpRevision c r s = (c, mkV (v_uid s) (v_ctime s) (v_template s) (RevInt z) h).
Proof.
  intros c r s z Hz Hr. unfold bumpRevision, has_rev in *. rewrite Hz.
  destruct (z <? r) eqn:E; [lia|]. rewrite orb_false_r. eexists. reflexivity.
Qed.

Lemma bump_raise : forall c r s z, has_rev s z -> z < r ->
  exists h, bumpRevision c r s = (true, mkV (v_uid s) (v_ctime s) (v_template s) (RevInt r) h).
Proof.
  intros c r s z Hz Hr. unfold bumpRevision, has_rev in *. rewrite Hz.
  destruct (z <? r) eqn:E; [|lia]. rewrite orb_true_r. eexists. reflexivity.
Qed.

Lemma key_inj2 : forall A B (f : A -> B) l x y, NoDup (map f l) -> In x l -> In y l -> f x = f y -> x = y.
Proof.
  intros A B f l x y. induction l as [|a l IH]; intros HN Hx Hy E; [destruct Hx|].
  inversion HN as [|? ? H1 H2]; subst. destruct Hx as [->|Hx], Hy as [->|Hy]; auto.
  - exfalso. apply H1. rewrite E. apply in_map; exact Hy.
  - exfalso. apply H1. rewrite <- E. apply in_map; exact Hx.
Qed.

(** Replacing one set by a copy of the same UID. *)
Definition subst_set (s3 : VSet) (l : list VSet) : list VSet :=
  map (fun s => if Nat.eqb (v_uid s) (v_uid s3) then s3 else s) l.

Lemma subst_in : forall s3 l s, In s (subst_set s3 l) ->
  exists y, In y l /\ v_uid y = v_uid s /\ ((v_uid y = v_uid s3 /\ s = s3) \/ (v_uid y <> v_uid s3 /\ s = y)).
Proof.
  intros s3 l s H. unfold subst_set in H. apply in_map_iff in H. destruct H as (x & E & Hx).
  exists x. split; [exact Hx|]. destruct (Nat.eqb (v_uid x) (v_uid s3)) eqn:EE; subst.
  - apply Nat.eqb_eq in EE. auto.
  - apply Nat.eqb_neq in EE. auto.
Qed.

Lemma subst_uid : forall s3 l, map v_uid (subst_set s3 l) = map v_uid l.
Proof.
  intros. unfold subst_set. rewrite map_map. apply map_ext. intro x.
  destruct (Nat.eqb (v_uid x) (v_uid s3)) eqn:E; [apply Nat.eqb_eq in E; congruence|reflexivity].
Qed.

Lemma subst_rev_nodup : forall s3 l, NoDup (map v_uid l) -> NoDup (map v_rev l) ->
  (forall s, In s l -> v_uid s <> v_uid s3 -> v_rev s <> v_rev s3) -> NoDup (map v_rev (subst_set s3 l)).
Proof.
  intros s3 l. induction l as [|a l IH]; intros HU HR H; [constructor|]. simpl in *.
  inversion HU as [|? ? U1 U2]; inversion HR as [|? ? R1 R2]; subst.
  assert (forall s, In s l -> v_uid s <> v_uid s3 -> v_rev s <> v_rev s3) as H' by (intros; apply H; auto).
  constructor; [|apply IH; auto].
  intro HI. apply in_map_iff in HI. destruct HI as (x & E & Hx). apply subst_in in Hx.
  destruct Hx as (y & Hy & EU & [(E1 & ->)|(E1 & ->)]); destruct (Nat.eqb (v_uid a) (v_uid s3)) eqn:EA.
  - apply Nat.eqb_eq in EA. apply U1. rewrite EA, <- E1. apply in_map; exact Hy.
  - apply Nat.eqb_neq in EA. apply (H a (or_introl eq_refl) EA). congruence.
  - exact (H' y Hy E1 E).
  - apply R1. rewrite <- E. apply in_map; exact Hy.
Qed.

(** One getNewMachineSet in a good state. *)
Lemma get_new_spec : forall i create w k n sets, vinv k w -> 0 <= k < 9223372036854775807 ->
  getNewMachineSet i create (vw_template w) (vw_next w) (vw_sets w) = (n, sets) ->
  let w' := mkVW (vw_template w) (vw_rollback w) sets (S (vw_next w)) in
  vinv (k + 1) w' /\
  (forall s, In s (vw_sets w) -> exists s', In s' sets /\ v_uid s' = v_uid s /\ v_template s' = v_template s /\ v_ctime s' = v_ctime s /\
       forall z z', has_rev s z -> has_rev s' z' -> z <= z') /\
  (forall m, n = Some (Some m) -> In m sets /\ v_template m = vw_template w /\
       (forall s, In s sets -> v_template s = vw_template w -> v_ctime m <= v_ctime s) /\
       exists z, has_rev m z /\ forall s z', In s sets -> v_uid s <> v_uid m -> has_rev s z' -> z' < z) /\
  (forall s, In s sets -> In (v_template s) (vw_template w :: map v_template (vw_sets w))) /\
  (forall m, n = Some (Some m) -> forall s, In s sets <-> s = m \/ In s (FindOldMachineSets (vw_template w) (vw_sets w))).
Proof.
  intros i create w k n sets (HA & HR & HU & HB) Hk HG. unfold getNewMachineSet in HG. cbv zeta.
  set (t := vw_template w) in *. set (l := vw_sets w) in *.
  set (M := MaxRevision (FindOldMachineSets t l)) in *.
  destruct (maxFrom_spec (FindOldMachineSets t l) 0) as (M0 & M1 & M2). fold (MaxRevision (FindOldMachineSets t l)) in *. fold M in M0, M1, M2.
  assert (0 <= M <= k) as HM.
  { split; [exact M0|]. destruct M2 as [->|M2]; [lia|]. apply revs_in in M2. destruct M2 as [->|(s & Hs & Hz)]; [lia|].
    apply olds_in in Hs. rewrite Forall_forall in HA. destruct (HA s (proj1 Hs)) as (z & Hz' & HB'). unfold has_rev in *. rewrite Hz in Hz'. injection Hz' as <-. lia. }
  rewrite (wrap64_id (M + 1)) in HG by lia.
  assert (forall s, In s l -> exists s', In s' l /\ v_uid s' = v_uid s /\ v_template s' = v_template s /\ v_ctime s' = v_ctime s /\
       forall z z', has_rev s z -> has_rev s' z' -> z <= z') as Hsame.
  { intros s Hs. exists s. repeat split; auto. intros z z' H1 H2. unfold has_rev in *. rewrite H1 in H2. injection H2 as <-. lia. }
  assert (vinv (k + 1) (mkVW t (vw_rollback w) l (S (vw_next w)))) as Hvsame.
  { unfold vinv; cbn [vw_sets vw_next]. repeat split; auto.
    - eapply Forall_impl; [|exact HA]. cbv beta. intros s (z & H1 & H2). exists z. split; [exact H1|lia].
    - eapply Forall_impl; [|exact HB]. cbv beta. intros; lia. }
  assert (forall s, In s l -> In (v_template s) (t :: map v_template l)) as HT by (intros; right; apply in_map; assumption).
  destruct (FindNewMachineSet t l) as [e|] eqn:EN.
  - destruct (findNew_spec _ _ _ EN) as (He & Hte & Hmin).
    rewrite Forall_forall in HA. destruct (HA e He) as (z & Hz & HzB).
    assert (forall s z', In s l -> v_uid s <> v_uid e -> has_rev s z' -> z' <= M) as Hold.
    { intros s z' Hs Hne Hz'. rewrite Forall_forall in M1. apply M1. eapply in_revs; [|exact Hz'].
      apply olds_in. rewrite EN. auto. }
    (* three bumps *)
    assert (exists h, bumpRevision (si_config i) (M+1) (snd (bumpRevision (si_node i) (M+1) (snd (bumpRevision (si_annot i) (M+1) e))))
       = (si_config i || false, mkV (v_uid e) (v_ctime e) (v_template e) (RevInt (Z.max z (M+1))) h) /\
       (z < M + 1 -> fst (bumpRevision (si_annot i) (M+1) e) = true) /\
       (fst (bumpRevision (si_annot i) (M+1) e) = false -> fst (bumpRevision (si_node i) (M+1) (snd (bumpRevision (si_annot i) (M+1) e))) = false -> si_config i = false ->
          mkV (v_uid e) (v_ctime e) (v_template e) (RevInt (Z.max z (M+1))) h = e)) as (h & EB & Hch & Hid).
    { destruct (Z_lt_ge_dec z (M + 1)) as [L|L].
      - destruct (bump_raise (si_annot i) (M+1) e z Hz L) as (h1 & ->). cbn [snd fst].
        destruct (bump_keep (si_node i) (M+1) (mkV (v_uid e) (v_ctime e) (v_template e) (RevInt (M+1)) h1) (M+1) eq_refl ltac:(lia)) as (h2 & ->). cbn [snd fst v_uid v_ctime v_template].
        destruct (bump_keep (si_config i) (M+1) (mkV (v_uid e) (v_ctime e) (v_template e) (RevInt (M+1)) h2) (M+1) eq_refl ltac:(lia)) as (h3 & ->). cbn [v_uid v_ctime v_template].
        exists h3. rewrite orb_false_r. rewrite Z.max_r by lia. split; [reflexivity|]. split; [reflexivity|]. discriminate.
      - assert (forall c s, v_rev s = RevInt z -> c = false -> snd (bumpRevision c (M+1) s) = s) as Hsk.
        { intros c s Hs ->. unfold bumpRevision. rewrite Hs. destruct (z <? M + 1) eqn:E; [lia|]. cbn. rewrite <- Hs. destruct s; reflexivity. }
        destruct (bump_keep (si_annot i) (M+1) e z Hz ltac:(lia)) as (h1 & E1).
        pose proof (Hsk (si_annot i) e Hz) as K1. rewrite E1 in *. cbn [snd fst] in *.
        set (s1 := mkV (v_uid e) (v_ctime e) (v_template e) (RevInt z) h1) in *.
        destruct (bump_keep (si_node i) (M+1) s1 z eq_refl ltac:(lia)) as (h2 & E2).
        pose proof (Hsk (si_node i) s1 eq_refl) as K2. rewrite E2 in *. cbn [snd fst] in *.
        set (s2 := mkV (v_uid s1) (v_ctime s1) (v_template s1) (RevInt z) h2) in *.
        destruct (bump_keep (si_config i) (M+1) s2 z eq_refl ltac:(lia)) as (h3 & E3).
        pose proof (Hsk (si_config i) s2 eq_refl) as K3. rewrite E3 in *. cbn [snd fst] in *.
        exists h3. rewrite orb_false_r. rewrite Z.max_l by lia. split; [reflexivity|]. split; [lia|].
        intros F1 F2 F3. transitivity s2; [exact (K3 F3)|]. transitivity s1; [exact (K2 F2)|exact (K1 F1)]. }
    set (s3 := mkV (v_uid e) (v_ctime e) (v_template e) (RevInt (Z.max z (M + 1))) h) in *.
    destruct (bumpRevision (si_annot i) (M+1) e) as [c1 s1]. cbn [snd fst] in *.
    destruct (bumpRevision (si_node i) (M+1) s1) as [c2 s2]. cbn [snd fst] in *.
    rewrite EB in HG. rewrite orb_false_r in HG.
    assert (has_rev s3 (Z.max z (M+1))) as Hz3 by reflexivity.
    destruct (c1 || c2 || si_config i) eqn:EC.
    + destruct (si_ok i); injection HG as <- <-.
      * change (map (fun s => if Nat.eqb (v_uid s) (v_uid e) then s3 else s) l) with (subst_set s3 l).
        assert (In s3 (subst_set s3 l)) as Hin3.
        { unfold subst_set. apply in_map_iff. exists e. rewrite Nat.eqb_refl. auto. }
        assert (forall s, In s (subst_set s3 l) -> s = s3 \/ (In s l /\ v_uid s <> v_uid e)) as Hcase.
        { intros s Hs. apply subst_in in Hs. destruct Hs as (y & Hy & EU & [(E1 & ->)|(E1 & ->)]); auto. }
        split; [|split; [|split; [|split]]].
        -- unfold vinv; cbn [vw_sets vw_next]. split; [|split; [|split]].
           ++ rewrite Forall_forall. intros s Hs. destruct (Hcase s Hs) as [->|(Hs' & _)].
              ** exists (Z.max z (M+1)). split; [exact Hz3|lia].
              ** destruct (HA s Hs') as (z' & A & B). exists z'. split; [exact A|lia].
           ++ apply subst_rev_nodup; auto. intros s Hs Hne Heq. cbn in Hne, Heq.
              pose proof (Hold s (Z.max z (M+1)) Hs Hne Heq). lia.
           ++ rewrite subst_uid. exact HU.
           ++ rewrite Forall_forall in *. intros s Hs. destruct (Hcase s Hs) as [->|(Hs' & _)].
              ** cbn. specialize (HB e He). lia.
              ** specialize (HB s Hs'). lia.
        -- intros s Hs. destruct (Nat.eq_dec (v_uid s) (v_uid e)) as [E|E].
           ++ assert (s = e) as -> by (eapply (key_inj2 _ _ v_uid); eauto).
              exists s3. split; [exact Hin3|]. repeat split; auto. intros a b Ha Hb. unfold has_rev in *. cbn in Hb. injection Hb as <-.
              rewrite Hz in Ha. injection Ha as <-. lia.
           ++ exists s. split. { unfold subst_set. apply in_map_iff. exists s. cbn. destruct (Nat.eqb (v_uid s) (v_uid e)) eqn:EE; [apply Nat.eqb_eq in EE; tauto|auto]. }
              repeat split; auto. intros a b Ha Hb. unfold has_rev in *. rewrite Ha in Hb. injection Hb as <-. lia.
        -- intros m Hm. injection Hm as <-. split; [exact Hin3|]. split; [exact Hte|]. split.
           ++ intros s Hs Hts. destruct (Hcase s Hs) as [->|(Hs' & _)]; [lia|]. cbn. apply Hmin; auto.
           ++ exists (Z.max z (M+1)). split; [exact Hz3|]. intros s z' Hs Hne Hz'.
              destruct (Hcase s Hs) as [->|(Hs' & Hne')]; [tauto|]. pose proof (Hold s z' Hs' Hne' Hz'). lia.
        -- intros s Hs. destruct (Hcase s Hs) as [->|(Hs' & _)]; [left; exact (eq_sym Hte)|apply HT; exact Hs'].
        -- intros m Hm s. injection Hm as <-. split.
           ++ intro Hs. destruct (Hcase s Hs) as [->|(Hs' & Hne)]; [left; reflexivity|right]. apply olds_in. rewrite EN. auto.
           ++ intros [->|Hs]; [exact Hin3|]. apply olds_in in Hs. rewrite EN in Hs. destruct Hs as (Hs & Hne).
              unfold subst_set. apply in_map_iff. exists s. cbn. destruct (Nat.eqb (v_uid s) (v_uid e)) eqn:EE; [apply Nat.eqb_eq in EE; tauto|auto].
      * split; [exact Hvsame|]. split; [exact Hsame|]. split; [discriminate|]. split; [exact HT|discriminate].
    + injection HG as <- <-. apply orb_false_iff in EC. destruct EC as (EC & EC3). apply orb_false_iff in EC. destruct EC as (EC1 & EC2).
      specialize (Hid EC1 EC2 EC3). rewrite Hid in *.
      split; [exact Hvsame|]. split; [exact Hsame|]. split; [|split; [exact HT|]].
      * intros m Hm. injection Hm as <-. split; [exact He|]. split; [exact Hte|]. split; [intros; apply Hmin; auto|].
        exists z. split; [exact Hz|]. intros s z' Hs Hne Hz'. pose proof (Hold s z' Hs Hne Hz').
        destruct (Z_lt_ge_dec z (M+1)) as [L|L]; [rewrite (Hch L) in EC1; discriminate|lia].
      * intros m Hm s. injection Hm as <-. rewrite olds_in, EN. split.
        -- intro Hs. destruct (Nat.eq_dec (v_uid s) (v_uid e)) as [E|E]; [left|right; auto].
           eapply (key_inj2 _ _ v_uid); eauto.
        -- intros [->|(Hs & _)]; auto.
  - pose proof (findNew_none' _ _ EN) as HN.
    assert (snd (bumpRevision true (M + 1) (mkV (vw_next w) (si_now i) t RevMissing [])) = mkV (vw_next w) (si_now i) t (RevInt (M+1)) []) as EB.
    { unfold bumpRevision. cbn [v_rev]. destruct (0 <? M + 1) eqn:E; [|lia]. reflexivity. }
    cbv zeta in HG. rewrite EB in HG.
    destruct create; cbn [negb] in HG; [|injection HG as <- <-; split; [exact Hvsame|]; split; [exact Hsame|]; split; [discriminate|]; split; [exact HT|discriminate]].
    destruct (si_ok i); injection HG as <- <-; [|split; [exact Hvsame|]; split; [exact Hsame|]; split; [discriminate|]; split; [exact HT|discriminate]].
    set (s3 := mkV (vw_next w) (si_now i) t (RevInt (M+1)) []) in *.
    assert (forall s z', In s l -> has_rev s z' -> z' <= M) as Hold.
    { intros s z' Hs Hz'. rewrite Forall_forall in M1. apply M1. eapply in_revs; [|exact Hz']. apply olds_in. rewrite EN. auto. }
    assert (~ In (vw_next w) (map v_uid l)) as Hfr.
    { intro H. apply in_map_iff in H. destruct H as (x & E & Hx). rewrite Forall_forall in HB. specialize (HB x Hx). lia. }
    split; [|split; [|split; [|split]]].
    + unfold vinv; cbn [vw_sets vw_next]. rewrite !map_app, !Forall_app. cbn [map]. split; [|split; [|split]].
      * split; [eapply Forall_impl; [|exact HA]; cbv beta; intros s (z & H1 & H2); exists z; split; [exact H1|lia]|].
        constructor; [|constructor]. exists (M+1). split; [reflexivity|lia].
      * eapply Permutation_NoDup; [apply Permutation_app_comm|]. simpl. constructor; [|exact HR].
        intro H. apply in_map_iff in H. destruct H as (x & E & Hx). pose proof (Hold x (M+1) Hx E). lia.
      * eapply Permutation_NoDup; [apply Permutation_app_comm|]. simpl. constructor; assumption.
      * split; [eapply Forall_impl; [|exact HB]; cbv beta; intros; lia|]. constructor; [cbn; lia|constructor].
    + intros s Hs. destruct (Hsame s Hs) as (s' & H1 & H2). exists s'. split; [apply in_or_app; left; exact H1|exact H2].
    + intros m Hm. injection Hm as <-. split; [apply in_or_app; right; left; reflexivity|]. split; [reflexivity|]. split.
      * intros s Hs Hts. apply in_app_or in Hs. destruct Hs as [Hs|[<-|[]]]; [exfalso; exact (HN s Hs Hts)|lia].
      * exists (M+1). split; [reflexivity|]. intros s z' Hs Hne Hz'. apply in_app_or in Hs. destruct Hs as [Hs|[<-|[]]]; [|tauto].
        pose proof (Hold s z' Hs Hz'). lia.
    + intros s Hs. apply in_app_or in Hs. destruct Hs as [Hs|[<-|[]]]; [apply HT; exact Hs|left; reflexivity].
    + intros m Hm s. injection Hm as <-. rewrite in_app_iff, olds_in, EN. simpl. split.
      * intros [Hs|[<-|[]]]; [right; auto|left; reflexivity].
      * intros [->|(Hs & _)]; auto.
Qed.

Lemma bump_uid : forall c r s, v_uid (snd (bumpRevision c r s)) = v_uid s /\ v_template (snd (bumpRevision c r s)) = v_template s.
Proof.
  intros. unfold bumpRevision. destruct (v_rev s); cbn; auto.
Qed.

Lemma filter_uid_perm : forall l e, NoDup (map v_uid l) -> In e l ->
  Permutation l (e :: filter (fun s => negb (Nat.eqb (v_uid s) (v_uid e))) l).
Proof.
  induction l as [|a l IH]; intros e HN He; [destruct He|]. simpl in HN. inversion HN as [|? ? H1 H2]; subst. simpl.
  destruct (Nat.eqb (v_uid a) (v_uid e)) eqn:E; simpl.
  - apply Nat.eqb_eq in E. destruct He as [->|He].
    + apply perm_skip. clear - H1. induction l as [|b l IH]; [reflexivity|]. simpl.
      destruct (Nat.eqb (v_uid b) (v_uid e)) eqn:E; simpl.
      * apply Nat.eqb_eq in E. exfalso. apply H1. left. exact E.
      * apply perm_skip. apply IH. intro H; apply H1; right; exact H.
    + exfalso. apply H1. rewrite E. apply in_map; exact He.
  - destruct He as [->|He]; [rewrite Nat.eqb_refl in E; discriminate|].
    eapply perm_trans; [apply perm_skip, (IH e); auto|]. apply perm_swap.
Qed.

Lemma subst_perm : forall l e s3, NoDup (map v_uid l) -> In e l -> v_uid s3 = v_uid e ->
  Permutation (subst_set s3 l) (s3 :: filter (fun s => negb (Nat.eqb (v_uid s) (v_uid e))) l).
Proof.
  intros l e s3 HN He HU.
  assert (Permutation (subst_set s3 l) (subst_set s3 (e :: filter (fun s => negb (Nat.eqb (v_uid s) (v_uid e))) l))) as HP.
  { unfold subst_set. apply Permutation_map. apply filter_uid_perm; auto. }
  eapply perm_trans; [exact HP|]. unfold subst_set. cbn [map]. rewrite HU, Nat.eqb_refl.
  apply perm_skip. erewrite map_ext_in; [rewrite map_id; reflexivity|].
  intros a Ha. cbv beta. apply filter_In in Ha. destruct Ha as (_ & Ha). apply negb_true_iff in Ha. rewrite Ha. reflexivity.
Qed.

Lemma get_new_perm : forall i create t next l m sets, NoDup (map v_uid l) ->
  getNewMachineSet i create t next l = (Some (Some m), sets) ->
  Permutation (FindOldMachineSets t l ++ [m]) sets /\ v_template m = t.
Proof.
  intros i create t next l m sets HN H. unfold getNewMachineSet in H. cbv zeta in H.
  set (r := wrap64 _) in *. unfold FindOldMachineSets at 1.
  destruct (FindNewMachineSet t l) as [e|] eqn:EN.
  - destruct (findNew_spec _ _ _ EN) as (He & Hte & _).
    destruct (bumpRevision (si_annot i) r e) as [c1 s1] eqn:E1.
    destruct (bumpRevision (si_node i) r s1) as [c2 s2] eqn:E2.
    destruct (bumpRevision (si_config i) r s2) as [c3 s3] eqn:E3.
    assert (v_uid s3 = v_uid e /\ v_template s3 = v_template e) as (HU3 & HT3).
    { pose proof (bump_uid (si_annot i) r e) as A1. pose proof (bump_uid (si_node i) r s1) as A2. pose proof (bump_uid (si_config i) r s2) as A3.
      rewrite E1 in A1. rewrite E2 in A2. rewrite E3 in A3. cbn [snd] in *. destruct A1, A2, A3. split; congruence. }
    assert (Permutation (filter (fun s => negb (Nat.eqb (v_uid s) (v_uid e))) (isort byTime l)) (filter (fun s => negb (Nat.eqb (v_uid s) (v_uid e))) l)) as HPf.
    { pose proof (isort_perm byTime l) as HP. clear - HP. induction HP; simpl.
      - constructor.
      - destruct (negb _); [constructor|]; assumption.
      - destruct (negb _), (negb _); try constructor; try reflexivity.
      - reflexivity || idtac. eapply perm_trans; eauto. }
    destruct (c1 || c2 || c3) eqn:EC.
    + destruct (si_ok i); [|discriminate]. injection H as <- <-. split; [|congruence].
      assert (map (fun s => if Nat.eqb (v_uid s) (v_uid e) then s3 else s) l = subst_set s3 l) as -> by (unfold subst_set; rewrite HU3; reflexivity).
      eapply perm_trans; [|apply Permutation_sym, (subst_perm l e s3 HN He HU3)].
      eapply perm_trans; [apply Permutation_app_comm|]. simpl. apply perm_skip. exact HPf.
    + injection H as <- <-. split; [|congruence].
      apply orb_false_iff in EC. destruct EC as (EC & EC3). apply orb_false_iff in EC. destruct EC as (EC1 & EC2). subst c1 c2 c3.
      assert (forall c s s', bumpRevision c r s = (false, s') -> s' = s) as HK.
      { intros c s s' HB. unfold bumpRevision in HB. destruct (v_rev s) eqn:ER; cbv zeta in HB.
        - injection HB as HB1 HB2. apply orb_false_iff in HB1. destruct HB1 as (-> & HB1). rewrite HB1 in HB2. cbn in HB2. destruct s; cbn in *; congruence.
        - injection HB as HB1 HB2. apply orb_false_iff in HB1. destruct HB1 as (-> & HB1). rewrite HB1 in HB2. cbn in HB2. destruct s; cbn in *; congruence.
        - congruence.
        - injection HB as HB1 HB2. apply orb_false_iff in HB1. destruct HB1 as (-> & HB1). rewrite HB1 in HB2. cbn in HB2. destruct s; cbn in *; congruence. }
      apply HK in E1, E2, E3. subst s1 s2 s3.
      eapply perm_trans; [|apply Permutation_sym, (filter_uid_perm l e HN He)].
      eapply perm_trans; [apply Permutation_app_comm|]. simpl. apply perm_skip. exact HPf.
  - destruct (negb create); [discriminate|]. destruct (si_ok i); [|discriminate]. injection H as <- <-.
    split; [|reflexivity]. apply Permutation_app_tail. apply Permutation_sym, isort_perm.
Qed.

Lemma revs_perm : forall a b, Permutation a b -> Permutation (revs a) (revs b).
Proof. intros. unfold revs. apply Permutation_flat_map. assumption. Qed.

Lemma count_perm : forall p a b, Permutation a b -> count p a = count p b.
Proof.
  intros p a b H. unfold count. induction H; simpl; auto.
  - destruct (p x); simpl; congruence.
  - destruct (p x), (p y); reflexivity.
  - congruence.
Qed.

Lemma second_highest_perm : forall a b r, Permutation a b -> second_highest a r -> second_highest b r.
Proof. intros a b r H (A & B & C). unfold second_highest. rewrite <- !(count_perm _ _ _ H). auto. Qed.

Lemma findRevision_some : forall r l s, findRevision r l = Some s -> In s l /\ Revision (v_rev s) = Some r.
Proof.
  intros r l s H. apply find_some in H. destruct H as (H1 & H2). split; [exact H1|].
  destruct (Revision (v_rev s)); [|discriminate]. f_equal. lia.
Qed.

Lemma findRevision_none : forall r l s, findRevision r l = None -> In s l -> Revision (v_rev s) <> Some r.
Proof.
  intros r l s H Hs E. eapply find_none in H; [|exact Hs]. cbv beta in H. rewrite E in H. lia.
Qed.

Lemma Revision_pos : forall s r, r <> 0 -> (Revision (v_rev s) = Some r <-> has_rev s r).
Proof. intros s r Hr. unfold has_rev. destruct (v_rev s); simpl; split; intro H; try discriminate; try congruence; injection H as <-; try reflexivity; tauto. Qed.

Lemma rollback_lemma : forall i w r0, NoDup (map v_uid (vw_sets w)) ->
  vw_rollback w = Some r0 -> si_ok i = true ->
  let w' := rollback i true w in
  vw_rollback w' = None /\ vw_sets w' = vw_sets (syncRevision i true w) /\
  (r0 <> 0 -> (exists s, In s (vw_sets w') /\ has_rev s r0 /\ vw_template w' = v_template s) \/
              ((forall s, In s (vw_sets w') -> ~ has_rev s r0) /\ vw_template w' = vw_template w)) /\
  (r0 = 0 -> exists r, second_highest (revs (vw_sets w')) r /\
      ((0 < r /\ exists s, In s (vw_sets w') /\ has_rev s r /\ vw_template w' = v_template s) \/
       (r = 0 /\ vw_template w' = vw_template w))).
Proof.
  intros i w r0 HN Hr Hok. cbv zeta. unfold rollback, syncRevision. rewrite Hr.
  destruct (getNewMachineSet i true (vw_template w) (vw_next w) (vw_sets w)) as [n sets] eqn:EG. cbn [snd].
  assert (exists m, n = Some (Some m)) as (m & ->).
  { unfold getNewMachineSet in EG. cbv zeta in EG. destruct (FindNewMachineSet _ _).
    - destruct (bumpRevision _ _ v) as [? ?]. destruct (bumpRevision _ _ v0) as [? ?]. destruct (bumpRevision _ _ v1) as [? ?].
      rewrite Hok in EG. destruct (b || b0 || b1); injection EG as <- _; eauto.
    - cbn [negb] in EG. rewrite Hok in EG. injection EG as <- _. eauto. }
  destruct (get_new_perm _ _ _ _ _ _ _ HN EG) as (HP & Htm).
  set (all := FindOldMachineSets (vw_template w) (vw_sets w) ++ [m]) in *. cbn [vw_rollback vw_sets vw_template].
  assert (forall s, In s all <-> In s sets) as HI.
  { intro s; split; intro H; eapply Permutation_in; [exact HP|exact H|apply Permutation_sym; exact HP|exact H]. }
  split; [reflexivity|]. split; [reflexivity|].
  assert (forall r, r <> 0 ->
    (exists s, In s sets /\ has_rev s r /\ (match findRevision r all with Some s => v_template s | None => vw_template w end) = v_template s) \/
    ((forall s, In s sets -> ~ has_rev s r) /\ (match findRevision r all with Some s => v_template s | None => vw_template w end) = vw_template w)) as HF.
  { intros r Hnz. destruct (findRevision r all) as [s|] eqn:EF.
    - apply findRevision_some in EF. destruct EF as (E1 & E2). left. exists s. rewrite <- HI, <- (Revision_pos s r Hnz). auto.
    - right. split; [|reflexivity]. intros s Hs. rewrite <- (Revision_pos s r Hnz). apply (findRevision_none r all); [exact EF|apply HI; exact Hs]. }
  split.
  - intro Hnz. destruct (r0 =? 0) eqn:E0; [lia|]. rewrite E0. apply HF; exact Hnz.
  - intros ->. cbn [Z.eqb]. exists (LastRevision all).
    pose proof (last_revision_spec all) as HS. split; [eapply second_highest_perm; [apply revs_perm; exact HP|exact HS]|].
    destruct (LastRevision all =? 0) eqn:E0; [right; split; [lia|reflexivity]|]. left. destruct HS as (H0 & H1 & H2).
    split; [lia|]. destruct (HF (LastRevision all) ltac:(lia)) as [H|(H & _)]; [exact H|].
    (* a revision counted at least twice is carried by some set *)
    exfalso. clear - H H0 H1 H2 E0 HI.
    assert (forall l m s, 0 <= s <= m -> (forall x, In x l -> ~ has_rev x (lastRevisionFrom m s l)) -> lastRevisionFrom m s l = m \/ lastRevisionFrom m s l = s) as HL.
    { induction l as [|x l IH]; intros m0 s0 Hms Hx; [right; reflexivity|]. cbn [lastRevisionFrom] in *.
      destruct (Revision (v_rev x)) as [v|] eqn:ER; [|apply IH; [exact Hms|]; intros; apply Hx; right; assumption].
      assert (lastRevisionFrom m0 s0 (x :: l) <> 0 -> has_rev x v \/ v = 0) as Hv.
      { intros _. destruct (Z.eq_dec v 0); [right; assumption|left; apply Revision_pos; assumption]. }
      destruct (v >=? m0) eqn:G1; [|destruct (v >? s0) eqn:G2].
      - destruct (IH v m0 ltac:(lia)) as [E|E]; [intros; apply Hx; right; assumption| |left; exact E].
        left. rewrite E in *. destruct (Z.eq_dec v 0) as [->|Hnz]; [lia|]. exfalso. apply (Hx x (or_introl eq_refl)). apply Revision_pos; assumption.
      - destruct (IH m0 v ltac:(lia)) as [E|E]; [intros; apply Hx; right; assumption|left; exact E|].
        rewrite E in *. exfalso. apply (Hx x (or_introl eq_refl)). apply Revision_pos; [lia|assumption].
      - apply IH; [exact Hms|]. intros; apply Hx; right; assumption. }
    destruct (HL all 0 0 ltac:(lia)) as [E|E]; [intros x Hx; apply H; apply HI; exact Hx| |];
      fold (LastRevision all) in E; lia.
Qed.

Lemma vinv_step : forall w k o, vinv k w -> 0 <= k < 9223372036854775807 -> vinv (k + 1) (vstep w o) /\
  (forall s s' z z', In s (vw_sets w) -> In s' (vw_sets (vstep w o)) -> v_uid s = v_uid s' -> has_rev s z -> has_rev s' z' -> z <= z').
Proof.
  intros w k o Hi Hk.
  assert (forall t rb n', (vw_next w <= n')%nat -> vinv (k+1) (mkVW t rb (vw_sets w) n') /\
     (forall s s' z z', In s (vw_sets w) -> In s' (vw_sets w) -> v_uid s = v_uid s' -> has_rev s z -> has_rev s' z' -> z <= z')) as Hsame.
  { intros t rb n' Hn. destruct Hi as (A & B & C & D). split.
    - unfold vinv; cbn [vw_sets vw_next]. repeat split; auto.
      + eapply Forall_impl; [|exact A]. cbv beta. intros s (z & H1 & H2). exists z. split; [exact H1|lia].
      + eapply Forall_impl; [|exact D]. cbv beta. intros; lia.
    - intros s s' z z' Hs Hs' E Hz Hz'. assert (s = s') as <- by (eapply (key_inj2 _ _ v_uid); eauto).
      unfold has_rev in *. rewrite Hz in Hz'. injection Hz' as <-. lia. }
  assert (forall i create n sets t rb, getNewMachineSet i create (vw_template w) (vw_next w) (vw_sets w) = (n, sets) ->
     vinv (k+1) (mkVW t rb sets (S (vw_next w))) /\
     (forall s s' z z', In s (vw_sets w) -> In s' sets -> v_uid s = v_uid s' -> has_rev s z -> has_rev s' z' -> z <= z')) as HG.
  { intros i create n sets t rb EG. destruct (get_new_spec i create w k n sets Hi Hk EG) as (A & B & _). split; [exact A|].
    intros s s' z z' Hs Hs' E Hz Hz'. destruct (B s Hs) as (x & Hx & E1 & _ & _ & E2).
    assert (x = s') as -> by (destruct A as (_ & _ & A & _); cbn [vw_sets] in A; eapply (key_inj2 _ _ v_uid); eauto; congruence).
    eapply E2; eauto. }
  destruct o as [i create|i ok|t|r|u]; cbn [vstep].
  - unfold syncRevision. destruct (getNewMachineSet _ _ _ _ _) as [n sets] eqn:EG. cbn [snd vw_sets]. eapply HG; eauto.
  - unfold rollback. destruct (vw_rollback w) as [r0|] eqn:ER.
    2:{ destruct (Hsame (vw_template w) (vw_rollback w) (vw_next w) (le_n _)) as (A & B). rewrite ER in *.
        assert (mkVW (vw_template w) None (vw_sets w) (vw_next w) = w) as E by (rewrite <- ER; destruct w; reflexivity).
        rewrite E in A. split; assumption. }
    destruct (getNewMachineSet _ _ _ _ _) as [n sets] eqn:EG.
    destruct n as [[m|]|]; cbn [vw_sets]; try (eapply HG; eauto; fail).
    destruct ok; cbn [vw_sets]; eapply HG; eauto.
  - apply Hsame. lia.
  - apply Hsame. lia.
  - cbn [vw_sets]. destruct (Hsame (vw_template w) (vw_rollback w) (vw_next w) (le_n _)) as ((A & B & C & D) & E).
    cbn [vw_sets vw_next] in *.
    assert (forall (B : Type) (f : VSet -> B) (g : VSet -> bool) l, NoDup (map f l) -> NoDup (map f (filter g l))) as HNF.
    { intros B0 f g l. induction l as [|a l IH]; simpl; intro H; [constructor|].
      inversion H as [|? ? H1 H2]; subst. destruct (g a); simpl; auto. constructor; auto.
      intro HI. apply H1. apply in_map_iff in HI. destruct HI as (x & Ex & Hx). apply filter_In in Hx.
      apply in_map_iff. exists x; tauto. }
    split.
    + unfold vinv; cbn [vw_sets vw_next]. repeat split; auto; rewrite Forall_forall in *; intros s Hs; apply filter_In in Hs; destruct Hs; auto.
    + intros s s' z z' Hs Hs'. apply filter_In in Hs'. apply E; tauto.
Qed.

Lemma vinv_run : forall l w k, vinv k w -> 0 <= k -> k + Z.of_nat (length l) < 9223372036854775808 ->
  vinv (k + Z.of_nat (length l)) (vrun w l).
Proof.
  induction l as [|o l IH]; intros w k Hi Hk Hl.
  - simpl. rewrite Z.add_0_r. exact Hi.
  - cbn [vrun fold_left length] in *. replace (k + Z.of_nat (S (length l))) with (k + 1 + Z.of_nat (length l)) by lia.
    apply IH; [|lia|lia]. apply vinv_step; [exact Hi|lia].
Qed.

Lemma vinv_fresh : forall w, vfresh w -> vinv 0 w.
Proof. intros w H. unfold vinv. rewrite H. simpl. repeat split; constructor. Qed.

Lemma c10_lemma : forall w l, vfresh w -> Z.of_nat (length l) < 9223372036854775807 ->
  let w' := vrun w l in
  Forall (fun s => exists z, has_rev s z /\ 1 <= z) (vw_sets w') /\ NoDup (map v_rev (vw_sets w')) /\
  (forall o s s' z z', In s (vw_sets w') -> In s' (vw_sets (vstep w' o)) -> v_uid s = v_uid s' ->
     has_rev s z -> has_rev s' z' -> z <= z') /\
  (forall i create, si_ok i = true ->
     create = true \/ (exists s, In s (vw_sets w') /\ v_template s = vw_template w') ->
     let w'' := vstep w' (VSync i create) in
     exists n z, current w'' n /\ has_rev n z /\
       forall s z', In s (vw_sets w'') -> v_uid s <> v_uid n -> has_rev s z' -> z' < z).
Proof.
  intros w l Hw Hl w'. pose proof (vinv_run l w 0 (vinv_fresh w Hw) ltac:(lia) ltac:(lia)) as Hi. rewrite Z.add_0_l in Hi. fold w' in Hi.
  split. { destruct Hi as (A & _). eapply Forall_impl; [|exact A]. cbv beta. intros s (z & H1 & H2). exists z; split; [exact H1|lia]. }
  split; [apply Hi|]. split.
  - intros o. apply (vinv_step w' _ o Hi). lia.
  - intros i create Hok Hex. cbn [vstep]. unfold syncRevision.
    destruct (getNewMachineSet i create (vw_template w') (vw_next w') (vw_sets w')) as [n sets] eqn:EG. cbn [snd].
    destruct (get_new_spec i create w' _ n sets Hi ltac:(lia) EG) as (_ & _ & HC & _).
    assert (exists m, n = Some (Some m)) as (m & ->).
    { unfold getNewMachineSet in EG. cbv zeta in EG. destruct (FindNewMachineSet (vw_template w') (vw_sets w')) as [e|] eqn:EN.
      - destruct (bumpRevision _ _ e) as [c1 s1]. destruct (bumpRevision _ _ s1) as [c2 s2]. destruct (bumpRevision _ _ s2) as [c3 s3].
        rewrite Hok in EG. destruct (c1 || c2 || c3); injection EG as <- _; eauto.
      - destruct Hex as [->|(s & Hs & Ht)]; [|exfalso; eapply findNew_none'; eauto].
        cbn [negb] in EG. rewrite Hok in EG. injection EG as <- _. eauto. }
    destruct (HC m eq_refl) as (H1 & H2 & H3 & z & H4 & H5).
    exists m, z. unfold current; cbn [vw_sets vw_template]. auto.
Qed.

(** *** The history annotation *)
Definition rv_kept (s s' : VSet) : Prop :=
  ~ In RevEmpty (v_hist s') /\ v_rev s' <> RevEmpty /\
  (forall z, has_rev s z -> has_rev s' z \/ In (RevInt z) (v_hist s')) /\
  (forall z, In (RevInt z) (v_hist s) -> In (RevInt z) (v_hist s')).

Lemma kept_refl : forall s, ~ In RevEmpty (v_hist s) -> v_rev s <> RevEmpty -> rv_kept s s.
Proof. intros s A B. split; [exact A|]. split; [exact B|]. split; auto. Qed.

Lemma kept_trans : forall a b c, rv_kept a b -> rv_kept b c -> rv_kept a c.
Proof.
  intros a b c (A1 & A2 & A3 & A4) (B1 & B2 & B3 & B4). split; [exact B1|]. split; [exact B2|]. split; [|auto].
  intros z H. destruct (A3 z H) as [K|K]; auto.
Qed.

Lemma bump_kept : forall c r s, ~ In RevEmpty (v_hist s) -> v_rev s <> RevEmpty -> rv_kept s (snd (bumpRevision c r s)).
Proof.
  intros c r s A B. pose proof (kept_refl s A B) as K. unfold bumpRevision.
  destruct (v_rev s) as [| | |z] eqn:E; [|congruence|exact K|]; cbn [snd].
  - unfold rv_kept, has_rev. cbn [v_rev v_hist andb]. rewrite E.
    split; [exact A|]. split; [destruct (0 <? r); discriminate|]. split; [intros z H; discriminate|auto].
  - unfold rv_kept, has_rev. cbn [v_rev v_hist andb]. rewrite E.
    assert (HH : ~ In RevEmpty (match v_hist s with [] | RevEmpty :: _ => [RevInt z] | h => h ++ [RevInt z] end) /\
                 In (RevInt z) (match v_hist s with [] | RevEmpty :: _ => [RevInt z] | h => h ++ [RevInt z] end) /\
                 forall x, In (RevInt x) (v_hist s) -> In (RevInt x) (match v_hist s with [] | RevEmpty :: _ => [RevInt z] | h => h ++ [RevInt z] end)).
    { destruct (v_hist s) as [|h l] eqn:EH.
      - split; [intros [H|[]]; discriminate|]. split; [left; reflexivity|intros x []].
      - assert (N : h <> RevEmpty) by (intros ->; apply A; left; reflexivity).
        assert (G : ~ In RevEmpty ((h :: l) ++ [RevInt z]) /\ In (RevInt z) ((h :: l) ++ [RevInt z]) /\
                    forall x, In (RevInt x) (h :: l) -> In (RevInt x) ((h :: l) ++ [RevInt z])).
        { split; [|split].
          - intros H. apply in_app_or in H. destruct H as [H|[H|[]]]; [exact (A H)|discriminate].
          - apply in_or_app. right. left. reflexivity.
          - intros x H. apply in_or_app. left. exact H. }
        destruct h; try exact G. congruence. }
    destruct HH as (H1 & H2 & H3).
    destruct (c || (z <? r)) eqn:EC.
    + split; [exact H1|]. split; [destruct (z <? r); discriminate|]. split; [|exact H3].
      intros x Hx. injection Hx as <-. right. exact H2.
    + apply orb_false_iff in EC. destruct EC as (_ & EZ). rewrite EZ.
      split; [exact A|]. split; [discriminate|]. split; [auto|auto].
Qed.

Lemma bump_uid_kept : forall c r s, v_uid (snd (bumpRevision c r s)) = v_uid s.
Proof. intros c r s. unfold bumpRevision. destruct (match v_rev s with RevInt z => Some z | RevMissing | RevEmpty => Some 0 | RevBad => None end); reflexivity. Qed.

Definition rv_clean (w : VWorld) : Prop :=
  Forall (fun s => ~ In RevEmpty (v_hist s) /\ v_rev s <> RevEmpty /\ (v_uid s < vw_next w)%nat) (vw_sets w).

Lemma get_new_kept : forall i create w n sets, rv_clean w -> NoDup (map v_uid (vw_sets w)) ->
  getNewMachineSet i create (vw_template w) (vw_next w) (vw_sets w) = (n, sets) ->
  NoDup (map v_uid sets) /\
  (forall s', In s' sets -> ~ In RevEmpty (v_hist s') /\ v_rev s' <> RevEmpty /\ (v_uid s' < S (vw_next w))%nat) /\
  forall s', In s' sets -> (v_uid s' < vw_next w)%nat -> exists s, In s (vw_sets w) /\ v_uid s = v_uid s' /\ rv_kept s s'.
Proof.
  intros i create w n sets C ND G. unfold rv_clean in C. rewrite Forall_forall in C.
  assert (S1 : (forall s', In s' (vw_sets w) -> ~ In RevEmpty (v_hist s') /\ v_rev s' <> RevEmpty /\ (v_uid s' < S (vw_next w))%nat)).
  { intros s Hs. destruct (C s Hs) as (A & B & D). split; [exact A|]. split; [exact B|lia]. }
  assert (S2 : forall s', In s' (vw_sets w) -> (v_uid s' < vw_next w)%nat -> exists s, In s (vw_sets w) /\ v_uid s = v_uid s' /\ rv_kept s s').
  { intros s Hs _. exists s. destruct (C s Hs) as (A & B & _). split; [exact Hs|]. split; [reflexivity|apply kept_refl; assumption]. }
  unfold getNewMachineSet in G.
  set (r := wrap64 _) in G.
  destruct (FindNewMachineSet (vw_template w) (vw_sets w)) as [e|] eqn:EN.
  - destruct (findNew_spec _ _ _ EN) as (He & _ & _). destruct (C e He) as (A & B & D).
    pose proof (bump_kept (si_annot i) r e A B) as K1. pose proof (bump_uid_kept (si_annot i) r e) as U1.
    destruct (bumpRevision (si_annot i) r e) as [c1 s1]. cbn [snd] in K1, U1.
    pose proof (bump_kept (si_node i) r s1 (proj1 K1) (proj1 (proj2 K1))) as K2. pose proof (bump_uid_kept (si_node i) r s1) as U2.
    destruct (bumpRevision (si_node i) r s1) as [c2 s2]. cbn [snd] in K2, U2.
    pose proof (bump_kept (si_config i) r s2 (proj1 K2) (proj1 (proj2 K2))) as K3. pose proof (bump_uid_kept (si_config i) r s2) as U3.
    destruct (bumpRevision (si_config i) r s2) as [c3 s3]. cbn [snd] in K3, U3.
    assert (K : rv_kept e s3) by (eapply kept_trans; [exact K1|]; eapply kept_trans; [exact K2|exact K3]).
    assert (U : v_uid s3 = v_uid e) by congruence.
    destruct (c1 || c2 || c3); [|injection G as <- <-; auto].
    destruct (si_ok i); injection G as <- <-; [|auto].
    rewrite <- U. change (map (fun s => if Nat.eqb (v_uid s) (v_uid s3) then s3 else s) (vw_sets w)) with (subst_set s3 (vw_sets w)).
    split; [rewrite subst_uid; exact ND|]. split.
    + intros s' Hs. apply subst_in in Hs. destruct Hs as (y & Hy & EU & [(E1 & ->)|(E1 & ->)]); [|exact (S1 y Hy)].
      split; [exact (proj1 K)|]. split; [exact (proj1 (proj2 K))|]. rewrite U. lia.
    + intros s' Hs L. apply subst_in in Hs. destruct Hs as (y & Hy & EU & [(E1 & ->)|(E1 & ->)]); [|exact (S2 y Hy L)].
      exists e. split; [exact He|]. split; [congruence|exact K].
  - destruct create; cbn [negb] in G; [|injection G as <- <-; auto].
    destruct (si_ok i); [|injection G as <- <-; auto].
    set (s0 := mkV (vw_next w) (si_now i) (vw_template w) RevMissing []) in G.
    pose proof (bump_kept true r s0 (fun H => H) ltac:(discriminate)) as K. pose proof (bump_uid_kept true r s0) as U. cbn [v_uid s0] in U.
    cbv zeta in G. set (sn := snd (bumpRevision true r s0)) in *. injection G as <- <-.
    assert (F : ~ In (vw_next w) (map v_uid (vw_sets w))).
    { intros H. apply in_map_iff in H. destruct H as (x & E & Hx). destruct (C x Hx) as (_ & _ & L). lia. }
    split; [|split].
    + rewrite map_app. cbn [map]. rewrite U. eapply Permutation_NoDup; [apply Permutation_app_comm|]. cbn. constructor; assumption.
    + intros s' Hs. apply in_app_or in Hs. destruct Hs as [Hs|[<-|[]]]; [exact (S1 s' Hs)|].
      split; [exact (proj1 K)|]. split; [exact (proj1 (proj2 K))|]. rewrite U. lia.
    + intros s' Hs L. apply in_app_or in Hs. destruct Hs as [Hs|[<-|[]]]; [exact (S2 s' Hs L)|]. rewrite U in L. lia.
Qed.

Lemma filter_uid : forall u l, NoDup (map v_uid l) -> NoDup (map v_uid (filter (fun s => negb (Nat.eqb (v_uid s) u)) l)).
Proof.
  intros u l. induction l as [|a l IH]; intros H; [constructor|]. cbn in *. inversion H as [|? ? H1 H2]; subst.
  destruct (negb _); [|auto]. cbn. constructor; [|auto]. intros K. apply H1. apply in_map_iff in K. destruct K as (x & E & Hx).
  apply filter_In in Hx. rewrite <- E. apply in_map. tauto.
Qed.

Lemma vstep_kept : forall w o, rv_clean w -> NoDup (map v_uid (vw_sets w)) ->
  let w' := vstep w o in
  rv_clean w' /\ NoDup (map v_uid (vw_sets w')) /\ (vw_next w <= vw_next w')%nat /\
  forall s', In s' (vw_sets w') -> (v_uid s' < vw_next w)%nat -> exists s, In s (vw_sets w) /\ v_uid s = v_uid s' /\ rv_kept s s'.
Proof.
  intros w o C ND. cbv zeta.
  assert (S2 : forall s', In s' (vw_sets w) -> (v_uid s' < vw_next w)%nat -> exists s, In s (vw_sets w) /\ v_uid s = v_uid s' /\ rv_kept s s').
  { intros s Hs _. exists s. unfold rv_clean in C. rewrite Forall_forall in C. destruct (C s Hs) as (A & B & _).
    split; [exact Hs|]. split; [reflexivity|apply kept_refl; assumption]. }
  destruct o as [i create|i ok|t|r|u]; cbn [vstep].
  - unfold syncRevision. destruct (getNewMachineSet i create (vw_template w) (vw_next w) (vw_sets w)) as [n sets] eqn:E.
    destruct (get_new_kept _ _ _ _ _ C ND E) as (A & B & D). cbn [vw_sets vw_next snd].
    split; [unfold rv_clean; rewrite Forall_forall; exact B|]. split; [exact A|]. split; [lia|exact D].
  - unfold rollback. destruct (vw_rollback w) as [r0|]; [|split; [exact C|]; split; [exact ND|]; split; [lia|exact S2]].
    destruct (getNewMachineSet i true (vw_template w) (vw_next w) (vw_sets w)) as [n sets] eqn:E.
    destruct (get_new_kept _ _ _ _ _ C ND E) as (A & B & D).
    assert (G : forall t q, let w' := mkVW t q sets (S (vw_next w)) in
      rv_clean w' /\ NoDup (map v_uid (vw_sets w')) /\ (vw_next w <= vw_next w')%nat /\
      forall s', In s' (vw_sets w') -> (v_uid s' < vw_next w)%nat -> exists s, In s (vw_sets w) /\ v_uid s = v_uid s' /\ rv_kept s s').
    { intros t q. cbn [vw_sets vw_next]. split; [unfold rv_clean; rewrite Forall_forall; exact B|]. split; [exact A|]. split; [lia|exact D]. }
    destruct n as [[m|]|]; try apply G. destruct ok; apply G.
  - cbn [vw_sets vw_next]. split; [exact C|]. split; [exact ND|]. split; [lia|exact S2].
  - cbn [vw_sets vw_next]. split; [exact C|]. split; [exact ND|]. split; [lia|exact S2].
  - cbn [vw_sets vw_next]. split; [|split; [apply filter_uid; exact ND|split; [lia|]]].
    + unfold rv_clean in *. cbn [vw_sets vw_next]. rewrite Forall_forall in *. intros s Hs. apply filter_In in Hs. apply C. tauto.
    + intros s Hs L. apply filter_In in Hs. apply S2; tauto.
Qed.

Lemma vrun_kept : forall l w, rv_clean w -> NoDup (map v_uid (vw_sets w)) ->
  let w' := vrun w l in
  rv_clean w' /\ NoDup (map v_uid (vw_sets w')) /\ (vw_next w <= vw_next w')%nat /\
  forall s', In s' (vw_sets w') -> (v_uid s' < vw_next w)%nat -> exists s, In s (vw_sets w) /\ v_uid s = v_uid s' /\ rv_kept s s'.
Proof.
  induction l as [|o l IH]; intros w C ND; cbn.
  - split; [exact C|]. split; [exact ND|]. split; [lia|]. intros s Hs _. exists s.
    unfold rv_clean in C. rewrite Forall_forall in C. destruct (C s Hs) as (A & B & _).
    split; [exact Hs|]. split; [reflexivity|apply kept_refl; assumption].
  - destruct (vstep_kept w o C ND) as (C1 & N1 & L1 & K1). destruct (IH _ C1 N1) as (C2 & N2 & L2 & K2).
    change (fold_left vstep l (vstep w o)) with (vrun (vstep w o) l).
    split; [exact C2|]. split; [exact N2|]. split; [lia|].
    intros s' Hs L. destruct (K2 s' Hs ltac:(lia)) as (b & Hb & E1 & KB). destruct (K1 b Hb ltac:(lia)) as (a & Ha & E2 & KA).
    exists a. split; [exact Ha|]. split; [congruence|]. eapply kept_trans; eassumption.
Qed.

Lemma history_lemma : forall w l1 l2, vfresh w ->
  forall s s' z, In s (vw_sets (vrun w l1)) -> In s' (vw_sets (vrun w (l1 ++ l2))) -> v_uid s = v_uid s' -> has_rev s z ->
  has_rev s' z \/ In (RevInt z) (v_hist s').
Proof.
  intros w l1 l2 F s s' z Hs Hs' E Hz.
  assert (C : rv_clean w) by (unfold rv_clean; rewrite F; constructor).
  assert (N : NoDup (map v_uid (vw_sets w))) by (rewrite F; constructor).
  destruct (vrun_kept l1 w C N) as (C1 & N1 & _ & _).
  unfold vrun in Hs'. rewrite fold_left_app in Hs'. fold (vrun w l1) in Hs'.
  destruct (vrun_kept l2 _ C1 N1) as (_ & _ & _ & K).
  unfold rv_clean in C1. rewrite Forall_forall in C1. destruct (C1 s Hs) as (_ & _ & L).
  destruct (K s' Hs' ltac:(lia)) as (a & Ha & EA & (_ & _ & K3 & _)).
  assert (a = s) as -> by (eapply (key_inj2 _ _ v_uid); [exact N1|exact Ha|exact Hs|congruence]).
  exact (K3 z Hz).
Qed.
