Require Import Coq.ZArith.ZArith Coq.Lists.List Coq.Strings.String Coq.Bool.Bool Coq.micromega.Lia.
Require Import Coq.Sorting.Permutation Coq.Sorting.Sorted.
From Verif Require Import Types Sort RolloutModel RolloutSpec RolloutRun RolloutProofs ScaleModel ScaleSpec.
Import ListNotations.
Open Scope Z_scope.
Require Import Coq.micromega.ZifyBool.
Ltac Zify.zify_post_hook ::= Z.div_mod_to_equations.

Lemma wrap32_id : forall z, 0 <= z < 2147483648 -> wrap32 z = z.
Proof. intros; unfold wrap32. rewrite Z.mod_small; lia. Qed.

Lemma roundDiv_bounds : forall s D a, 0 <= s -> 0 <= D -> 0 < a -> D <= a ->
  exists r, roundDiv (s * D) a = Some r /\ 0 <= r <= s /\ 2 * s * D - a <= 2 * a * r.
Proof.
  intros s D a Hs HD Ha Hle. unfold roundDiv.
  destruct (a =? 0) eqn:E1; [lia|]. destruct (a <? 0) eqn:E2; [lia|]. cbv zeta.
  assert (0 <= s * D) by nia. destruct (s * D <? 0) eqn:E3; [lia|].
  rewrite Z.abs_eq by lia. eexists; split; [reflexivity|].
  assert (0 <= (2 * (s * D) + a) / (2 * a)) by (apply Z.div_pos; lia).
  assert (2 * a * ((2 * (s * D) + a) / (2 * a)) <= 2 * (s * D) + a) by (apply Z.mul_div_le; lia).
  assert (2 * (s * D) + a < 2 * a * Z.succ ((2 * (s * D) + a) / (2 * a))) by (apply Z.mul_succ_div_gt; lia).
  set (q := (2 * (s * D) + a) / (2 * a)) in *. clearbody q.
  split; [|nia]. split; [lia|].
  assert (s * D <= s * a) by nia. nia.
Qed.

Lemma prop_step : forall d surge s toAdd added,
  MaxSurge d = surge -> 0 <= surge -> 0 <= md_replicas d -> 0 < ms_spec s ->
  toAdd < 0 -> toAdd <= added <= 0 ->
  (0 < md_replicas d -> md_replicas d + surge <= recorded_max d s /\ ms_spec s * (md_replicas d + surge) < 2147483648) ->
  exists p, GetProportion d s toAdd added = Some p /\
    - ms_spec s <= p <= 0 /\ toAdd <= added + p /\
    (0 < md_replicas d ->
       2 * ms_spec s * (md_replicas d + surge) - recorded_max d s <= 2 * recorded_max d s * (ms_spec s + p)).
Proof.
  intros d surge s toAdd added Hsu Hs0 HR Hsp Hta Hadd Hrec. unfold GetProportion.
  destruct ((ms_spec s =? 0) || (toAdd =? 0) || (toAdd =? added)) eqn:E.
  { exists 0. split; [reflexivity|]. split; [lia|]. split; [lia|]. intro H; destruct (Hrec H) as (H1 & H2).
    assert (ms_spec s * (md_replicas d + surge) <= ms_spec s * recorded_max d s) by (apply Z.mul_le_mono_nonneg_l; lia).
    rewrite Z.add_0_r. clear - H0 H1 Hs0 H. nia. }
  unfold getMachineSetFraction. rewrite Hsu.
  destruct (md_replicas d =? 0) eqn:E0.
  { destruct (toAdd >? 0) eqn:E1; [lia|]. eexists; split; [reflexivity|]. split; [lia|]. split; [lia|]. lia. }
  destruct (Hrec ltac:(lia)) as (H1 & H2). cbv zeta.
  fold (recorded_max d s). rewrite wrap32_id by nia.
  destruct (roundDiv_bounds (ms_spec s) (md_replicas d + surge) (recorded_max d s)) as (r & -> & Hr & Hsh); try lia.
  destruct (toAdd >? 0) eqn:E1; [lia|]. eexists; split; [reflexivity|].
  split; [lia|]. split; [lia|]. intros _.
  assert (r <= ms_spec s + Z.max (r - ms_spec s) (toAdd - added)) as Hm by lia.
  assert (2 * recorded_max d s * r <= 2 * recorded_max d s * (ms_spec s + Z.max (r - ms_spec s) (toAdd - added)))
    by (apply Z.mul_le_mono_nonneg_l; lia). lia.
Qed.

Lemma prop_loop : forall d surge toAdd l added,
  MaxSurge d = surge -> 0 <= surge -> 0 <= md_replicas d ->
  Forall (fun s => 0 < ms_spec s) l ->
  toAdd < 0 -> toAdd <= added <= 0 ->
  (0 < md_replicas d -> Forall (fun s => md_replicas d + surge <= recorded_max d s /\ ms_spec s * (md_replicas d + surge) < 2147483648) l) ->
  exists sizes a, scaleMachineSetsProportionally d toAdd added l = Some (sizes, a) /\
    toAdd <= a <= added /\
    sum (fun z => z) sizes = requested l + (a - added) /\
    Forall2 (fun n s => 0 <= n <= ms_spec s /\
      (0 < md_replicas d -> 2 * ms_spec s * (md_replicas d + surge) - recorded_max d s <= 2 * recorded_max d s * n)) sizes l.
Proof.
  intros d surge toAdd l. induction l as [|s l IH]; intros added Hsu Hs0 HR Hp Hta Hadd Hrec; cbn [scaleMachineSetsProportionally].
  - exists [], added. repeat split; try lia; try constructor. unfold requested, sum; simpl; lia.
  - inversion Hp as [|? ? Hp1 Hp2]; subst.
    destruct (toAdd =? 0) eqn:E0; [lia|].
    assert (0 < md_replicas d -> md_replicas d + MaxSurge d <= recorded_max d s /\ ms_spec s * (md_replicas d + MaxSurge d) < 2147483648) as Hr1.
    { intro H; specialize (Hrec H); inversion Hrec; assumption. }
    destruct (prop_step d _ s toAdd added eq_refl Hs0 HR Hp1 Hta Hadd Hr1) as (p & -> & A & B & C).
    assert (0 < md_replicas d -> Forall (fun s => md_replicas d + MaxSurge d <= recorded_max d s /\ ms_spec s * (md_replicas d + MaxSurge d) < 2147483648) l) as Hr2.
    { intro H; specialize (Hrec H); inversion Hrec; assumption. }
    destruct (IH (added + p) eq_refl Hs0 HR Hp2 Hta ltac:(lia) Hr2) as (sizes & a & -> & D & E & F).
    exists (ms_spec s + p :: sizes), a. split; [reflexivity|]. split; [lia|]. split.
    + unfold requested, sum in *; simpl; lia.
    + constructor; [|exact F]. split; [lia|exact C].
Qed.

Lemma F2_combine : forall A B (R : B -> A -> Prop) l m, Forall2 R l m ->
  Forall (fun p => R (snd p) (fst p)) (combine m l) /\ map fst (combine m l) = m /\ map snd (combine m l) = l.
Proof.
  intros A B R l m H; induction H as [|a b l m Hab H (I1 & I2 & I3)]; simpl; [repeat split; constructor|].
  split; [constructor; assumption|]. split; congruence.
Qed.

Lemma sum_snd : forall A (l : list (A * Z)), sum snd l = sum (fun z => z) (map snd l).
Proof. intros. unfold sum. induction l; simpl; congruence. Qed.

Lemma active_filter : forall l, FilterActiveMachineSets l = filter (fun s => 0 <? ms_spec s) l.
Proof. intros. unfold FilterActiveMachineSets. apply filter_ext. intro a. rewrite Z.gtb_ltb. reflexivity. Qed.

Lemma filter_perm : forall A (f : A -> bool) l m, Permutation l m -> Permutation (filter f l) (filter f m).
Proof.
  intros A f l m H; induction H; simpl.
  - constructor.
  - destruct (f x); [constructor|]; assumption.
  - destruct (f y), (f x); try constructor; try reflexivity.
  - etransitivity; eauto.
Qed.

Lemma active_perm : forall newIS olds,
  Permutation (FilterActiveMachineSets (allSets newIS (isort (fun a b => byCreation b a) olds)))
              (active_sets newIS olds).
Proof.
  intros. rewrite active_filter. unfold active_sets, allSets, all_sets. apply filter_perm.
  apply Permutation_app_tail. apply Permutation_sym, isort_perm.
Qed.

Lemma byCreation_total : forall a b, byCreation a b = true \/ byCreation b a = true.
Proof.
  intros a b. unfold byCreation.
  destruct (Z.lt_trichotomy (ms_ctime a) (ms_ctime b)) as [H|[H|H]]; [left; lia| |right; lia].
  destruct (String.leb_total (ms_name a) (ms_name b)) as [E|E]; rewrite E; [left|right]; lia.
Qed.

Lemma sleb_trans : forall a b c, String.leb a b = true -> String.leb b c = true -> String.leb a c = true.
Proof.
  assert (forall a b, String.leb a b = true <-> (String.compare a b = Lt \/ String.compare a b = Eq)) as H.
  { intros a b. unfold String.leb. destruct (String.compare a b); split; intro; try tauto; try discriminate; intuition discriminate. }
  assert (forall x y, Ascii.compare x y = N.compare (Ascii.N_of_ascii x) (Ascii.N_of_ascii y)) as HA by reflexivity.
  induction a as [|x a IH]; intros b c; rewrite !H; intros H1 H2.
  - destruct c; simpl; auto.
  - destruct b as [|y b]; simpl in H1; [destruct H1; discriminate|].
    destruct c as [|z c]; simpl in *; [destruct H2; discriminate|].
    rewrite !HA in *.
    destruct (N.compare_spec (Ascii.N_of_ascii x) (Ascii.N_of_ascii y)) as [E|E|E];
    destruct (N.compare_spec (Ascii.N_of_ascii y) (Ascii.N_of_ascii z)) as [F|F|F];
    destruct (N.compare_spec (Ascii.N_of_ascii x) (Ascii.N_of_ascii z)) as [G|G|G]; auto;
    try (destruct H1; discriminate); try (destruct H2; discriminate); try lia.
    rewrite <- H in *. eapply IH; eauto; apply H; assumption.
Qed.

Lemma byCreation_trans : forall a b c, byCreation a b = true -> byCreation b c = true -> byCreation a c = true.
Proof.
  unfold byCreation; intros a b c H1 H2.
  destruct (ms_ctime a <? ms_ctime c) eqn:E; [reflexivity|]. simpl.
  assert (ms_ctime a = ms_ctime b /\ ms_ctime b = ms_ctime c) as (E1 & E2) by lia.
  rewrite E1, E2, Z.eqb_refl, ?Z.ltb_irrefl in *. simpl in *. eapply sleb_trans; eauto.
Qed.

Lemma bySizeOlder_total : total bySizeOlder.
Proof.
  intros a b. unfold bySizeOlder. destruct (byCreation_total a b) as [H|H]; rewrite H; lia.
Qed.

Lemma bySizeOlder_trans : transitive bySizeOlder.
Proof.
  unfold transitive, bySizeOlder; intros a b c H1 H2. pose proof (byCreation_trans a b c) as H.
  destruct (byCreation a b), (byCreation b c), (byCreation a c); try specialize (H eq_refl eq_refl); lia.
Qed.

Lemma c06_lemma : forall d s u surge newIS olds,
  md_strategy d = RollingUpdate s u -> good_budget s -> good_budget u -> 0 <= md_replicas d ->
  is_surge s (md_replicas d) surge ->
  let act := active_sets newIS olds in
  let allowed := if md_replicas d =? 0 then 0 else md_replicas d + surge in
  (2 <= List.length act)%nat -> ~ saturated d newIS -> allowed < requested act ->
  (0 < md_replicas d ->
     Forall (fun s => md_replicas d + surge <= recorded_max d s /\ ms_spec s * (md_replicas d + surge) < 2147483648) act) ->
  exists p0 rest, scale d newIS olds = Some (p0 :: rest) /\
  Permutation (map fst (p0 :: rest)) act /\
  Forall (fun p => 0 <= snd p <= ms_spec (fst p)) (p0 :: rest) /\
  Forall (fun p => ms_spec (fst p) <= ms_spec (fst p0)) rest /\
  (sum snd (p0 :: rest) = allowed \/ allowed < sum snd (p0 :: rest) /\ snd p0 = 0) /\
  (0 < md_replicas d ->
     Forall (fun p => 2 * ms_spec (fst p) * (md_replicas d + surge) - recorded_max d (fst p)
                      <= 2 * recorded_max d (fst p) * snd p) rest).
Proof.
  intros d s u surge newIS olds Hd Hs Hu HR Hsu act allowed Hlen Hsat Hlt Hrec.
  assert (MaxSurge d = surge /\ 0 <= surge) as (HMS & Hs0).
  { destruct (resolve_budget s u (md_replicas d) Hs Hu HR) as (a & x & H1 & H2 & H3 & H4 & H5).
    pose proof (is_surge_fun _ _ _ _ Hsu H1). subst a.
    unfold MaxSurge. rewrite Hd, H5. auto. }
  pose proof (active_perm newIS olds) as HP. fold act in HP.
  unfold scale. set (olds' := isort (fun a b => byCreation b a) olds) in *. cbv zeta.
  set (all := FilterActiveMachineSets (allSets newIS olds')) in *.
  assert (FindActiveOrLatest newIS olds' = None) as ->.
  { unfold FindActiveOrLatest. fold all. pose proof (Permutation_length HP) as HL.
    destruct all as [|x [|y r]]; simpl in HL; try lia. reflexivity. }
  assert (IsSaturated d newIS = false) as ->.
  { destruct (IsSaturated d newIS) eqn:E; [|reflexivity]. exfalso. apply Hsat.
    unfold IsSaturated in E. destruct newIS as [n|]; [|discriminate]. exists n.
    destruct (ms_desired n) eqn:ED; try discriminate. repeat split; [lia|lia|]. f_equal. lia. }
  rewrite Hd.
  assert (allowedSize d = allowed) as ->.
  { unfold allowedSize, allowed. rewrite HMS. destruct (md_replicas d =? 0) eqn:E1; destruct (md_replicas d >? 0) eqn:E2; lia. }
  rewrite count_spec.
  assert (requested all = requested act) as HQ by (apply sum_perm; exact HP). rewrite HQ.
  destruct (0 <=? allowed - requested act) eqn:E; [lia|].
  pose proof (isort_perm bySizeOlder all) as HP2.
  pose proof (isort_sorted bySizeOlder bySizeOlder_total bySizeOlder_trans all) as HS.
  set (l := isort bySizeOlder all) in *.
  assert (Permutation l act) as HP3. { eapply perm_trans; [apply Permutation_sym; exact HP2|exact HP]. }
  assert (Forall (fun s => 0 < ms_spec s) l) as Hpos.
  { eapply Permutation_Forall; [apply Permutation_sym; exact HP3|]. unfold act, active_sets.
    rewrite Forall_forall. intros x Hx. apply filter_In in Hx. lia. }
  assert (0 < md_replicas d -> Forall (fun s => md_replicas d + surge <= recorded_max d s /\ ms_spec s * (md_replicas d + surge) < 2147483648) l) as Hrl.
  { intro H. eapply Permutation_Forall; [apply Permutation_sym; exact HP3|]. apply Hrec; exact H. }
  destruct (prop_loop d surge (allowed - requested act) l 0 HMS Hs0 HR Hpos ltac:(lia) ltac:(lia) Hrl)
    as (sizes & a & -> & A & B & C).
  assert (requested l = requested act) as HQ3 by (apply sum_perm; exact HP3).
  destruct C as [|n0 s0 sizes l' C0 C].
  { exfalso. apply Permutation_length in HP3. simpl in HP3. lia. }
  cbn [addLeftover combine].
  destruct (allowed - requested act =? 0) eqn:E0; [lia|].
  destruct (F2_combine _ _ _ _ _ C) as (F1 & F2 & F3).
  eexists _, _. split; [reflexivity|]. cbn [map fst snd]. rewrite F2.
  split; [exact HP3|]. split; [|split; [|split]].
  - constructor; cbn [fst snd].
    + lia.
    + eapply Forall_impl; [|exact F1]. cbv beta. tauto.
  - inversion HS as [|? ? HS1 HS2]; subst. rewrite Forall_forall in *.
    intros p Hp. assert (In (fst p) l') as Hin.
    { rewrite <- F2. apply in_map; exact Hp. }
    specialize (HS2 _ Hin). unfold bySizeOlder in HS2. lia.
  - change (sum snd ((s0, Z.max 0 (n0 + (allowed - requested act - a))) :: combine l' sizes))
      with (Z.max 0 (n0 + (allowed - requested act - a)) + sum snd (combine l' sizes)).
    rewrite sum_snd, F3. change (sum (fun z => z) (n0 :: sizes)) with (n0 + sum (fun z => z) sizes) in B. lia.
  - intro H. eapply Forall_impl; [|exact F1]. cbv beta. intros p (_ & HH). auto.
Qed.

(** *** C07 *)
Lemma one_active : forall d newIS olds s,
  active_sets newIS olds = [s] -> scale d newIS olds = Some [(s, md_replicas d)].
Proof.
  intros d newIS olds s H. pose proof (active_perm newIS olds) as HP. rewrite H in HP.
  apply Permutation_sym, Permutation_length_1_inv in HP.
  unfold scale. cbv zeta. unfold FindActiveOrLatest. rewrite HP. reflexivity.
Qed.

Lemma none_active_new : forall d n olds,
  active_sets (Some n) olds = [] -> scale d (Some n) olds = Some [(n, md_replicas d)].
Proof.
  intros d n olds H. pose proof (active_perm (Some n) olds) as HP. rewrite H in HP.
  apply Permutation_sym, Permutation_nil in HP.
  unfold scale. cbv zeta. unfold FindActiveOrLatest. rewrite HP. reflexivity.
Qed.

Lemma saturated_lemma : forall d newIS olds,
  (2 <= List.length (active_sets newIS olds))%nat -> saturated d newIS ->
  exists plan, scale d newIS olds = Some plan /\
    Permutation plan (map (fun s => (s, 0)) (active_sets None olds)).
Proof.
  intros d newIS olds Hlen Hsat. pose proof (active_perm newIS olds) as HP.
  unfold scale. cbv zeta. set (olds' := isort (fun a b => byCreation b a) olds) in *.
  assert (FindActiveOrLatest newIS olds' = None) as ->.
  { unfold FindActiveOrLatest. pose proof (Permutation_length HP) as HL.
    destruct (FilterActiveMachineSets (allSets newIS olds')) as [|x [|y r]]; simpl in HL; try lia. reflexivity. }
  assert (IsSaturated d newIS = true) as ->.
  { destruct Hsat as (n & -> & A & B & C). unfold IsSaturated. rewrite C. lia. }
  eexists. split; [reflexivity|]. apply Permutation_map. rewrite active_filter.
  unfold active_sets, all_sets. rewrite app_nil_r. apply filter_perm. apply Permutation_sym, isort_perm.
Qed.

Lemma combine_map : forall A B (f : A -> B) l, combine l (map f l) = map (fun x => (x, f x)) l.
Proof. induction l; simpl; congruence. Qed.

Lemma scale_up_lemma : forall d s u surge newIS olds,
  md_strategy d = RollingUpdate s u -> good_budget s -> good_budget u -> 0 < md_replicas d ->
  is_surge s (md_replicas d) surge ->
  let act := active_sets newIS olds in
  (2 <= List.length act)%nat -> ~ saturated d newIS -> requested act <= md_replicas d + surge ->
  (forall n, newIS = Some n -> 0 <= ms_spec n) ->
  exists plan, scale d newIS olds = Some plan /\ Permutation (map fst plan) act /\
  Forall (fun p => match newIS with
                   | Some n => if String.eqb (ms_name (fst p)) (ms_name n)
                               then snd p = ms_spec n + (md_replicas d + surge - requested act)
                               else snd p = ms_spec (fst p)
                   | None => snd p = ms_spec (fst p) end) plan.
Proof.
  intros d s u surge newIS olds Hd Hs Hu HR Hsu act Hlen Hsat Hlt Hnn.
  assert (MaxSurge d = surge /\ 0 <= surge) as (HMS & Hs0).
  { destruct (resolve_budget s u (md_replicas d) Hs Hu ltac:(lia)) as (a & x & H1 & H2 & H3 & H4 & H5).
    pose proof (is_surge_fun _ _ _ _ Hsu H1). subst a.
    unfold MaxSurge. rewrite Hd, H5. auto. }
  pose proof (active_perm newIS olds) as HP. fold act in HP.
  unfold scale. set (olds' := isort (fun a b => byCreation b a) olds) in *. cbv zeta.
  set (all := FilterActiveMachineSets (allSets newIS olds')) in *.
  assert (FindActiveOrLatest newIS olds' = None) as ->.
  { unfold FindActiveOrLatest. fold all. pose proof (Permutation_length HP) as HL.
    destruct all as [|x [|y r]]; simpl in HL; try lia. reflexivity. }
  assert (IsSaturated d newIS = false) as ->.
  { destruct (IsSaturated d newIS) eqn:E; [|reflexivity]. exfalso. apply Hsat.
    unfold IsSaturated in E. destruct newIS as [n|]; [|discriminate]. exists n.
    destruct (ms_desired n) eqn:ED; try discriminate. repeat split; [lia|lia|]. f_equal. lia. }
  rewrite Hd.
  assert (allowedSize d = md_replicas d + surge) as ->.
  { unfold allowedSize. rewrite HMS. destruct (md_replicas d >? 0) eqn:E2; lia. }
  rewrite count_spec.
  assert (requested all = requested act) as HQ by (apply sum_perm; exact HP). rewrite HQ.
  destruct (0 <=? md_replicas d + surge - requested act) eqn:E; [|lia].
  set (t := md_replicas d + surge - requested act) in *.
  set (f := fun s => match newIS with
                | Some n => if String.eqb (ms_name s) (ms_name n) then ms_spec n + t else ms_spec s
                | None => ms_spec s
                end).
  assert (addLeftover t t (scaleNewMachineSet newIS t all) = map f all) as ->.
  { unfold scaleNewMachineSet. fold f.
    assert (forall s, In s all -> 0 <= f s) as Hf.
    { intros x Hx. unfold all in Hx. rewrite active_filter in Hx. apply filter_In in Hx.
      unfold f. destruct newIS as [n|]; [|lia]. specialize (Hnn n eq_refl).
      destruct (String.eqb _ _) eqn:EQ; lia. }
    clearbody f all. destruct all as [|x r]; [reflexivity|]. cbn [map addLeftover].
    destruct (t =? 0) eqn:Et; [reflexivity|].
    f_equal. specialize (Hf x (or_introl eq_refl)). lia. }
  eexists; split; [reflexivity|]. rewrite combine_map. split.
  - rewrite map_map. cbn [fst]. rewrite map_id. exact HP.
  - rewrite Forall_forall. intros p Hp. apply in_map_iff in Hp. destruct Hp as (x & <- & Hx).
    cbn [fst snd]. unfold f. destruct newIS as [n|]; [|reflexivity].
    destruct (String.eqb _ _); reflexivity.
Qed.

(** *** C12 *)
Lemma firstn_skipn_sorted : forall A (le : A -> A -> Prop) k l, StronglySorted le l ->
  forall x y, In x (firstn k l) -> In y (skipn k l) -> le x y.
Proof.
  intros A le k. induction k; intros l HS x y Hx Hy; [destruct Hx|].
  destruct l as [|a l]; [destruct Hx|]. simpl in *. inversion HS as [|? ? H1 H2]; subst.
  destruct Hx as [->|Hx]; [|eapply IHk; eauto].
  rewrite Forall_forall in H2. apply H2. rewrite <- (firstn_skipn k l). apply in_or_app; auto.
Qed.

Lemma filter_unused_eq : forall l,
  filter (fun s => negb (negb (ms_status s =? 0) || negb (ms_spec s =? 0) ||
                                     (ms_gen s >? ms_obsgen s) || ms_deleting s)) l = filter unused l.
Proof. intro l. apply filter_ext. intro s. unfold unused. destruct (ms_deleting s); lia. Qed.

Lemma cleanup_lemma : forall d limit olds,
  md_historyLimit d = Some limit -> 0 <= limit ->
  exists dels older newer, cleanupMachineDeployment d olds = Some dels /\
    Permutation (older ++ newer) (kept_history olds) /\
    Z.of_nat (List.length newer) = Z.min limit (Z.of_nat (List.length (kept_history olds))) /\
    (forall o n, In o older -> In n newer -> ms_ctime o <= ms_ctime n) /\
    dels = filter unused older.
Proof.
  intros d limit olds Hd Hl. unfold cleanupMachineDeployment. rewrite Hd. fold (kept_history olds). cbv zeta.
  set (c := kept_history olds). destruct (Z.of_nat (List.length c) - limit <=? 0) eqn:E.
  { exists [], [], c. split; [reflexivity|]. split; [reflexivity|]. split; [lia|]. split; [intros ? ? []|reflexivity]. }
  destruct (Z.of_nat (List.length c) <? Z.of_nat (List.length c) - limit) eqn:E2; [lia|].
  set (k := Z.to_nat (Z.of_nat (List.length c) - limit)).
  pose proof (isort_perm byCreation c) as HP.
  pose proof (isort_sorted byCreation byCreation_total byCreation_trans c) as HS.
  eexists _, (firstn k (isort byCreation c)), (skipn k (isort byCreation c)).
  split; [reflexivity|]. rewrite firstn_skipn. split; [apply Permutation_sym; exact HP|].
  split. { rewrite skipn_length, <- (Permutation_length HP). unfold k. lia. }
  split; [|apply filter_unused_eq].
  intros o n Ho Hn. pose proof (firstn_skipn_sorted _ _ _ _ HS _ _ Ho Hn) as H. unfold byCreation in H. lia.
Qed.

Lemma perm_kept_in : forall olds older newer x, Permutation (older ++ newer) (kept_history olds) -> In x older -> In x olds.
Proof.
  intros olds older newer x HP Hx.
  assert (In x (kept_history olds)) as H. { eapply Permutation_in; [exact HP|]. apply in_or_app; auto. }
  unfold kept_history in H. apply filter_In in H. tauto.
Qed.

(** *** C09 *)
Lemma cleanup_only_unused : forall d olds dels x,
  cleanupMachineDeployment d olds = Some dels -> In x dels -> In x olds /\ unused x = true.
Proof.
  intros d olds dels x H Hx. unfold cleanupMachineDeployment in H.
  destruct (md_historyLimit d) as [limit|]; [|injection H as <-; destruct Hx].
  cbv zeta in H. destruct (_ <=? 0); [injection H as <-; destruct Hx|].
  match type of H with context [?a <? ?b] => destruct (a <? b) end; [discriminate|].
  injection H as <-. rewrite filter_unused_eq in Hx. apply filter_In in Hx. destruct Hx as (Hx & Hu).
  split; [|exact Hu].
  assert (forall A n (l : list A) y, In y (firstn n l) -> In y l) as FI.
  { intros A n l y Hy. rewrite <- (firstn_skipn n l). apply in_or_app; auto. }
  apply FI in Hx. eapply Permutation_in in Hx; [|apply Permutation_sym, isort_perm].
  apply filter_In in Hx. tauto.
Qed.

Lemma scale_sets : forall d newIS olds plan p,
  scale d newIS olds = Some plan -> In p plan -> In (fst p) (all_sets newIS olds).
Proof.
  intros d newIS olds plan p H Hp. unfold scale in H. cbv zeta in H.
  set (olds' := isort (fun a b => byCreation b a) olds) in *.
  assert (forall x, In x (allSets newIS olds') -> In x (all_sets newIS olds)) as HA.
  { intros x. unfold allSets, all_sets. rewrite !in_app_iff. intros [Hx|Hx]; [left|right; exact Hx].
    eapply Permutation_in; [apply Permutation_sym, isort_perm|exact Hx]. }
  assert (forall x, In x (FilterActiveMachineSets (allSets newIS olds')) -> In x (all_sets newIS olds)) as HB.
  { intros x Hx. apply HA. rewrite active_filter in Hx. apply filter_In in Hx. tauto. }
  assert (forall (l : list MachineSet) (m : list Z) q, In q (combine l m) -> In (fst q) l) as HC.
  { intros l m q Hq. destruct q as [a b]. eapply in_combine_l; exact Hq. }
  destruct (FindActiveOrLatest newIS olds') as [s|] eqn:EF.
  { injection H as <-. destruct Hp as [<-|[]]. cbn [fst]. unfold FindActiveOrLatest in EF.
    destruct (FilterActiveMachineSets (allSets newIS olds')) as [|x [|y r]] eqn:EA; [| |discriminate].
    - apply HA. unfold allSets. destruct newIS as [n|]; [injection EF as <-|].
      + apply in_or_app; right; left; reflexivity.
      + apply in_or_app; left. destruct olds'; [discriminate|]. injection EF as <-. left; reflexivity.
    - injection EF as <-. apply HB. left; reflexivity. }
  destruct (IsSaturated d newIS).
  { injection H as <-. apply in_map_iff in Hp. destruct Hp as (x & <- & Hx). cbn [fst].
    rewrite active_filter in Hx. apply filter_In in Hx. apply HA. unfold allSets. apply in_or_app; left; tauto. }
  destruct (md_strategy d); try (injection H as <-; destruct Hp; fail).
  destruct (0 <=? _).
  { injection H as <-. apply HB. eapply HC; exact Hp. }
  destruct (scaleMachineSetsProportionally d _ 0 _) as [[sz ad]|]; [|discriminate].
  injection H as <-. apply HB. apply HC in Hp.
  eapply Permutation_in; [apply Permutation_sym, isort_perm|exact Hp].
Qed.

Lemma paused_lemma : forall d newIS olds calls c,
  syncPaused d newIS olds = Some calls -> In c calls ->
  (exists s n, c = Resize s n /\ In s (all_sets newIS olds)) \/
  (exists s, c = Delete s /\ In s olds /\ unused s = true).
Proof.
  intros d newIS olds calls c H Hc. unfold syncPaused in H.
  destruct (scale d newIS olds) as [plan|] eqn:ES; [|discriminate].
  destruct (cleanupMachineDeployment d olds) as [dels|] eqn:ED; [|discriminate].
  injection H as <-. apply in_app_or in Hc. destruct Hc as [Hc|Hc]; apply in_map_iff in Hc; destruct Hc as (x & <- & Hx).
  - left. exists (fst x), (snd x). split; [reflexivity|]. eapply scale_sets; eauto.
  - right. exists x. split; [reflexivity|]. eapply cleanup_only_unused; eauto.
Qed.

Lemma scale_up_new_total : forall n olds, 0 < ms_spec n ->
  requested (active_sets (Some n) olds) = requested (active_sets None olds) + ms_spec n.
Proof.
  intros. unfold active_sets, all_sets. rewrite app_nil_r, filter_app. unfold requested. rewrite sum_app.
  simpl. destruct (0 <? ms_spec n) eqn:E; [|lia]. unfold sum; simpl; lia.
Qed.
