(** Proofs for FupdProps.v. *)
Require Import Coq.Lists.List Coq.Strings.String Coq.Bool.Bool Coq.Arith.PeanoNat.
From Verif Require Import Sort FupdModel FupdSpec.
Import ListNotations.
Open Scope string_scope.
Open Scope list_scope.

Lemma exb_in : forall f l, existsb (String.eqb f) l = true <-> In f l.
Proof.
  intros f l. rewrite existsb_exists. split.
  - intros (x & X & E). apply String.eqb_eq in E. subst. exact X.
  - intros X. exists f. split; [exact X|apply String.eqb_refl].
Qed.
Lemma exb_out : forall f l, existsb (String.eqb f) l = false <-> ~ In f l.
Proof. intros f l. rewrite <- exb_in. destruct (existsb _ _); split; congruence. Qed.
Lemma name_is : FinalizerName = our_name. Proof. reflexivity. Qed.
Lemma as_in : forall l x, In x (asList l) <-> In x l.
Proof. intros l x. unfold asList. now rewrite isort_in, nodup_In. Qed.

Lemma add_fins : forall v l, toAdd v = Some l -> ~ In our_name (f_fins v) /\ forall x, In x l <-> x = our_name \/ In x (f_fins v).
Proof.
  intros v l H. unfold toAdd in H. rewrite name_is in H. destruct (existsb _ _) eqn:E; [discriminate|]. injection H as <-. apply exb_out in E. split; [exact E|].
  intros x. rewrite as_in. cbn. split; intros [X|X]; auto.
Qed.
Lemma add_none : forall v, toAdd v = None -> In our_name (f_fins v).
Proof. intros v H. unfold toAdd in H. rewrite name_is in H. destruct (existsb _ _) eqn:E; [|discriminate]. apply exb_in, E. Qed.
Lemma rem_fins : forall v l, toRemove v = Some l -> In our_name (f_fins v) /\ forall x, In x l <-> x <> our_name /\ In x (f_fins v).
Proof.
  intros v l H. unfold toRemove in H. rewrite name_is in H. destruct (existsb _ _) eqn:E; [|discriminate]. injection H as <-. apply exb_in in E. split; [exact E|].
  intros x. rewrite filter_In, as_in, negb_true_iff, String.eqb_neq. tauto.
Qed.
Lemma rem_none : forall v, toRemove v = None -> ~ In our_name (f_fins v).
Proof. intros v H. unfold toRemove in H. rewrite name_is in H. destruct (existsb _ _) eqn:E; [discriminate|]. apply exb_out, E. Qed.

Lemma put_add : forall o l, In our_name l -> holds (put o l).
Proof. intros o l X. unfold put. destruct l as [|x l]; [destruct X|]. rewrite andb_false_r. eexists. split; [reflexivity|exact X]. Qed.
Lemma put_rem : forall o l, ~ In our_name l -> ~ holds (put o l).
Proof. intros o l X (p & P & Y). unfold put in P. destruct (_ && _); [discriminate|]. injection P as <-. exact (X Y). Qed.

Lemma update_done : forall n fins s atts s' e, n <= List.length atts -> updateSet n fins s atts = (s', e) -> e <> Trying /\ (e = Done -> exists o, s' = put o fins).
Proof.
  induction n as [|n IH]; intros fins s [|a r] s' e L H; cbn in H, L; try (injection H as <- <-; split; congruence); try (exfalso; inversion L; fail).
  destruct (if a_get a then a_before a s else None) as [o|]; [|injection H as <- <-; split; congruence].
  destruct (write _ _ _ _) as [s3|] eqn:W; [|apply (IH _ _ _ _ _ (le_S_n _ _ L) H)]. injection H as <- <-. split; [congruence|]. intros _.
  unfold write in W. destruct (a_between a (a_before a s)) as [p|]; [|discriminate]. destruct (_ && _); [|discriminate]. injection W as <-. exists p. reflexivity.
Qed.

Lemma set_ends : forall view s a b r,
  (forall s' e, setFinalizers toAdd view s (a :: b :: r) = (s', e) -> e <> Trying /\ (e = Done -> In our_name (f_fins view) \/ holds s')) /\
  (forall s' e, setFinalizers toRemove view s (a :: b :: r) = (s', e) -> e <> Trying /\ (e = Done -> ~ In our_name (f_fins view) \/ ~ holds s')).
Proof.
  intros view s a b r.
  assert (L : finalizerUpdateRetries <= List.length (a :: b :: r)) by (cbn; apply le_n_S, le_n_S, Nat.le_0_l).
  split; intros s' e H; unfold setFinalizers in H.
  - destruct (toAdd view) as [l|] eqn:T; [|injection H as <- <-; split; [congruence|left; apply add_none, T]].
    destruct (update_done _ _ _ _ _ _ L H) as (A & B). split; [exact A|]. intros E. right. destruct (B E) as (o & ->). apply put_add, (add_fins _ _ T). auto.
  - destruct (toRemove view) as [l|] eqn:T; [|injection H as <- <-; split; [congruence|left; apply rem_none, T]].
    destruct (update_done _ _ _ _ _ _ L H) as (A & B). split; [exact A|]. intros E. right. destruct (B E) as (o & ->). apply put_rem. intros X. apply (rem_fins _ _ T) in X as (X & _). auto.
Qed.

Lemma accepts_inv : forall o l rv, accepts o l rv = true -> rv = f_rv o /\ (f_del o = false \/ forall f, In f l -> In f (f_fins o)).
Proof.
  intros o l rv H. unfold accepts in H. apply andb_true_iff in H as (A & B). apply Nat.eqb_eq in A. split; [exact A|]. apply orb_true_iff in B as [B|B]; [left; apply negb_true_iff, B|].
  right. intros f X. rewrite forallb_forall in B. apply exb_in, B, X.
Qed.

Lemma machine_locked : forall view ok o, versioned view o ->
  (forall s' e, addMachineFinalizers view ok (Some o) = (s', e) -> s' <> Some o ->
     exists o', s' = Some o' /\ In our_name (f_fins o') /\ f_del o = false /\ forall f, others o' f <-> others o f) /\
  (forall s' e, deleteMachineFinalizers view ok (Some o) = (s', e) ->
     (s' <> Some o -> view = o /\ forall f, f <> our_name -> (In f (f_fins o) <-> exists o', s' = Some o' /\ In f (f_fins o'))) /\
     (e = Done -> ~ In our_name (f_fins view) \/ ~ holds s')).
Proof.
  intros view ok o V. split; intros s' e H.
  - intros N. unfold addMachineFinalizers in H. destruct (toAdd view) as [l|] eqn:T; [|congruence]. destruct (ok && accepts o l (f_rv view)) eqn:A; [|congruence].
    apply andb_true_iff in A as (_ & A). apply accepts_inv in A as (A & B). specialize (V A). subst view. apply add_fins in T as (T1 & T2).
    assert (D : f_del o = false). { destruct B as [B|B]; [exact B|]. exfalso. apply T1, B, T2. auto. }
    injection H as <- <-. unfold put. rewrite D. cbn. eexists. split; [reflexivity|]. cbn. split; [apply T2; auto|]. split; [reflexivity|].
    intros f. unfold others. cbn. rewrite T2. split; intros (X & Y); split; auto. destruct X; [contradiction|auto].
  - unfold deleteMachineFinalizers in H. destruct (toRemove view) as [l|] eqn:T; [|injection H as <- <-; split; [congruence|left; apply rem_none, T]].
    destruct (ok && accepts o l (f_rv view)) eqn:A; [|injection H as <- <-; split; congruence]. injection H as <- <-.
    apply andb_true_iff in A as (_ & A). apply accepts_inv in A as (A & _). specialize (V A). subst view. apply rem_fins in T as (T1 & T2). split.
    + intros _. split; [reflexivity|]. intros f F. split.
      * intros X. assert (Y : In f l) by (apply T2; auto). unfold put. destruct l as [|x l]; [destruct Y|]. rewrite andb_false_r. eexists. split; [reflexivity|exact Y].
      * intros (o' & P & Y). unfold put in P. destruct (_ && _); [discriminate|]. injection P as <-. apply T2 in Y as (_ & Y). exact Y.
    + intros _. right. apply put_rem. intros X. apply T2 in X as (X & _). auto.
Qed.

Lemma deployment_current : forall view a r, quiet a ->
  (f_del view = false -> exists s', depFinalizers toAdd view (Some view) (a :: r) = (s', Done) /\ holds s') /\
  (exists s', depFinalizers toRemove view (Some view) (a :: r) = (s', Done) /\ ~ holds s').
Proof.
  intros view a r (Q1 & Q2 & Q3 & Q4). split.
  - intros D. unfold depFinalizers. destruct (toAdd view) as [l|] eqn:T; [|eexists; split; [reflexivity|exists view; split; [reflexivity|apply add_none, T]]].
    cbn. rewrite Q3, Q1, Q2. unfold write, accepts. rewrite Q4, D, Nat.eqb_refl. cbn. eexists. split; [reflexivity|]. apply put_add, (add_fins _ _ T). auto.
  - unfold depFinalizers. destruct (toRemove view) as [l|] eqn:T.
    + apply rem_fins in T as (T1 & T2). cbn. rewrite Q3, Q1, Q2. unfold write, accepts. rewrite Q4, Nat.eqb_refl. cbn.
      replace (forallb _ l) with true; [rewrite orb_true_r; eexists; split; [reflexivity|]; apply put_rem; intros X; apply T2 in X as (X & _); auto|].
      symmetry. apply forallb_forall. intros x X. apply exb_in. apply T2 in X as (_ & X). exact X.
    + eexists. split; [reflexivity|]. intros (o & E & X). injection E as <-. exact (rem_none _ T X).
Qed.

Definition still := mkAtt (fun s => s) true (fun s => s) true.
Lemma still_write : forall l o, accepts o l (f_rv o) = false -> write still (Some o) l (f_rv o) = None.
Proof. intros l o A. unfold write. rewrite A, andb_false_r. reflexivity. Qed.
Lemma refused_for_ever : forall l o n, accepts o l (f_rv o) = false -> updateDep l (Some o) (repeat still n) = (Some o, Trying).
Proof.
  intros l o n A. induction n as [|n IH]; [reflexivity|]. cbn [repeat updateDep].
  change (a_between still (a_before still (Some o))) with (Some o). change (if a_get still then a_before still (Some o) else None) with (Some o).
  cbv beta zeta iota. rewrite (still_write l o A). exact IH.
Qed.
Lemma refused_twice : forall l o r, accepts o l (f_rv o) = false -> updateSet 2 l (Some o) (still :: still :: r) = (Some o, Failed).
Proof.
  intros l o r A. cbn [updateSet].
  change (a_between still (a_before still (Some o))) with (Some o). change (if a_get still then a_before still (Some o) else None) with (Some o).
  cbv beta zeta iota. rewrite (still_write l o A). 
  change (a_between still (a_before still (Some o))) with (Some o). change (if a_get still then a_before still (Some o) else None) with (Some o).
  cbv beta zeta iota. rewrite (still_write l o A). reflexivity.
Qed.
Lemma no_accept : forall o l x, f_del o = true -> In x l -> ~ In x (f_fins o) -> accepts o l (f_rv o) = false.
Proof.
  intros o l x D X N. destruct (accepts o l (f_rv o)) eqn:A; [|reflexivity]. apply accepts_inv in A as (_ & [A|A]); [congruence|]. exfalso. apply N, A, X.
Qed.
Lemma add_refused : forall fins rv rv', ~ In our_name fins -> exists l, toAdd (mkOb fins false rv) = Some l /\ accepts (mkOb fins true rv') l rv' = false.
Proof.
  intros fins rv rv' N. destruct (toAdd (mkOb fins false rv)) as [l|] eqn:T; [|apply add_none in T; contradiction]. exists l. split; [reflexivity|].
  apply (no_accept (mkOb fins true rv') l our_name eq_refl); [apply (add_fins _ _ T); auto|exact N].
Qed.
Lemma rem_refused : forall f rv rv', f <> our_name -> exists l, toRemove (mkOb [f; our_name] true rv) = Some l /\ accepts (mkOb [our_name] true rv') l rv' = false.
Proof.
  intros f rv rv' N. destruct (toRemove (mkOb [f; our_name] true rv)) as [l|] eqn:T; [|apply rem_none in T; exfalso; apply T; right; left; reflexivity].
  exists l. split; [reflexivity|]. apply (no_accept (mkOb [our_name] true rv') l f eq_refl); [apply (rem_fins _ _ T); split; [exact N|left; reflexivity]|].
  intros [X|[]]. congruence.
Qed.
Lemma endless_add : forall fins rv rv' n, ~ In our_name fins ->
  depFinalizers toAdd (mkOb fins false rv) (Some (mkOb fins true rv')) (repeat still n) = (Some (mkOb fins true rv'), Trying).
Proof. intros fins rv rv' n N. destruct (add_refused fins rv rv' N) as (l & T & A). unfold depFinalizers. rewrite T. apply refused_for_ever, A. Qed.
Lemma endless_remove : forall f rv rv' n, f <> our_name ->
  depFinalizers toRemove (mkOb [f; our_name] true rv) (Some (mkOb [our_name] true rv')) (repeat still n) = (Some (mkOb [our_name] true rv'), Trying).
Proof. intros f rv rv' n N. destruct (rem_refused f rv rv' N) as (l & T & A). unfold depFinalizers. rewrite T. apply refused_for_ever, A. Qed.
Lemma set_same_case : forall f fins rv rv' r, ~ In our_name fins -> f <> our_name ->
  snd (setFinalizers toAdd (mkOb fins false rv) (Some (mkOb fins true rv')) (still :: still :: r)) = Failed /\
  snd (setFinalizers toRemove (mkOb [f; our_name] true rv) (Some (mkOb [our_name] true rv')) (still :: still :: r)) = Failed.
Proof.
  intros f fins rv rv' r N M. destruct (add_refused fins rv rv' N) as (l & T & A). destruct (rem_refused f rv rv' M) as (k & U & B). unfold setFinalizers. rewrite T, U.
  split; [exact (f_equal snd (refused_twice _ _ r A))|exact (f_equal snd (refused_twice _ _ r B))].
Qed.
