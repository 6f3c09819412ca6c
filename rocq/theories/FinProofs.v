(* Proofs about finalizers on classes and secrets. *)
Require Import List String Bool Arith Lia.
From Verif Require Import Sort FinModel FinSpec.
Import ListNotations.
Open Scope string_scope.
Open Scope list_scope.
Open Scope nat_scope.

Lemma has_In : forall f l, Has f l = true <-> In f l.
Proof.
  intros f l. unfold Has. rewrite existsb_exists. split.
  - intros (x & I & E). apply String.eqb_eq in E. now subst.
  - intros I. exists f. split; [exact I|apply String.eqb_refl].
Qed.

Lemma has_not : forall f l, Has f l = false <-> ~ In f l.
Proof. intros f l. rewrite <- has_In. destruct (Has f l); split; congruence. Qed.

Lemma setList_In : forall l x, In x (setList l) <-> In x l.
Proof. intros l x. unfold setList. now rewrite isort_in, nodup_In. Qed.

Lemma withMe_In : forall k o x, In x (withMe k o) <-> x = me k \/ In x (oFins o).
Proof. intros k o x. unfold withMe. rewrite setList_In. cbn. intuition congruence. Qed.

Lemma withoutMe_In : forall k o x, In x (withoutMe k o) <-> In x (oFins o) /\ x <> me k.
Proof.
  intros k o x. unfold withoutMe. rewrite filter_In, setList_In, negb_true_iff, String.eqb_neq. reflexivity.
Qed.

(* What a pass decides. *)
Lemma decide_put : forall k o rs l, decide k o rs = Put l ->
  (rs = [] /\ l = withoutMe k o /\ In (me k) (oFins o)) \/
  (rs <> [] /\ l = withMe k o /\ ~ In (me k) (oFins o) /\ (k = KClass -> oDel o = false)).
Proof.
  intros k o rs l H. unfold decide, decideClass, decideSecret in H.
  destruct k, rs as [|r rs].
  - destruct (Has (me KClass) (oFins o)) eqn:E; [|discriminate]. injection H as <-. left. now apply has_In in E.
  - destruct (oDel o) eqn:D; [discriminate|]. destruct (Has (me KClass) (oFins o)) eqn:E; [discriminate|].
    injection H as <-. right. apply has_not in E. now repeat split.
  - destruct (Has (me KSecret) (oFins o)) eqn:E; [|discriminate]. injection H as <-. left. now apply has_In in E.
  - destruct (Has (me KSecret) (oFins o)) eqn:E; [discriminate|].
    injection H as <-. right. apply has_not in E. repeat split; [discriminate|exact E|discriminate].
Qed.

(* ---- resource versions ---- *)

Lemma store_rv : forall s f d, rvOK s -> rvOK (store s f d).
Proof.
  intros s f d [A B]. split.
  - intros o E. unfold store in *. cbn [srv rev] in *.
    destruct (d && match f with [] => true | _ => false end); [discriminate|]. injection E as <-. cbn. lia.
  - unfold store. cbn [pend rev]. destruct (pend s); try exact I. lia.
Qed.

Lemma setPend_rv : forall s, rvOK s -> rvOK (setPend Idle s).
Proof. intros s [A B]. split; [exact A|exact I]. Qed.

Lemma update_rv : forall s l rv, rvOK s -> rvOK (update s l rv).
Proof.
  intros s l rv H. unfold update. destruct (srv s) as [o|]; [|exact H].
  destruct (negb (rv =? oRV o)); [exact H|].
  destruct (oDel o && negb (forallb (fun f => Has f (oFins o)) l)); [exact H|]. now apply store_rv.
Qed.

Lemma step_rv : forall k s o, rvOK s -> rvOK (step k s o).
Proof.
  intros k s o H. destruct o; cbn [step].
  - destruct (decide k view seen); [apply setPend_rv; exact H|apply setPend_rv; exact H|].
    destruct H as [A _]. split; [exact A|exact I].
  - destruct (pend s) eqn:P; [exact H| |exact H]. destruct fails; [now apply setPend_rv|].
    destruct (srv s) as [o|] eqn:E; [|now apply setPend_rv]. destruct H as [A _]. split; [exact A|].
    cbn. now apply A.
  - destruct (pend s) eqn:P; [exact H|exact H|]. destruct fails; [now apply setPend_rv|].
    now apply update_rv, setPend_rv.
  - destruct (srv s) as [o|] eqn:E; [|exact H]. destruct (oDel o || Has f (oFins o)); [exact H|now apply store_rv].
  - destruct (srv s) as [o|] eqn:E; [|exact H]. destruct (Has f (oFins o)); [now apply store_rv|exact H].
  - destruct (srv s) as [o|] eqn:E; [|exact H]. destruct (oDel o); [exact H|now apply store_rv].
  - destruct (srv s) as [o|] eqn:E; [exact H|now apply store_rv].
  - exact H.
  - exact H.
Qed.

(* Every step of others leaves the object alone or gives it a new version. *)
Lemma others_version : forall k s o, others o ->
  (srv (step k s o) = srv s /\ rev (step k s o) = rev s) \/
  (rev s < rev (step k s o) /\ forall ob, srv (step k s o) = Some ob -> oRV ob = rev (step k s o)).
Proof.
  intros k s o O.
  assert (ST : forall f d, rev s < rev (store s f d) /\ forall ob, srv (store s f d) = Some ob -> oRV ob = rev (store s f d)).
  { intros f d. split; [cbn; lia|]. intros ob E. unfold store in *. cbn [srv rev] in *.
    destruct (d && match f with [] => true | _ => false end); [discriminate|]. now injection E as <-. }
  destruct o; cbn [others step] in *; try contradiction.
  - destruct (srv s) as [ob|] eqn:E; [|left; split; [now rewrite E|reflexivity]].
    destruct (oDel ob || Has f (oFins ob)); [left; split; [exact E|reflexivity]|right; apply ST].
  - destruct (srv s) as [ob|] eqn:E; [|left; split; [now rewrite E|reflexivity]].
    destruct (Has f (oFins ob)); [right; apply ST|left; split; [exact E|reflexivity]].
  - destruct (srv s) as [ob|] eqn:E; [|left; split; [now rewrite E|reflexivity]].
    destruct (oDel ob); [left; split; [exact E|reflexivity]|right; apply ST].
  - destruct (srv s) as [ob|] eqn:E; [left; split; [exact E|reflexivity]|right; apply ST].
  - left. split; reflexivity.
  - left. split; reflexivity.
Qed.

Lemma others_pend : forall k s o, others o -> pend (step k s o) = pend s.
Proof.
  intros k s o O. destruct o; cbn [others step] in *; try contradiction; try reflexivity;
    destruct (srv s) as [ob|]; try reflexivity.
  - now destruct (oDel ob || Has f (oFins ob)).
  - now destruct (Has f (oFins ob)).
  - now destruct (oDel ob).
Qed.

Lemma run_app : forall k a b s, run k s (a ++ b) = run k (run k s a) b.
Proof. intros. unfold run. apply fold_left_app. Qed.

Lemma others_run : forall k ops s, (forall o, In o ops -> others o) ->
  pend (run k s ops) = pend s /\
  ((srv (run k s ops) = srv s) \/ (forall ob, srv (run k s ops) = Some ob -> rev s < oRV ob)) /\
  rev s <= rev (run k s ops).
Proof.
  intros k ops. induction ops as [|o ops IH]; intros s O.
  - split; [reflexivity|]. split; [now left|apply le_n].
  - change (run k s (o :: ops)) with (run k (step k s o) ops).
    assert (Oo := O o (or_introl eq_refl)).
    destruct (IH (step k s o) (fun x I => O x (or_intror I))) as (P & V & R).
    rewrite others_pend in P by exact Oo. split; [exact P|].
    destruct (others_version k s o Oo) as [[A B]|[A B]].
    + rewrite A, B in *. split; assumption.
    + split; [right|lia]. intros ob E. destruct V as [V|V].
      * rewrite V in E. rewrite (B ob E). exact A.
      * specialize (V ob E). lia.
Qed.

(* An edit between the Get and the Update makes the Update fail. *)
Lemma locked : forall k s l rv ops, rvOK s -> pend s = Fetched l rv ->
  (forall o, In o ops -> others o) ->
  srv (run k s ops) <> srv s ->
  srv (step k (run k s ops) (Write false)) = srv (run k s ops).
Proof.
  intros k s l rv ops RV P O NE. destruct (others_run k ops s O) as (P' & V & _).
  destruct V as [V|V]; [contradiction|]. cbn [step]. rewrite P', P. unfold update. cbn [setPend srv].
  destruct (srv (run k s ops)) as [ob|] eqn:E; [|exact E].
  assert (L := V ob eq_refl). destruct RV as [_ RV]. rewrite P in RV.
  destruct (rv =? oRV ob) eqn:Q; [apply Nat.eqb_eq in Q; lia|]. cbn. exact E.
Qed.

(* ---- a pass in one go ---- *)

Lemma filter_nil_iff : forall k o, withoutMe k o = [] <-> forall x, In x (oFins o) -> x = me k.
Proof.
  intros k o. split.
  - intros E x I. destruct (string_dec x (me k)) as [Q|Q]; [exact Q|].
    assert (In x (withoutMe k o)) by (apply withoutMe_In; now split). rewrite E in H. destruct H.
  - intros H. destruct (withoutMe k o) as [|y l] eqn:E; [reflexivity|].
    assert (In y (withoutMe k o)) by (rewrite E; now left). apply withoutMe_In in H0. destruct H0 as [A B].
    now apply H in A.
Qed.

Lemma pass_class : forall s o, srv s = Some o ->
  let s' := run KClass s (pass o (refs s)) in
  refs s' = refs s /\
  (refs s <> [] -> oDel o = false -> exists o', srv s' = Some o' /\ oDel o' = false /\
     In (me KClass) (oFins o') /\ sameOthers (me KClass) (oFins o) (oFins o')) /\
  (refs s <> [] -> oDel o = true -> srv s' = srv s) /\
  (refs s = [] ->
     (exists o', srv s' = Some o' /\ oDel o' = oDel o /\ ~ In (me KClass) (oFins o') /\
        sameOthers (me KClass) (oFins o) (oFins o')) \/
     (srv s' = None /\ oDel o = true /\ forall x, In x (oFins o) -> x = me KClass)).
Proof.
  intros s o E s'. unfold s', run, pass. cbn [fold_left step].
  unfold decide, decideClass. destruct (refs s) as [|r rs] eqn:RF.
  - (* no references *)
    destruct (Has (me KClass) (oFins o)) eqn:H.
    + cbn [setPend pend srv]. rewrite E. cbn [setPend pend srv]. unfold update. cbn [setPend srv]. rewrite E.
      rewrite Nat.eqb_refl. cbn [negb].
      assert (SUB : forallb (fun f => Has f (oFins o)) (withoutMe KClass o) = true).
      { apply forallb_forall. intros x I. apply has_In. now apply withoutMe_In in I. }
      rewrite SUB. rewrite andb_false_r. unfold store. cbn [srv refs setPend].
      split; [exact RF|]. split; [congruence|]. split; [congruence|]. intros _.
      destruct (withoutMe KClass o) as [|x l] eqn:W.
      * destruct (oDel o) eqn:D; cbn [andb].
        -- right. split; [reflexivity|]. split; [reflexivity|]. now apply filter_nil_iff.
        -- left. exists (mkObj [] false (S (rev s))). cbn. split; [reflexivity|]. split; [reflexivity|].
           split; [tauto|]. intros y NE. split; [|intros []]. intros I.
           apply (proj1 (filter_nil_iff KClass o) W) in I. contradiction.
      * rewrite andb_false_r. left. exists (mkObj (x :: l) (oDel o) (S (rev s))).
        split; [reflexivity|]. split; [reflexivity|]. cbn [oFins]. rewrite <- W. split.
        -- rewrite withoutMe_In. tauto.
        -- intros y NE. rewrite withoutMe_In. tauto.
    + apply has_not in H. cbn. split; [exact RF|]. split; [congruence|]. split; [congruence|]. intros _. left.
      exists o. split; [exact E|]. split; [reflexivity|]. split; [exact H|]. intros x _. tauto.
  - destruct (oDel o) eqn:D.
    + cbn. split; [exact RF|]. split; [congruence|]. split; [reflexivity|discriminate].
    + destruct (Has (me KClass) (oFins o)) eqn:H.
      * apply has_In in H. cbn. split; [exact RF|]. split; [|split; [congruence|discriminate]].
        intros _ _. exists o. split; [exact E|]. split; [exact D|]. split; [exact H|]. intros x _. tauto.
      * cbn [setPend pend srv]. rewrite E. cbn [setPend pend srv]. unfold update. cbn [setPend srv]. rewrite E.
        rewrite Nat.eqb_refl, D. cbn [negb andb]. unfold store. cbn [srv refs setPend].
        split; [exact RF|]. split; [|split; [congruence|discriminate]]. intros _ _.
        cbn [andb]. exists (mkObj (withMe KClass o) false (S (rev s))). split; [reflexivity|]. split; [reflexivity|].
        cbn [oFins]. split; [apply withMe_In; now left|]. intros x NE. rewrite withMe_In. tauto.
Qed.

Lemma pass_secret : forall s o, srv s = Some o ->
  let s' := run KSecret s (pass o (refs s)) in
  refs s' = refs s /\
  (refs s <> [] -> oDel o = false -> exists o', srv s' = Some o' /\ oDel o' = false /\
     In (me KSecret) (oFins o') /\ sameOthers (me KSecret) (oFins o) (oFins o')) /\
  (refs s <> [] -> oDel o = true -> srv s' = srv s) /\
  (refs s = [] ->
     (exists o', srv s' = Some o' /\ oDel o' = oDel o /\ ~ In (me KSecret) (oFins o') /\
        sameOthers (me KSecret) (oFins o) (oFins o')) \/
     (srv s' = None /\ oDel o = true /\ forall x, In x (oFins o) -> x = me KSecret)).
Proof.
  intros s o E s'. unfold s', run, pass. cbn [fold_left step].
  unfold decide, decideSecret. destruct (refs s) as [|r rs] eqn:RF.
  - destruct (Has (me KSecret) (oFins o)) eqn:H.
    + cbn [setPend pend srv]. rewrite E. cbn [setPend pend srv]. unfold update. cbn [setPend srv]. rewrite E.
      rewrite Nat.eqb_refl. cbn [negb].
      assert (SUB : forallb (fun f => Has f (oFins o)) (withoutMe KSecret o) = true).
      { apply forallb_forall. intros x I. apply has_In. now apply withoutMe_In in I. }
      rewrite SUB. rewrite andb_false_r. unfold store. cbn [srv refs setPend].
      split; [exact RF|]. split; [congruence|]. split; [congruence|]. intros _.
      destruct (withoutMe KSecret o) as [|x l] eqn:W.
      * destruct (oDel o) eqn:D; cbn [andb].
        -- right. split; [reflexivity|]. split; [reflexivity|]. now apply filter_nil_iff.
        -- left. exists (mkObj [] false (S (rev s))). cbn. split; [reflexivity|]. split; [reflexivity|].
           split; [tauto|]. intros y NE. split; [|intros []]. intros I.
           apply (proj1 (filter_nil_iff KSecret o) W) in I. contradiction.
      * rewrite andb_false_r. left. exists (mkObj (x :: l) (oDel o) (S (rev s))).
        split; [reflexivity|]. split; [reflexivity|]. cbn [oFins]. rewrite <- W. split.
        -- rewrite withoutMe_In. tauto.
        -- intros y NE. rewrite withoutMe_In. tauto.
    + apply has_not in H. cbn. split; [exact RF|]. split; [congruence|]. split; [congruence|]. intros _. left.
      exists o. split; [exact E|]. split; [reflexivity|]. split; [exact H|]. intros x _. tauto.
  - destruct (Has (me KSecret) (oFins o)) eqn:H.
    + apply has_In in H. cbn. split; [exact RF|]. split; [|split; [reflexivity|discriminate]].
      intros _ D. exists o. split; [exact E|]. split; [exact D|]. split; [exact H|]. intros x _. tauto.
    + cbn [setPend pend srv]. rewrite E. cbn [setPend pend srv]. unfold update. cbn [setPend srv]. rewrite E.
      rewrite Nat.eqb_refl. cbn [negb]. apply has_not in H.
      assert (SUB : forallb (fun f => Has f (oFins o)) (withMe KSecret o) = false).
      { destruct (forallb (fun f => Has f (oFins o)) (withMe KSecret o)) eqn:F; [|reflexivity].
        rewrite forallb_forall in F. exfalso. apply H, has_In, F, withMe_In. now left. }
      rewrite SUB. cbn [negb]. rewrite andb_true_r.
      destruct (oDel o) eqn:D.
      * cbn. split; [exact RF|]. split; [congruence|]. split; [now rewrite E|discriminate].
      * unfold store. cbn [srv refs setPend andb]. split; [exact RF|]. split; [|split; [congruence|discriminate]].
        intros _ _. exists (mkObj (withMe KSecret o) false (S (rev s))). split; [reflexivity|]. split; [reflexivity|].
        cbn [oFins]. split; [apply withMe_In; now left|]. intros x NE. rewrite withMe_In. tauto.
Qed.

(* ---- protection ---- *)

(* While the finalizer is being taken away nothing refers to the object. *)
Definition guard (k : Kind) (s : St) : Prop := removing k s -> refs s = [].

Lemma pend_store : forall s f d, pend (store s f d) = pend s /\ refs (store s f d) = refs s.
Proof. intros. split; reflexivity. Qed.

Lemma update_frame : forall s l rv, pend (update s l rv) = pend s /\ refs (update s l rv) = refs s.
Proof.
  intros s l rv. unfold update. destruct (srv s) as [o|]; [|split; reflexivity].
  destruct (negb (rv =? oRV o)); [split; reflexivity|].
  destruct (oDel o && negb (forallb (fun f => Has f (oFins o)) l)); split; reflexivity.
Qed.

Lemma step_guard : forall k s o, guard k s -> careful k s o -> guard k (step k s o).
Proof.
  intros k s o G C. unfold guard, removing in *. destruct o; cbn [careful step] in *.
  - destruct (decide k view seen) as [| |l] eqn:D; cbn; [tauto|tauto|]. intros NI.
    apply decide_put in D. destruct D as [[E _]|[_ [E _]]]; [now apply C|].
    exfalso. apply NI. rewrite E. apply withMe_In. now left.
  - destruct (pend s) eqn:P; cbn [pend] in *; [rewrite P; exact G| |rewrite P; exact G].
    destruct fails; [cbn; tauto|]. destruct (srv s); cbn; [exact G|tauto].
  - destruct (pend s) eqn:P; cbn [pend] in *; [rewrite P; exact G|rewrite P; exact G|].
    destruct fails; [cbn; tauto|]. destruct (update_frame (setPend Idle s) fins rv) as [A B].
    rewrite A. cbn. tauto.
  - destruct (srv s) as [ob|]; [|exact G]. destruct (oDel ob || Has f (oFins ob)); exact G.
  - destruct (srv s) as [ob|]; [|exact G]. destruct (Has f (oFins ob)); exact G.
  - destruct (srv s) as [ob|]; [|exact G]. destruct (oDel ob); exact G.
  - destruct (srv s) as [ob|]; exact G.
  - cbn [pend refs]. intros R. contradiction.
  - cbn [pend refs]. intros R. rewrite (G R). reflexivity.
Qed.

Lemma store_holds : forall s f l d, In f l -> holds f (store s l d).
Proof.
  intros s f l d I. unfold holds, store. cbn [srv]. exists (mkObj l d (S (rev s))). split; [|exact I].
  destruct l; [destruct I|]. now rewrite andb_false_r.
Qed.

(* The step at which the finalizer disappears is a Write of a removal. *)
Lemma step_holds : forall k s o, guard k s -> careful k s o -> holds (me k) s ->
  holds (me k) (step k s o) \/ refs s = [].
Proof.
  intros k s o G C H. unfold guard, removing in G. destruct H as (ob & E & I).
  destruct o; cbn [careful step] in *.
  - left. exists ob. split; [exact E|exact I].
  - left. exists ob. split; [|exact I]. destruct (pend s); [exact E| |exact E].
    destruct fails; [exact E|]. now rewrite E.
  - destruct (pend s) as [|l|l rv]; [left; now exists ob|left; now exists ob|].
    destruct fails; [left; now exists ob|].
    destruct (in_dec string_dec (me k) l) as [IN|NI]; [left|right; now apply G].
    unfold update. cbn [setPend srv]. rewrite E.
    destruct (negb (rv =? oRV ob)); [now exists ob|].
    destruct (oDel ob && negb (forallb (fun f => Has f (oFins ob)) l)); [now exists ob|]. now apply store_holds.
  - left. rewrite E. destruct (oDel ob || Has f (oFins ob)); [now exists ob|]. apply store_holds.
    apply in_or_app. now left.
  - left. rewrite E. destruct (Has f (oFins ob)); [|now exists ob]. apply store_holds.
    apply filter_In. split; [exact I|]. apply negb_true_iff, String.eqb_neq. change (finalizerOf k) with (me k) in C. congruence.
  - left. rewrite E. destruct (oDel ob); [now exists ob|now apply store_holds].
  - left. rewrite E. now exists ob.
  - left. now exists ob.
  - left. now exists ob.
Qed.

Lemma run_holds : forall k ops s, guard k s -> carefulRun k s ops -> holds (me k) s ->
  (forall x, In x (states k s ops) -> refs x <> []) -> holds (me k) (run k s ops).
Proof.
  intros k ops. induction ops as [|o ops IH]; intros s G C H R; [exact H|].
  change (run k s (o :: ops)) with (run k (step k s o) ops). cbn [carefulRun] in C. destruct C as [C C'].
  apply IH; [now apply step_guard|exact C'| |].
  - destruct (step_holds k s o G C H) as [K|K]; [exact K|]. exfalso. apply (R s); [now left|exact K].
  - intros x I. apply R. cbn [states]. now right.
Qed.

Lemma run_guard : forall k ops s, guard k s -> carefulRun k s ops -> guard k (run k s ops).
Proof.
  intros k ops. induction ops as [|o ops IH]; intros s G C; [exact G|].
  cbn [carefulRun] in C. destruct C as [C C']. apply IH; [now apply step_guard|exact C'].
Qed.

Lemma carefulRun_app : forall k a b s, carefulRun k s (a ++ b) <-> carefulRun k s a /\ carefulRun k (run k s a) b.
Proof.
  intros k a. induction a as [|o a IH]; intros b s; [cbn; tauto|].
  cbn [app carefulRun]. rewrite IH. change (run k s (o :: a)) with (run k (step k s o) a). tauto.
Qed.

Lemma removed_only : forall k ops o s, pend s = Idle -> carefulRun k s (ops ++ [o]) ->
  holds (me k) (run k s ops) -> ~ holds (me k) (run k s (ops ++ [o])) -> refs (run k s ops) = [].
Proof.
  intros k ops o s P C H N. apply carefulRun_app in C. destruct C as [C1 C2].
  assert (G : guard k s) by (unfold guard, removing; rewrite P; tauto).
  assert (G1 := run_guard k ops s G C1). cbn [carefulRun] in C2. destruct C2 as [C2 _].
  rewrite run_app in N. destruct (step_holds k _ o G1 C2 H) as [K|K]; [contradiction|exact K].
Qed.

(* ---- edits of others ---- *)

(* If the finalizers in the cache are those on the server when the write happens,
   the others' finalizers stay. *)
Lemma write_others : forall k s view seen l rv o o', decide k view seen = Put l ->
  pend s = Fetched l rv -> srv s = Some o -> sameOthers (me k) (oFins view) (oFins o) ->
  srv (step k s (Write false)) = Some o' -> sameOthers (me k) (oFins o) (oFins o').
Proof.
  intros k s view seen l rv o o' D P E SV E'. cbn [step] in E'. rewrite P in E'. unfold update in E'.
  cbn [setPend srv] in E'. rewrite E in E'.
  destruct (negb (rv =? oRV o)); [cbn in E'; rewrite E in E'; injection E' as <-; intros x _; tauto|].
  destruct (oDel o && negb (forallb (fun f => Has f (oFins o)) l));
    [cbn in E'; rewrite E in E'; injection E' as <-; intros x _; tauto|].
  unfold store in E'. cbn [srv] in E'.
  destruct (oDel o && match l with [] => true | _ => false end); [discriminate|].
  injection E' as <-. cbn [oFins]. intros x NE. rewrite <- (SV x NE).
  apply decide_put in D. destruct D as [(_ & -> & _)|(_ & -> & _)].
  - rewrite withoutMe_In. tauto.
  - rewrite withMe_In. tauto.
Qed.

(* ---- which secrets are queued ---- *)

Lemma sref_eqb_spec : forall a b, reflect (a = b) (sref_eqb a b).
Proof.
  intros [[a b]|] [[c d]|]; cbn; try (constructor; congruence).
  destruct (String.eqb_spec a c), (String.eqb_spec b d); cbn; constructor; congruence.
Qed.

Lemma queued_update : forall old new r, secretRef old <> None -> secretRef new <> None ->
  (In r (refsOf old) /\ ~ In r (refsOf new)) \/ (In r (refsOf new) /\ ~ In r (refsOf old)) ->
  In (refKey r) (machineClassToSecretUpdate old new).
Proof.
  intros [[a|] b] [[c|] d] r A B H; cbn in A, B; try congruence. clear A B.
  unfold machineClassToSecretUpdate. cbn [secretRef credRef]. unfold refsOf in H. cbn [secretRef credRef] in H.
  rewrite in_app_iff. unfold enqueueIfChanged.
  destruct (sref_eqb_spec (Some a) (Some c)) as [E|E]; destruct (sref_eqb_spec b d) as [F|F].
  - exfalso. injection E as <-. subst d. tauto.
  - right. injection E as <-. rewrite in_app_iff.
    destruct H as [[I N]|[I N]].
    + left. destruct b as [b|]; cbn in I, N |- *; [|tauto]. destruct I as [->|[->|[]]]; [tauto|now left].
    + right. destruct d as [d|]; cbn in I, N |- *; [|tauto]. destruct I as [->|[->|[]]]; [tauto|now left].
  - left. subst d. rewrite in_app_iff. destruct H as [[I N]|[I N]].
    + left. cbn. destruct I as [->|I]; [now left|]. exfalso. apply N. now right.
    + right. cbn. destruct I as [->|I]; [now left|]. exfalso. apply N. now right.
  - rewrite !in_app_iff. destruct H as [[I N]|[I N]].
    + apply in_app_or in I. destruct I as [[->|[]]|I]; [left; left; now left|].
      right. left. destruct b; [|destruct I]. destruct I as [->|[]]. now left.
    + apply in_app_or in I. destruct I as [[->|[]]|I]; [left; right; now left|].
      right. right. destruct d; [|destruct I]. destruct I as [->|[]]. now left.
Qed.

Lemma queued_add : forall c r, secretRef c <> None -> In r (refsOf c) -> In (refKey r) (machineClassToSecretAdd c).
Proof.
  intros [[a|] b] r A I; cbn in A; [|congruence]. unfold machineClassToSecretAdd, refsOf in *. cbn in *.
  destruct I as [->|I]; [now left|]. right. destruct b; [|destruct I]. destruct I as [->|[]]. now left.
Qed.
