(* C94: pod disruption budgets during a drain. *)
Require Import List String Bool Arith ZArith Lia Permutation.
From Verif Require Import Sort AttModel AttSpec DrainModel DrainSpec DrainProofs DrainProps BudgetSpec BudgetProofs.
Import ListNotations.
Open Scope string_scope.
Open Scope list_scope.
Open Scope nat_scope.

(* C94: a pod that uses claims is deleted without its budget being asked only after its
   eviction was refused as often as there are retries. *)
Theorem C94_claims : forall o matches info env pods a p x c, NoDup (map getPodKey pods) ->
  evictSorted o matches info env true pods = a ++ TCall false p x :: c ->
  List.length (evictions (getPodKey p) a) = Z.to_nat (o_retries o) /\
  (forall y, In y (evictions (getPodKey p) a) -> refused y) /\ (0 < o_retries o)%Z.
Proof. exact sorted_deletes. Qed.
Print Assumptions C94_claims.

(* C94: the same for a pod without claims, where the budget alone is a reason to go on. *)
Theorem C94_no_claims : forall o e p fuel t a q x c,
  evictPodWithoutPVInternal o e p fuel 0 true = Some t -> t = a ++ TCall false q x :: c ->
  q = p /\ a = repeat (TCall true p ATooMany) (Z.to_nat (o_retries o)).
Proof.
  intros o e p fuel t a q x c H E. destruct (noPv_shape _ _ _ _ _ _ H) as (n & b & y & rest & -> & C & D & _ & J & _).
  assert (N : ~ In (TCall false q x) (repeat (TCall true p ATooMany) n)) by (intros I; apply repeat_spec in I; discriminate).
  destruct (split_after _ _ _ _ _ _ E N) as (a2 & -> & E2). destruct a2 as [|z a2].
  - injection E2 as -> -> -> ->. split; [reflexivity|]. rewrite app_nil_r. f_equal.
    assert (B : ~ (Z.of_nat (0 + n) < o_retries o)%Z) by (intros B; apply D in B; discriminate).
    destruct n as [|n]; [lia|]. destruct (J n) as (_ & _ & L); lia.
  - exfalso. injection E2 as _ ->. rewrite called_app in C. cbn in C. destruct (called a2); discriminate.
Qed.
Print Assumptions C94_no_claims.

(* C94: so, over all pods of a drain that tries evictions. *)
Theorem C94_budget_first : forall o matches ans drv env envs fuel pods gs ts t a p x c, NoDup (map getPodKey pods) ->
  o_force o = false ->
  goroutines o matches ans drv env envs fuel true pods = Some gs -> ended gs = Some ts -> In t ts -> t = a ++ TCall false p x :: c ->
  List.length (evictions (getPodKey p) a) = Z.to_nat (o_retries o) /\ forall y, In y (evictions (getPodKey p) a) -> refused y.
Proof.
  intros o matches ans drv env envs fuel pods gs ts t a p x c N F H E I S.
  destruct (goroutines_some _ _ _ _ _ _ _ _ _ _ H) as [[F' _]|[w [wo [l [_ [G [PL [_ ->]]]]]]]]; [congruence|].
  cbn [ended] in E. destruct (ended (evictPodsWithoutPv o envs fuel true wo 0)) as [ts'|] eqn:T; [|discriminate]. injection E as <-.
  destruct I as [<- | I].
  - destruct (C94_claims _ _ _ _ l _ _ _ _ ltac:(
      destruct (groups_spec _ _ _ G) as (P & _);
      apply (Permutation_NoDup (l := map getPodKey w)); [apply Permutation_map; symmetry; exact PL|];
      apply (Permutation_map getPodKey) in P; symmetry in P; apply (Permutation_NoDup P) in N; rewrite map_app in N;
      clear -N; induction (map getPodKey w) as [|z zs IH]; [constructor|]; cbn in N; inversion N; subst; constructor; [intros J; apply H1, in_or_app; now left | now apply IH]) S) as (A & B & _).
    auto.
  - apply withoutPv_each in T.
    assert (X : exists q j, evictPodWithoutPVInternal o (envs j) q fuel 0 true = Some t).
    { clear -T I. induction T as [|q t' ps ts [j Hj] T IH]; [destruct I|]. destruct I as [<- | I]; [exists q, j; exact Hj | now apply IH]. }
    destruct X as (q & j & X). destruct (C94_no_claims _ _ _ _ _ _ _ _ _ X S) as (-> & ->).
    assert (EV : forall n, evictions (getPodKey q) (repeat (TCall true q ATooMany) n) = repeat ATooMany n).
    { induction n as [|n IH]; [reflexivity|]. cbn [repeat evictions flat_map]. rewrite String.eqb_refl. cbn [app]. f_equal. exact IH. }
    rewrite EV. split; [apply repeat_length|]. intros y J. apply repeat_spec in J. left. exact J.
Qed.
Print Assumptions C94_budget_first.

(* C94: if evictions are not to be tried, none is. *)
Theorem C94_forced : forall o matches info env pods b p x,
  In (TCall b p x) (evictSorted o matches info env false pods) -> b = false.
Proof. exact sorted_forced. Qed.
Print Assumptions C94_forced.

(* C94: whether evictions are tried: unless the drain is forced or the API server does not
   know them; and a drain starts only on a node whose cordon did not fail, with the pods of
   the cache. *)
Theorem C94_start : forall o cordon synced cache support ps attempt,
  startDrain o cordon synced cache support = Some (ps, attempt) <->
  cordon = true /\ synced = true /\ getPodsForDeletion o cache = Some ps /\
  (ps = [] /\ attempt = false \/
   ps <> [] /\ exists b, support = Some b /\ (attempt = true <-> o_force o = false /\ b = true)).
Proof.
  intros o cordon synced cache support ps attempt. unfold startDrain.
  destruct cordon, synced; cbn [negb]; try (split; [discriminate | intros (? & ? & _); discriminate]).
  destruct (getPodsForDeletion o cache) as [[|p r]|].
  - split.
    + intros E. injection E as <- <-. repeat split; auto.
    + intros (_ & _ & E & [(-> & ->)|(N & _)]); [reflexivity | injection E as <-; congruence].
  - destruct support as [b|].
    + split.
      * intros E. injection E as <- <-. repeat split; auto. right. split; [discriminate|]. exists b. split; [reflexivity|]. rewrite andb_true_iff, negb_true_iff. tauto.
      * intros (_ & _ & E & [(-> & _)|(_ & b' & B & D)]); [discriminate|]. injection E as <-. injection B as <-. f_equal. f_equal.
        destruct attempt, (negb (o_force o) && b) eqn:Q; try reflexivity.
        -- destruct (proj1 D eq_refl) as (X & ->). rewrite X in Q. discriminate.
        -- apply andb_prop in Q as (Q1 & ->). apply negb_true_iff in Q1. symmetry. apply D. auto.
    + split; [discriminate|]. intros (_ & _ & E & [(-> & _)|(_ & b & B & _)]); discriminate.
  - split; [discriminate|]. intros (_ & _ & E & _). discriminate.
Qed.
Print Assumptions C94_start.

(* C41: a drain that cannot list the pods, or meets one that it must not remove, does not pass
   for a drain with nothing to do: it ends with an error at once. *)
Theorem C41_unlisted : forall o cordon synced cache support,
  cache = None \/ (exists l p, cache = Some l /\ In p l /\ Fatal o p) ->
  startDrain o cordon synced cache support = None.
Proof.
  intros o cordon synced cache support H.
  assert (G : getPodsForDeletion o cache = None).
  { destruct H as [->|(l & p & -> & I & F)]; [reflexivity|]. apply (proj1 (getPods_spec o l)). now exists p. }
  unfold startDrain. rewrite G. now destruct cordon, synced.
Qed.
Print Assumptions C41_unlisted.

(* C94: a refused eviction is reported as hopeless at once exactly if the first budget of
   the pod can never be met by waiting; the number of calls before it is the number of the
   attempt. *)
Theorem C94_hopeless : forall o matches info env attempt pods a p c,
  evictSorted o matches info env attempt pods = a ++ TCall true p ATooMany :: c ->
  (hopelessFirst (a_pdbs (env (List.length (called a)))) <-> exists c', c = TSend p RPdb :: c').
Proof.
  intros o matches info env attempt pods a p c E. rewrite <- wrong_spec.
  apply (good_split env a 0 p c). rewrite <- E. apply good_sorted.
Qed.
Print Assumptions C94_hopeless.

Theorem C94_hopeless_no_claims : forall o e p fuel t i,
  evictPodWithoutPVInternal o e p fuel 0 true = Some t -> nth_error t i = Some (TCall true p ATooMany) ->
  (hopelessFirst (e_pdbs e i) <-> nth_error t (S i) = Some (TSend p RPdb)).
Proof.
  intros o e p fuel t i H N. destruct (noPv_shape _ _ _ _ _ _ H) as (n & b & x & rest & -> & C & D & X & J & W & V & Q). rewrite <- wrong_spec. cbn [plus] in *.
  destruct (Nat.lt_ge_cases i n) as [L|L].
  - destruct (J i L) as (_ & -> & _). split; [discriminate|]. intros E. exfalso.
    destruct (Nat.eq_dec (S i) n) as [<- | M].
    + rewrite nth_error_app2 in E by (rewrite repeat_length; lia). rewrite repeat_length, Nat.sub_diag in E. discriminate.
    + rewrite nth_error_app1 in E by (rewrite repeat_length; lia). apply nth_error_In, repeat_spec in E. discriminate.
  - rewrite nth_error_app2 in N by (rewrite repeat_length; lia). rewrite repeat_length in N.
    destruct (i - n) as [|m] eqn:M.
    + assert (i = n) by lia. subst i. cbn in N. injection N as -> ->.
      rewrite nth_error_app2 by (rewrite repeat_length; lia). rewrite repeat_length. replace (S n - n) with 1 by lia. cbn.
      split.
      * intros T. destruct (proj2 W (conj eq_refl (conj eq_refl T))) as (r & ->). reflexivity.
      * intros T. destruct rest as [|z r]; [discriminate|]. cbn in T. injection T as ->. apply W. eexists. reflexivity.
    + exfalso. cbn in N. apply nth_error_In in N.
      assert (Y : In p (called rest)) by (unfold called; apply in_flat_map; exists (TCall true p ATooMany); split; [exact N | now left]). rewrite C in Y. destruct Y.
Qed.
Print Assumptions C94_hopeless_no_claims.

(* C94: pods left over at the end are reported with what was tried. *)
Theorem C94_reported : forall o matches info env attempt pods p e,
  In (TSend p e) (evictSorted o matches info env attempt pods) ->
  (e = REvict -> attempt = true) /\ (e = RDelete -> attempt = false) /\ (e = RPdb -> In (TCall true p ATooMany) (evictSorted o matches info env attempt pods)).
Proof.
  intros o matches info env attempt pods p e I. split; [|split]; intros ->.
  - apply sorted_errors in I as [X|[X|[X|X]]]; try discriminate. destruct attempt; [reflexivity | discriminate].
  - apply sorted_errors in I as [X|[X|[X|X]]]; try discriminate. destruct attempt; [discriminate | reflexivity].
  - eapply (good_error env (List.length (evictSorted o matches info env attempt pods))); [apply le_n | apply good_sorted | exact I].
Qed.
Print Assumptions C94_reported.

(* A budget without room, one with a wrong number, and one that is out of date. *)
Definition full : Pdb := mkPdb 1 1 3 2 0.
Definition wrong : Pdb := mkPdb 1 1 3 3 0.
Definition old : Pdb := mkPdb 2 1 3 3 0.
Example C94_case :
  let env b k := mkAtt false (if Nat.ltb k 3 then ATooMany else AOk) [b] [] [] in
  evictSorted (opts false 2) String.eqb [] (env full) true [pDb] =
    [TCall true pDb ATooMany; TCall true pDb ATooMany; TCall false pDb ATooMany; TSend pDb REvict] /\
  evictSorted (opts false 3) String.eqb [] (env old) true [pDb] =
    [TCall true pDb ATooMany; TCall true pDb ATooMany; TCall true pDb ATooMany; TCall false pDb AOk; TDetach pDb DOk; TReattach pDb true; TSend pDb RNil] /\
  evictSorted (opts false 3) String.eqb [] (env wrong) true [pDb] = [TCall true pDb ATooMany; TSend pDb RPdb] /\
  evictPodWithoutPVInternal (opts false 2) (mkPEnv (fun _ => ATooMany) (fun _ => [full]) []) pWeb 5 0 true =
    Some [TCall true pWeb ATooMany; TCall true pWeb ATooMany; TCall false pWeb ATooMany; TSend pWeb RErr] /\
  evictPodWithoutPVInternal (opts false 2) (mkPEnv (fun _ => ATooMany) (fun i => if Nat.eqb i 1 then [wrong] else [full]) []) pWeb 5 0 true =
    Some [TCall true pWeb ATooMany; TCall true pWeb ATooMany; TSend pWeb RPdb].
Proof. repeat split. Qed.
Example C41_unlisted_case : startDrain (opts false 3) true true None (Some true) = None /\
  startDrain (mkOpts "n1" false true true false 3 true) true true (Some [pWeb]) (Some true) = None /\
  startDrain (opts false 3) true true (Some []) None = Some ([], false).
Proof. repeat split; reflexivity. Qed.
Example C94_start_case :
  startDrain (opts false 2) true true (Some [pWeb]) (Some true) = Some ([pWeb], true) /\
  startDrain (opts true 2) true true (Some [pWeb]) (Some true) = Some ([pWeb], false) /\
  startDrain (opts false 2) false true (Some [pWeb]) (Some true) = None.
Proof. repeat split. Qed.

(* The budget is not respected in the end: a drain that is not forced deletes a pod that its
   budget protects all the time, and one whose budget was never asked because the API server
   failed each time. *)
Theorem C94_deleted_refuted :
  (exists o e p t, o_force o = false /\ (forall i, e_pdbs e i = [full]) /\ e_ans e 0 = ATooMany /\ e_ans e 1 = ATooMany /\
     evictPodWithoutPVInternal o e p 5 0 true = Some t /\ In (TCall false p AOk) t) /\
  (exists o env p, o_force o = false /\ (forall k, a_ans (env k) = AOther \/ k = 2) /\
     In (TCall false p AOk) (evictSorted o String.eqb [] env true [p])).
Proof.
  split.
  - exists (opts false 2), (mkPEnv (fun i => if Nat.ltb i 2 then ATooMany else AOk) (fun _ => [full]) [mkGet (Some true) None]), pWeb. eexists.
    repeat split. vm_compute. tauto.
  - exists (opts false 2), (fun k => mkAtt false (if Nat.eqb k 2 then AOk else AOther) [] [] []), pDb.
    split; [reflexivity|]. split; [intros k; cbn; destruct (Nat.eqb_spec k 2); auto|]. vm_compute. tauto.
Qed.
Print Assumptions C94_deleted_refuted.

(* C40: an eviction or deletion can hit only a pod of the namespace and name of the chosen one. *)
Theorem C40_named : forall live p q, hits live p = Some q -> In q live /\ p_ns q = p_ns p /\ p_name q = p_name p.
Proof.
  intros live p q H. unfold hits in H. apply find_some in H as (I & E). apply andb_prop in E as (A & B). apply String.eqb_eq in A, B. auto.
Qed.
Print Assumptions C40_named.
Example C40_named_case : hits [pWeb; pDb'] pDb = Some pDb' /\ hits [pWeb] pDb = None.
Proof. split; reflexivity. Qed.

(* C41: the cordon: it is reported as done exactly if the node could not be read, was marked
   already or the update went through; and then the node is marked, unless it could not be read. *)
Theorem C41_cordoned : forall getFails unsched updateFails,
  (fst (cordonNode getFails unsched updateFails) = true <-> getFails = true \/ unsched = true \/ updateFails = false) /\
  (snd (cordonNode getFails unsched updateFails) = true <-> unsched = true \/ (getFails = false /\ updateFails = false)).
Proof. intros [] [] []; cbn; split; intuition congruence. Qed.
Print Assumptions C41_cordoned.
