(* C39 (every pod gets a result), C40 (which pods), C41 (success means the pods are out of
   the way), C42 (shared volumes) and C67 (one pod after the other). *)
Require Import List String Bool Arith ZArith Lia Permutation Sorted.
From Verif Require Import Sort AttModel AttSpec AttProofs DrainModel DrainSpec DrainProofs.
Import ListNotations.
Open Scope string_scope.
Open Scope list_scope.
Open Scope nat_scope.

(** * C40 *)

(* C40: with the options the machine controller uses, exactly the pods on the node that
   are neither mirror pods nor controlled by a DaemonSet are chosen, each as often and in
   the order in which the cache lists them. *)
Theorem C40_exact : forall o l, mcmOpts o -> exists ps, getPodsForDeletion o (Some l) = Some ps /\
  (forall p, In p ps <-> In p l /\ Selected (o_node o) p) /\ Sub ps l.
Proof.
  intros o l M. destruct (getPods_spec o l) as [A B]. destruct (getPodsForDeletion o (Some l)) as [ps|].
  - exists ps. split; [reflexivity|]. now apply B.
  - exfalso. destruct A as [A _]. destruct (A eq_refl) as [p [_ F]]. now apply (mcm_not_fatal o p M).
Qed.
Print Assumptions C40_exact.

(* C40: with any options: an error exactly if a pod on the node is in the way. *)
Theorem C40_fatal : forall o l, getPodsForDeletion o (Some l) = None <-> exists p, In p l /\ Fatal o p.
Proof. intros o l. apply getPods_spec. Qed.
Print Assumptions C40_fatal.

(* C40: every pod is in exactly one of the two groups, as it uses a claim or not. *)
Theorem C40_groups : forall pods w wo, filterPodsWithPv pods = (w, wo) ->
  Permutation (w ++ wo) pods /\ Sub w pods /\ Sub wo pods /\
  (forall p, In p w -> UsesClaim p) /\ (forall p, In p wo -> ~ UsesClaim p).
Proof. exact groups_spec. Qed.
Print Assumptions C40_groups.

(* C40: whatever happens, evictions and deletions are asked for chosen pods only. *)
Theorem C40_only : forall o matches ans drv env envs fuel attempt cache pods gs ts b p a, mcmOpts o ->
  getPodsForDeletion o (Some cache) = Some pods ->
  goroutines o matches ans drv env envs fuel attempt pods = Some gs -> ended gs = Some ts ->
  In (TCall b p a) (List.concat ts) -> In p cache /\ Selected (o_node o) p.
Proof.
  intros o matches ans drv env envs fuel attempt cache pods gs ts b p a M G H E I.
  destruct (C40_exact o cache M) as [ps [G' [S _]]]. rewrite G in G'. injection G' as <-.
  apply S. eapply calls_only; eassumption.
Qed.
Print Assumptions C40_only.

(* C40: and for each of them one is asked for. Partial: unless the time of the drain runs
   out or the node object goes; and with at least one retry. *)
Theorem C40_each_partial : forall o matches ans drv env envs fuel attempt cache pods gs ts p, mcmOpts o -> Undisturbed env ->
  (attempt = true -> o_force o = false -> (0 < o_retries o)%Z) ->
  getPodsForDeletion o (Some cache) = Some pods ->
  goroutines o matches ans drv env envs fuel attempt pods = Some gs -> ended gs = Some ts ->
  In p cache -> Selected (o_node o) p -> exists b a, In (TCall b p a) (List.concat ts).
Proof.
  intros o matches ans drv env envs fuel attempt cache pods gs ts p M U R G H E I S.
  destruct (C40_exact o cache M) as [ps [G' [Q _]]]. rewrite G in G'. injection G' as <-.
  assert (J : In p pods) by (apply Q; tauto). pose proof (calls_all _ _ _ _ _ _ _ _ _ _ _ p U H E R J) as C.
  unfold called in C. apply in_flat_map in C. destruct C as [x [X Y]]. destruct x as [b q a|? ?|? ?|? ?|? ?]; cbn in Y; try contradiction.
  destruct Y as [<-|[]]. exists b, a. assumption.
Qed.
Print Assumptions C40_each_partial.

(* Pods for the examples. *)
Definition pod (name node : string) (owners : list (string * bool)) (vols : list Vol) : Pod :=
  mkPod "ns" name ("uid-" ++ name)%string node false owners false vols (Some 0%Z).
Definition opts (force : bool) (retries : Z) : Opts := mkOpts "n1" force true true true retries true.
Definition claim (c : string) : Vol := mkVol false (Some c).
Definition pDs := pod "ds" "n1" [("DaemonSet", true)] [].
Definition pWeb := pod "web" "n1" [("ReplicaSet", true)] [mkVol true None].
Definition pDb := pod "db" "n1" [("StatefulSet", true)] [claim "data"].
Definition pBare := pod "bare" "n1" [("DaemonSet", false)] [].
Definition pFar := pod "far" "n2" [("ReplicaSet", true)] [].
Definition pMirror := mkPod "ns" "static" "u" "n1" true [("Node", true)] false [] None.
Example C40_case : getPodsForDeletion (opts false 3) (Some [pDs; pWeb; pFar; pDb; pMirror; pBare]) = Some [pWeb; pDb; pBare] /\
  filterPodsWithPv [pWeb; pDb; pBare] = ([pDb], [pWeb; pBare]) /\
  getPodsForDeletion (mkOpts "n1" false true true false 3 true) (Some [pWeb]) = None.
Proof. repeat split. Qed.

(* Finding: the calls name the pod, they do not say which one: a pod that was replaced by
   one of the same name on another node (as a StatefulSet does) while an eviction is retried
   has its replacement evicted. *)
Definition pDb' := mkPod "ns" "db" "uid-new" "n2" false [("StatefulSet", true)] false [claim "data"] (Some 0%Z).
Theorem C40_other_node_refuted : ~ (forall o env envs gs ts live p q b, mcmOpts o ->
  goroutines o (fun _ _ => false) (fun _ _ _ => PvcMissing) (fun _ => None) env envs 5 true [p] = Some gs -> ended gs = Some ts ->
  Selected (o_node o) p -> In (TCall b p AOk) (List.concat ts) -> hits live p = Some q -> p_node q = o_node o).
Proof.
  intro H.
  specialize (H (opts false 3) (fun k => mkAtt false (match k with 0 => ATooMany | _ => AOk end) [] [] [])
    (fun _ => mkPEnv (fun _ => AOk) (fun _ => []) [])
    [Some [TCall true pDb ATooMany; TCall true pDb AOk; TDetach pDb DOk; TReattach pDb true; TSend pDb RNil]]
    [[TCall true pDb ATooMany; TCall true pDb AOk; TDetach pDb DOk; TReattach pDb true; TSend pDb RNil]]
    [pDb'] pDb pDb' true).
  assert (X : "n2" = "n1"); [|discriminate]. apply H.
  - repeat split.
  - reflexivity.
  - reflexivity.
  - split; [reflexivity|]. split; [reflexivity|]. intro C. apply controller_spec in C. discriminate.
  - right. now left.
  - reflexivity.
Qed.
Print Assumptions C40_other_node_refuted.

(** * C39 *)

(* C39: every goroutine ends, whatever the answers are: none goes round more than the
   number of retries plus one. *)
Theorem C39_ends : forall o matches ans drv env envs fuel attempt pods gs,
  goroutines o matches ans drv env envs fuel attempt pods = Some gs -> Z.to_nat (o_retries o) < fuel ->
  exists ts, ended gs = Some ts.
Proof. intros. eapply all_end; [eassumption|lia|lia]. Qed.
Print Assumptions C39_ends.

(* C39: together they send exactly one result for each pod (unless evictions are to be
   tried with no retry at all). *)
Theorem C39_one_result : forall o matches ans drv env envs fuel attempt pods gs ts,
  goroutines o matches ans drv env envs fuel attempt pods = Some gs -> ended gs = Some ts ->
  (attempt = true -> o_force o = false -> (0 < o_retries o)%Z) ->
  Permutation (map fst (sends (List.concat ts))) pods.
Proof. exact one_result. Qed.
Print Assumptions C39_one_result.

(* C39: so the drain returns, and reports exactly the errors, in whatever order the
   results come in. Partial: with at least one retry. *)
Theorem C39_returns_partial : forall o matches ans drv env envs fuel attempt pods gs,
  goroutines o matches ans drv env envs fuel attempt pods = Some gs -> Z.to_nat (o_retries o) < fuel ->
  (attempt = true -> o_force o = false -> (0 < o_retries o)%Z) ->
  exists ts, ended gs = Some ts /\ forall l, Permutation l (sends (List.concat ts)) ->
    exists errs, collect (List.length pods) l = Returned errs /\
      forall e, In e errs <-> e <> RNil /\ exists p, In (TSend p e) (List.concat ts).
Proof.
  intros o matches ans drv env envs fuel attempt pods gs H L R.
  destruct (C39_ends _ _ _ _ _ _ _ _ _ _ H L) as [ts E]. exists ts. split; [assumption|]. intros l P.
  pose proof (one_result _ _ _ _ _ _ _ _ _ _ _ H E R) as Q. apply Permutation_length in Q. rewrite map_length in Q.
  eexists. split; [apply collect_returns; rewrite <- Q; now apply Permutation_length|].
  intro e. rewrite filter_In, in_map_iff. split.
  - intros [[[p r] [X I]] N]. cbn in X. subst r. split; [intros ->; discriminate|]. exists p.
    apply (Permutation_in _ P) in I. unfold sends in I. apply in_flat_map in I. destruct I as [y [Y1 Y2]].
    destruct y; cbn in Y2; try contradiction. destruct Y2 as [Y2|[]]. injection Y2 as <- <-. assumption.
  - intros [N [p I]]. split; [|destruct e; congruence]. exists (p, e). split; [reflexivity|]. symmetry in P. apply (Permutation_in _ P).
    unfold sends. apply in_flat_map. eexists. split; [exact I|now left].
Qed.
Print Assumptions C39_returns_partial.

(* C39: the only panic: two or more pods with claims, one of them without a priority. *)
Theorem C39_panics_exactly : forall o matches ans drv env envs fuel attempt pods w wo, filterPodsWithPv pods = (w, wo) ->
  goroutines o matches ans drv env envs fuel attempt pods = None <->
  o_force o = false /\ 2 <= List.length w /\ exists p, In p w /\ p_prio p = None.
Proof.
  intros o matches ans drv env envs fuel attempt pods w wo F. unfold goroutines. rewrite F. unfold evictPodsWithPv.
  destruct (o_force o); [split; [discriminate|intros [X _]; discriminate]|].
  pose proof (sort_none w) as S. destruct (sortPodsByPriority w); [|tauto].
  split; [discriminate|]. intros [_ X]. apply S in X. discriminate.
Qed.
Print Assumptions C39_panics_exactly.

(* C39: the number of calls is bounded: each pod without claims is tried at most once more
   than the number of retries, those with claims together that many times their number. *)
Theorem C39_calls_without : forall o e p fuel attempt t, evictPodWithoutPVInternal o e p fuel 0 attempt = Some t ->
  List.length (called t) <= S (Z.to_nat (o_retries o)).
Proof. intros o e p fuel attempt t H. apply noPv_count in H. lia. Qed.
Print Assumptions C39_calls_without.
Theorem C39_calls_with : forall o matches info env attempt pods,
  List.length (called (evictSorted o matches info env attempt pods)) <= S (Z.to_nat (o_retries o)) * List.length pods.
Proof. exact sorted_count. Qed.
Print Assumptions C39_calls_with.

(* A budget in the way twice, a wrong budget, an API error, a pod that went by itself. *)
Definition pdb (allowed : Z) : Pdb := mkPdb 1 1 3 3 allowed.
Definition envC (k : nat) : Att :=
  mkAtt false (nth k [ATooMany; AOk; AOther; AOk] ANotFound) [pdb 1] [NVols ["aws/vol-1"]; NVols ["aws/other"]] [].
Definition pDb2 := mkPod "ns" "db2" "u2" "n1" false [("StatefulSet", true)] false [claim "data2"] (Some 7%Z).
Example C39_case :
  match goroutines (opts false 2) String.eqb (fun _ c _ => PvcVol c) (fun n => Some "aws/vol-1") envC
    (fun _ => mkPEnv (fun i => if Nat.eqb i 0 then ATooMany else AOk) (fun _ => [pdb 1]) [mkGet None (Some "uid-web"); mkGet (Some true) None])
    4 true [pDb; pWeb; pDb2] with
  | Some gs => match ended gs with
               | Some ts => map fst (sends (List.concat ts)) = [pDb; pDb2; pWeb] /\
                            collect 3 (sends (List.concat ts)) = Returned [] /\
                            called (List.concat ts) = [pDb2; pDb; pDb2; pDb2; pWeb; pWeb]
               | None => False end
  | None => False end.
Proof. vm_compute. repeat split. Qed.

(* Finding: if evictions are to be tried with no retry (or a drain time-out under 20
   seconds, which comes to the same), the goroutine for pods with claims sends nothing and
   the drain waits for ever: no answer helps, not even the end of its own deadline. *)
Theorem C39_hangs : forall o matches ans drv env envs fuel pods gs ts w wo, o_force o = false -> (o_retries o <= 0)%Z ->
  filterPodsWithPv pods = (w, wo) -> w <> [] ->
  goroutines o matches ans drv env envs fuel true pods = Some gs -> ended gs = Some ts ->
  forall l, Permutation l (sends (List.concat ts)) -> collect (List.length pods) l = Hang.
Proof.
  intros o matches ans drv env envs fuel pods gs ts w wo F R G N H E l P.
  destruct (goroutines_some _ _ _ _ _ _ _ _ _ _ H) as [[F' _]|[w' [wo' [l' [_ [G' [PL [_ ->]]]]]]]]; [congruence|].
  rewrite G in G'. injection G' as <- <-.
  cbn [ended] in E. destruct (ended (evictPodsWithoutPv o envs fuel true wo 0)) as [ts'|] eqn:T; [|discriminate].
  injection E as <-. cbn [List.concat] in P. rewrite sends_app in P.
  assert (Z0 : Z.to_nat (o_retries o) = 0) by lia.
  unfold evictSorted in P. rewrite Z0 in P. cbn in P.
  apply withoutPv_each, each_sends in T. apply Permutation_length in P.
  apply (f_equal (@List.length Pod)) in T. rewrite map_length in T.
  destruct (groups_spec _ _ _ G) as [PG _]. apply Permutation_length in PG. rewrite app_length in PG.
  unfold collect. assert (List.length w <> 0) by (destruct w; [congruence|discriminate]).
  destruct (Nat.ltb_spec (List.length l) (List.length pods)); [reflexivity|lia].
Qed.
Print Assumptions C39_hangs.
Theorem C39_hang_refuted : ~ (forall o matches ans drv env envs pods gs ts l attempt,
  goroutines o matches ans drv env envs 3 attempt pods = Some gs -> ended gs = Some ts ->
  Permutation l (sends (List.concat ts)) -> collect (List.length pods) l <> Hang).
Proof.
  intro H. specialize (H (opts false (effectiveRetries 100 19)) String.eqb (fun _ _ _ => PvcMissing) (fun _ => None) envC
    (fun _ => mkPEnv (fun _ => AOk) (fun _ => []) []) [pDb] [Some []] [[]] [] true eq_refl eq_refl (perm_nil _)).
  apply H. reflexivity.
Qed.
Print Assumptions C39_hang_refuted.
(* C39: how often an eviction is tried: as often as configured, unless as many intervals of 20 seconds
   do not fit into the time of the drain; then as often as they do, which is not at all (and with
   volumes the hang above) when that time is under 20 seconds. *)
Theorem C39_retries : forall configured timeout, (0 <= timeout)%Z ->
  let r := effectiveRetries configured timeout in
  (r <= configured /\ 20 * r <= timeout /\ (r = configured \/ timeout < 20 * (r + 1)))%Z.
Proof.
  intros c t H r. unfold r, effectiveRetries. rewrite Z.quot_div_nonneg by lia. pose proof (Z.mul_div_le t 20 eq_refl). pose proof (Z.mul_succ_div_gt t 20 eq_refl). lia.
Qed.
Print Assumptions C39_retries.
Example C39_retries_case : effectiveRetries 100 19 = 0%Z /\ effectiveRetries 100 7200 = 100%Z /\ effectiveRetries 400 7199 = 359%Z.
Proof. repeat split. Qed.

(** * C41 *)

(* C41: if a drain that is not forced reports success, every pod was evicted, deleted or not
   there any more; those without claims were seen to be gone, those with claims that were
   evicted had their volumes seen detached. Partial: unless the time of the drain ran out or
   the node object went, as the next two show. *)
Theorem C41_success_partial : forall o matches ans drv env envs fuel attempt pods gs ts l, Undisturbed env ->
  o_force o = false -> (attempt = true -> (0 < o_retries o)%Z) ->
  goroutines o matches ans drv env envs fuel attempt pods = Some gs -> ended gs = Some ts ->
  Permutation l (sends (List.concat ts)) -> collect (List.length pods) l = Returned [] ->
  forall p, In p pods -> let t := List.concat ts in exists b,
    In (TCall b p ANotFound) t \/ (In (TCall b p AOk) t /\ In (TDetach p DOk) t) \/
    (In (TCall b p AOk) t /\ In (TGone p true) t /\ exists j, waitForDelete (p_uid p) (e_polls (envs j)) = true).
Proof.
  intros o matches ans drv env envs fuel attempt pods gs ts l U F R H E P C p I t. unfold t.
  eapply nil_means; try eassumption.
  pose proof (one_result _ _ _ _ _ _ _ _ _ _ _ H E (fun X _ => R X)) as Q. symmetry in Q. apply (Permutation_in _ Q) in I.
  apply in_map_iff in I. destruct I as [[q r] [X I]]. cbn in X. subst q.
  assert (r = RNil).
  { unfold collect in C. destruct (Nat.ltb _ _); [discriminate|]. destruct (Nat.ltb _ _); [discriminate|]. injection C as C.
    symmetry in P. apply (Permutation_in _ P) in I. apply (in_map snd) in I. cbn in I.
    destruct r; try reflexivity; exfalso;
    match goal with I : In ?x _ |- _ => assert (X : In x (filter (fun r => match r with RNil => false | _ => true end) (map snd l)))
      by (apply filter_In; split; [assumption|reflexivity]) end; rewrite C in X; destruct X. }
  subst r. unfold sends in I. apply in_flat_map in I. destruct I as [y [Y1 Y2]].
  destruct y; cbn in Y2; try contradiction. destruct Y2 as [Y2|[]]. injection Y2 as <- <-. assumption.
Qed.
Print Assumptions C41_success_partial.

(* C41: what it takes to call a pod gone: a Get that says it is not found, or that there is
   another one of that name, with no failing Get before. *)
Theorem C41_gone_exactly : forall uid polls, waitForDelete uid polls = true <->
  exists a g b, polls = a ++ g :: b /\ (forall x, In x a -> g_err x = None /\ (g_obj x = None \/ g_obj x = Some uid)) /\
    (g_err g = Some true \/ exists u, g_obj g = Some u /\ u <> uid).
Proof. exact waitForDelete_spec. Qed.
Print Assumptions C41_gone_exactly.

Example C41_case : forall p, In p [pDb; pWeb] -> exists b,
  In (TCall b p AOk) [TCall true pDb AOk; TDetach pDb DOk; TReattach pDb false; TSend pDb RNil;
                      TCall true pWeb AOk; TGone pWeb true; TSend pWeb RNil] /\
  match goroutines (opts false 2) String.eqb (fun _ c _ => PvcVol c) (fun n => Some "vol-1")
    (fun _ => mkAtt false AOk [] [NVols ["vol-1"]; NVols ["vol-2"]] [])
    (fun _ => mkPEnv (fun i => AOk) (fun _ => []) [mkGet None (Some "uid-web"); mkGet (Some true) None]) 4 true [pDb; pWeb] with
  | Some gs => match ended gs with
               | Some ts => List.concat ts = [TCall true pDb AOk; TDetach pDb DOk; TReattach pDb false; TSend pDb RNil;
                      TCall true pWeb AOk; TGone pWeb true; TSend pWeb RNil] /\ collect 2 (sends (List.concat ts)) = Returned []
               | None => False end
  | None => False end.
Proof.
  intros p I. exists true. split; [|vm_compute; split; reflexivity].
  destruct I as [<-|[<-|[]]]; [now left|do 4 right; now left].
Qed.

(* What C41 claims in full. *)
Definition SuccessMeansOut (good : (nat -> Att) -> (nat -> PEnv) -> Prop) : Prop :=
  forall o matches ans drv env envs fuel attempt pods gs ts l, good env envs ->
  o_force o = false -> (attempt = true -> (0 < o_retries o)%Z) ->
  goroutines o matches ans drv env envs fuel attempt pods = Some gs -> ended gs = Some ts ->
  Permutation l (sends (List.concat ts)) -> collect (List.length pods) l = Returned [] ->
  forall p, In p pods -> Out_of_the_way (List.concat ts) p.

(* Finding: if the time of the drain runs out, the pods not yet tried are reported as
   evicted, and the drain as successful, though nothing was asked of them. *)
Theorem C41_timeout_refuted : ~ SuccessMeansOut (fun env _ => forall k, ~ In NGone (a_polls (env k))).
Proof.
  intro H. specialize (H (opts false 2) String.eqb (fun _ _ _ => PvcMissing) (fun _ => None) (fun _ => mkAtt true AOk [] [] [])
    (fun _ => mkPEnv (fun _ => AOk) (fun _ => []) []) 4 true [pDb; pDb2]
    [Some [TSend pDb2 RNil; TSend pDb RNil]] [[TSend pDb2 RNil; TSend pDb RNil]] [(pDb2, RNil); (pDb, RNil)]
    (fun _ X => X) eq_refl (fun _ => eq_refl) eq_refl eq_refl (Permutation_refl _) eq_refl pDb (or_introl eq_refl)).
  destruct H as [b [[X|[X|[]]]|[X|[X|[]]]]]; discriminate.
Qed.
Print Assumptions C41_timeout_refuted.

(* Finding: if the node object goes while volumes are waited for, the pods not yet tried
   are reported as evicted. *)
Theorem C41_node_gone_refuted : ~ SuccessMeansOut (fun env _ => forall k, a_done (env k) = false).
Proof.
  intro H. specialize (H (opts false 2) String.eqb (fun _ c _ => PvcVol c) (fun n => Some n) (fun _ => mkAtt false AOk [] [NGone] [])
    (fun _ => mkPEnv (fun _ => AOk) (fun _ => []) []) 4 true [pDb; pDb2]
    [Some [TCall true pDb2 AOk; TDetach pDb2 DGone; TSend pDb2 RNil; TSend pDb RNil]]
    [[TCall true pDb2 AOk; TDetach pDb2 DGone; TSend pDb2 RNil; TSend pDb RNil]] [(pDb2, RNil); (pDb, RNil)]
    (fun _ => eq_refl) eq_refl (fun _ => eq_refl) eq_refl eq_refl (Permutation_refl _) eq_refl pDb (or_introl eq_refl)).
  destruct H as [b [[X|[X|[X|[X|[]]]]]|[X|[X|[X|[X|[]]]]]]]; discriminate.
Qed.
Print Assumptions C41_node_gone_refuted.

(* Finding: the client hands out an empty object along with an error, so that a Get that
   fails for whatever reason is taken for the end of the pod (its UID differs). *)
Theorem C41_failed_get_refuted : ~ (forall uid polls, waitForDelete uid polls = true ->
  exists g, In g polls /\ (g_err g = Some true \/ g_err g = None)).
Proof.
  intro H. destruct (H "uid-web" [mkGet (Some false) (Some "")] eq_refl) as [g [[<-|[]] [X|X]]]; discriminate.
Qed.
Print Assumptions C41_failed_get_refuted.

(* Finding: the node need not be cordoned for a drain to start. *)
Theorem C41_cordon_refuted : ~ (forall g u f, fst (cordonNode g u f) = true -> snd (cordonNode g u f) = true).
Proof. intro H. specialize (H true false false eq_refl). discriminate. Qed.
Print Assumptions C41_cordon_refuted.

(** * C42 *)

(* C42: of the volumes of a pod exactly those are kept, in order, that are mentioned once
   in all. *)
Theorem C42_exact : forall m k, mget (filterSharedPVs m) k =
  match mget m k with Some vols => Some (filter (fun v => Nat.eqb (mentions m v) 1) vols) | None => None end.
Proof. exact filterShared_spec. Qed.
Print Assumptions C42_exact.

(* C42: the order in which the map is walked does not matter. *)
Theorem C42_any_order : forall m m' k, NoDup (map fst m) -> Permutation m m' ->
  mget (filterSharedPVs m) k = mget (filterSharedPVs m') k.
Proof. exact filterShared_perm. Qed.
Print Assumptions C42_any_order.

(* C42: for the pods of a drain: a volume of a pod is waited for if and only if no other of
   these pods uses it and the driver knows it; the order is that of the pod.
   Partial: if no pod mentions a volume twice; and only pods that are to be evicted count. *)
Theorem C42_pods_partial : forall ans drv pods p, NoDup (map getPodKey pods) -> In p pods ->
  (forall q, In q pods -> NoDup (getPersistentVolumeNamesForPod ans q)) ->
  exists vols, mget (getPodVolumeInfos ans drv pods) (getPodKey p) = Some vols /\
    Sub (map fst vols) (getPersistentVolumeNamesForPod ans p) /\
    forall n id, In (n, id) vols <->
      In n (getPersistentVolumeNamesForPod ans p) /\ drv n = Some id /\ id <> "" /\
      forall q, In q pods -> In n (getPersistentVolumeNamesForPod ans q) -> getPodKey q = getPodKey p.
Proof.
  intros ans drv pods p ND I U. rewrite infos_spec, byPod_spec by assumption.
  remember (map (fun q => (getPodKey q, getPersistentVolumeNamesForPod ans q)) pods) as m.
  assert (NM : NoDup (map fst m)) by (subst m; rewrite map_map; cbn; assumption).
  assert (IM : In (getPodKey p, getPersistentVolumeNamesForPod ans p) m)
    by (subst m; apply (in_map (fun q => (getPodKey q, getPersistentVolumeNamesForPod ans q))); assumption).
  rewrite (in_mget _ m _ _ NM IM). eexists. split; [reflexivity|]. split.
  - eapply Sub_trans; [apply podVolumes_sub|apply Sub_filter].
  - assert (UM : forall k' vols', In (k', vols') m -> NoDup vols').
    { intros k' vols' X. subst m. apply in_map_iff in X. destruct X as [q [Y Z]]. injection Y as _ <-. now apply U. }
    intros n id. rewrite podVolumes_in, filter_In, Nat.eqb_eq. split.
    + intros [[A B] [C D]]. repeat split; try assumption. intros q IQ J.
      rewrite (mentions_one m _ _ n NM IM UM A) in B. apply (B (getPodKey q) (getPersistentVolumeNamesForPod ans q)); [|assumption].
      subst m. apply (in_map (fun q => (getPodKey q, getPersistentVolumeNamesForPod ans q))). assumption.
    + intros [A [B [C D]]]. repeat split; try assumption. rewrite (mentions_one m _ _ n NM IM UM A).
      intros k' vols' X J. subst m. apply in_map_iff in X. destruct X as [q [Y Z]]. injection Y as <- <-. now apply D.
Qed.
Print Assumptions C42_pods_partial.

(* C42: the names of a pod are the volumes of its claims that are found within three tries. *)
Theorem C42_names : forall ans p n, In n (getPersistentVolumeNamesForPod ans p) <->
  exists v c, In v (p_vols p) /\ v_claim v = Some c /\
    exists k, k < 3 /\ ans (p_ns p) c k = PvcVol n /\ forall j, j < k -> ans (p_ns p) c j = PvcErr.
Proof.
  intros ans p n. unfold getPersistentVolumeNamesForPod. rewrite in_flat_map.
  assert (G : forall a, getClaim GetPvDetailsMaxRetries 0 a = Some n <->
     exists k, k < 3 /\ a k = PvcVol n /\ forall j, j < k -> a j = PvcErr).
  { intro a. cbn. split.
    - destruct (a 0) eqn:A0; [discriminate| |].
      + destruct (a 1) eqn:A1; [discriminate| |].
        * destruct (a 2) eqn:A2; [discriminate|discriminate|]. intro H. injection H as <-. exists 2. repeat split; [lia|assumption|].
          intros [|[|j]] L; [assumption|assumption|lia].
        * intro H. injection H as <-. exists 1. repeat split; [lia|assumption|]. intros [|j] L; [assumption|lia].
      + intro H. injection H as <-. exists 0. repeat split; [lia|assumption|]. lia.
    - intros [[|[|[|k]]] [L [E P]]]; [|pose proof (P 0 ltac:(lia)) as X; rewrite X|pose proof (P 0 ltac:(lia)) as X; pose proof (P 1 ltac:(lia)) as Y; rewrite X, Y|lia]; rewrite E; reflexivity. }
  split.
  - intros [v [I H]]. destruct (v_claim v) as [c|] eqn:C; [|destruct H]. exists v, c. repeat split; [assumption|assumption|].
    apply G. destruct (getClaim _ _ _) as [x|]; [|destruct H]. destruct H as [->|[]]. reflexivity.
  - intros [v [c [I [C K]]]]. exists v. split; [assumption|]. rewrite C. apply G in K. rewrite K. now left.
Qed.
Print Assumptions C42_names.

Example C42_case : filterSharedPVs [("a", ["v1"; "v2"; "v3"]); ("b", ["v3"; "v4"]); ("c", [])] =
  [("a", ["v1"; "v2"]); ("b", ["v4"]); ("c", [])].
Proof. reflexivity. Qed.

(* Finding: a pod that mounts the same claim twice shares the volume with nobody, but it is
   not waited for. *)
Theorem C42_twice_refuted : ~ (forall ans drv pods p, NoDup (map getPodKey pods) -> In p pods ->
  forall n id, In n (getPersistentVolumeNamesForPod ans p) -> drv n = Some id -> id <> "" ->
   (forall q, In q pods -> In n (getPersistentVolumeNamesForPod ans q) -> getPodKey q = getPodKey p) ->
   exists vols, mget (getPodVolumeInfos ans drv pods) (getPodKey p) = Some vols /\ In (n, id) vols).
Proof.
  intro H. specialize (H (fun _ c _ => PvcVol c) (fun n => Some n) [pod "x" "n1" [] [claim "c"; claim "c"]]
    (pod "x" "n1" [] [claim "c"; claim "c"])).
  destruct (H ltac:(repeat constructor; intros []) (or_introl eq_refl) "c" "c" (or_introl eq_refl) eq_refl ltac:(discriminate)) as [vols [E I]].
  - intros q [<-|[]] _. reflexivity.
  - vm_compute in E. injection E as <-. destruct I.
Qed.
Print Assumptions C42_twice_refuted.

(* Finding: a volume that a pod on the node shares with a DaemonSet pod there (which is not
   evicted) counts as not shared, and the drain waits for it in vain. *)
Theorem C42_daemonset_refuted : ~ (forall ans drv cache o ps p q n id, mcmOpts o -> getPodsForDeletion o (Some cache) = Some ps ->
  In p ps -> In q cache -> p_node q = o_node o -> getPodKey q <> getPodKey p ->
  In n (getPersistentVolumeNamesForPod ans p) -> In n (getPersistentVolumeNamesForPod ans q) ->
  forall vols, mget (getPodVolumeInfos ans drv ps) (getPodKey p) = Some vols -> ~ In (n, id) vols).
Proof.
  intro H. refine (H (fun _ c _ => PvcVol c) (fun n => Some n) [pDb; pod "ds" "n1" [("DaemonSet", true)] [claim "data"]] (opts false 1) [pDb]
    pDb (pod "ds" "n1" [("DaemonSet", true)] [claim "data"]) "data" "data" _ eq_refl _ _ eq_refl _ _ _ [("data", "data")] eq_refl _).
  - repeat split.
  - now left.
  - right. now left.
  - discriminate.
  - now left.
  - now left.
  - now left.
Qed.
Print Assumptions C42_daemonset_refuted.

(** * C67 *)

(* C67: after a successful eviction of a pod with claims nothing else happens in the
   goroutine before the wait for its volumes has ended; if they were seen detached, the wait
   for their re-attachment comes next. *)
Theorem C67_waits : forall o matches info env attempt pods a b p c,
  evictSorted o matches info env attempt pods = a ++ TCall b p AOk :: c ->
  exists d c', c = TDetach p d :: c' /\ (d = DOk -> exists x c'', c' = TReattach p x :: c'').
Proof. intros o matches info env attempt pods. exact (sorted_waits o matches info env attempt pods). Qed.
Print Assumptions C67_waits.

(* C67: the wait ends well exactly if there is nothing to wait for or, after polls that each
   showed one of the volumes on the node, a poll shows none of them. *)
Theorem C67_detached_exactly : forall matches node vols polls,
  waitForDetach matches node vols polls = DOk <->
  vols = [] \/ node = "" \/
  exists a att b, polls = a ++ NVols att :: b /\
    (forall x, In x a -> exists att' id v, x = NVols att' /\ In id (map snd vols) /\ In v att' /\ matches id v = true) /\
    (forall id v, In id (map snd vols) -> In v att -> matches id v = false).
Proof.
  intros matches node vols polls. unfold waitForDetach. destruct vols as [|x l]; [tauto|].
  destruct (String.eqb_spec node "") as [E|N]; [tauto|]. rewrite detachLoop_spec.
  split; [intros H; right; right; exact H|]. intros [H|[H|H]]; [discriminate H|contradiction|exact H].
Qed.
Print Assumptions C67_detached_exactly.

(* C67: pods are tried in the order of the list, and that is by descending priority. *)
Theorem C67_order : forall o matches info env attempt pods k, exists rest,
  pods = called (i_trace (evictPodsWithPVInternal o matches info env attempt pods [] k)) ++ rest.
Proof. intros. apply internal_order. Qed.
Print Assumptions C67_order.
Theorem C67_priority : forall pods l, sortPodsByPriority pods = Some l ->
  Permutation l pods /\
  StronglySorted (fun p q => match p_prio p, p_prio q with Some x, Some y => (y <= x)%Z | _, _ => False end) l \/ List.length pods <= 1.
Proof.
  intros pods l H. unfold sortPodsByPriority in H. destruct pods as [|p [|q r]]; [right; cbn; lia|right; cbn; lia|]. left.
  remember (p :: q :: r) as m. destruct (forallb _ m) eqn:F; [|discriminate]. injection H as <-.
  split; [symmetry; apply isort_perm|].
  assert (A : forall x, In x (isort prioLeb m) -> exists z, p_prio x = Some z).
  { intros x I. apply isort_in in I. rewrite forallb_forall in F. specialize (F x I). destruct (p_prio x) as [z|]; [now exists z|discriminate]. }
  assert (S : StronglySorted (fun a b => prioLeb a b = true) (isort prioLeb m) \/ True) by now right.
  clear S. clear F.
  assert (IS : forall x s, (forall y, In y (x :: s) -> exists z, p_prio y = Some z) ->
    StronglySorted (fun p q => match p_prio p, p_prio q with Some x, Some y => (y <= x)%Z | _, _ => False end) s ->
    StronglySorted (fun p q => match p_prio p, p_prio q with Some x, Some y => (y <= x)%Z | _, _ => False end) (insert prioLeb x s)).
  { intros x s. induction s as [|y s IH]; intros P S; cbn [insert].
    - constructor; constructor.
    - destruct (P x (or_introl eq_refl)) as [zx Zx]. destruct (P y (or_intror (or_introl eq_refl))) as [zy Zy].
      inversion S as [|? ? S1 S2]; subst. unfold prioLeb at 1. rewrite Zx, Zy. destruct (Z.leb_spec zy zx) as [L|L].
      + constructor; [assumption|]. constructor; [rewrite Zx, Zy; assumption|].
        rewrite Forall_forall in *. intros w W. specialize (S2 w W). rewrite Zx. rewrite Zy in S2. destruct (p_prio w); [lia|assumption].
      + constructor.
        * apply IH; [|assumption]. intros w [<-|W]; apply P; [now left|right; now right].
        * rewrite Forall_forall in *. intros w W.
          assert (W' : In w (x :: s)) by (eapply Permutation_in; [symmetry; apply insert_perm|exact W]).
          destruct W' as [<-|W']; [rewrite Zy, Zx; lia|apply (S2 w W')]. }
  clear Heqm. induction m as [|x m IH]; [constructor|]. cbn [isort] in *. apply IS.
  - intros y I. apply A. eapply Permutation_in; [apply insert_perm|exact I].
  - apply IH. intros y I. apply A. eapply Permutation_in; [apply insert_perm|now right].
Qed.
Print Assumptions C67_priority.

(* Two pods: the second is evicted after the first one's volume is gone from the node. *)
Example C67_case :
  evictSorted (opts false 2) String.eqb (getPodVolumeInfos (fun _ c _ => PvcVol c) (fun n => Some n) [pDb2; pDb])
    (fun k => mkAtt false AOk [] [NVols ["data2"]; NVols ["data"]; NVols []] []) true [pDb2; pDb] =
  [TCall true pDb2 AOk; TDetach pDb2 DOk; TReattach pDb2 false; TSend pDb2 RNil;
   TCall true pDb AOk; TDetach pDb DOk; TReattach pDb false; TSend pDb RNil].
Proof. reflexivity. Qed.

(* Finding: volumes are looked for by pattern match, so that a volume whose ID is part of
   another's holds up the drain although it is detached. *)
Theorem C67_pattern_refuted : ~ (forall vols att, (forall id, In id (map snd vols) -> ~ In id att) ->
  waitForDetach (fun id v => String.prefix id v) "n1" vols [NVols att] = DOk).
Proof.
  intro H. specialize (H [("pv", "vol-1")] ["vol-12"]).
  assert (X : DTimeout = DOk); [|discriminate]. apply H. intros id [<-|[]] [X|[]]. discriminate.
Qed.
Print Assumptions C67_pattern_refuted.
