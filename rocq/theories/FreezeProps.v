(** Properties of the overshoot freeze: C23. *)
Require Import Coq.ZArith.ZArith Coq.Lists.List Coq.Strings.String Coq.Bool.Bool Coq.micromega.Lia.
From Verif Require Import Types StatusModel OwnSpec FreezeModel FreezeSpec FreezeProofs.
Import ListNotations.
Open Scope string_scope.
Open Scope list_scope.
Open Scope Z_scope.

Definition fz_set (n : string) (f : option string) := mkFSet n 3 [("a", "b")] f [("a", "b")] false false.
Definition fz_dep := mkFDep "d" 3 [("a", "b")] (Some (Some (IOSPercent 10))) None false false.
Definition fz_m (n : string) := mkFM [("z", "y"); ("a", "b")] [n].
Definition fz_ms (k : nat) (n : string) := repeat (fz_m n) k.

(** C23: whatever part of a pass runs, with any view and any failure, a set gets the
    freeze label only in the check, and only if the check saw at least the upper
    limit of machines for it. *)
Theorem C23_frozen_only_above : forall up down w o i s s', (forall w', o <> FEdit w') ->
  nth_error (fw_sets w) i = Some s -> nth_error (fw_sets (fstep up down w o)) i = Some s' ->
  ~ marked (f_freeze s) -> marked (f_freeze s') ->
  exists v k s0 z, o = FCheck v k /\ In s0 (v_sets v) /\ f_name s0 = f_name s /\ ~ marked (f_freeze s0) /\
    upper up (v_deps v) s0 z /\ (forall n, single_refs (v_machines v) -> counted (backs s0) (v_machines v) n -> z <= n).
Proof. exact label_set. Qed.
Print Assumptions C23_frozen_only_above.

(** C23: and it loses the label only in the check that saw at most the lower limit,
    or because somebody asked for it with the annotation. *)
Theorem C23_unfrozen_only_below : forall up down w o i s s', (forall w', o <> FEdit w') ->
  nth_error (fw_sets w) i = Some s -> nth_error (fw_sets (fstep up down w o)) i = Some s' ->
  marked (f_freeze s) -> ~ marked (f_freeze s') ->
  (exists v k s0 z, o = FCheck v k /\ In s0 (v_sets v) /\ f_name s0 = f_name s /\ (marked (f_freeze s0) \/ f_cond s0 = true) /\
    upper up (v_deps v) s0 z /\ (forall n, single_refs (v_machines v) -> counted (backs s0) (v_machines v) n -> n <= z - down)) \/
  (exists l k s0, o = FUnfreezeSets l k /\ In s0 l /\ f_name s0 = f_name s /\ f_unfreeze s0 = true).
Proof. exact label_removed. Qed.
Print Assumptions C23_unfrozen_only_below.

Example C23_limits_case :
  let go k f := map f_freeze (fw_sets (fstep 2 1 (mkFW [fz_set "s" f] [fz_dep])
                  (FCheck (mkView [fz_set "s" f] [fz_dep] (fz_ms k "s")) 9))) in
  go 5%nat None = [None] /\ go 6%nat None = [Some "True"] /\ go 6%nat (Some "True") = [Some "True"] /\ go 5%nat (Some "True") = [None] /\
  fw_sets (fstep 2 1 (mkFW [fz_set "s" (Some "True")] []) (FUnfreezeSets [mkFSet "s" 3 [] (Some "True") [] false true] 9)) = [fz_set "s" None].
Proof. vm_compute. auto. Qed.

(** C23: strictly between the limits the check leaves the set alone. *)
Theorem C23_between_nothing : forall up down w v k i s s0 z n, NoDup (map f_name (v_sets v)) -> single_refs (v_machines v) ->
  nth_error (fw_sets w) i = Some s -> In s0 (v_sets v) -> f_name s0 = f_name s ->
  upper up (v_deps v) s0 z -> counted (backs s0) (v_machines v) n -> z - down < n < z ->
  nth_error (fw_sets (fstep up down w (FCheck v k))) i = Some s.
Proof. exact between. Qed.
Print Assumptions C23_between_nothing.

Example C23_between_case :
  let go f := fw_sets (fstep 2 2 (mkFW [fz_set "s" f] [fz_dep]) (FCheck (mkView [fz_set "s" f] [fz_dep] (fz_ms 5 "s")) 9)) in
  go None = [fz_set "s" None] /\ go (Some "True") = [fz_set "s" (Some "True")].
Proof. vm_compute. auto. Qed.

(** C23: between a freeze and an unfreeze by the check with the same upper limit the
    count fell by at least the configured gap. *)
Theorem C23_gap : forall up down w1 w2 v1 v2 k1 k2 i s1 s1' s2 s2' a b z n1 n2,
  NoDup (map f_name (v_sets v1)) -> NoDup (map f_name (v_sets v2)) -> single_refs (v_machines v1) -> single_refs (v_machines v2) ->
  nth_error (fw_sets w1) i = Some s1 -> nth_error (fw_sets (fstep up down w1 (FCheck v1 k1))) i = Some s1' ->
  ~ marked (f_freeze s1) -> marked (f_freeze s1') ->
  nth_error (fw_sets w2) i = Some s2 -> nth_error (fw_sets (fstep up down w2 (FCheck v2 k2))) i = Some s2' ->
  marked (f_freeze s2) -> ~ marked (f_freeze s2') ->
  In a (v_sets v1) -> f_name a = f_name s1 -> In b (v_sets v2) -> f_name b = f_name s2 ->
  upper up (v_deps v1) a z -> upper up (v_deps v2) b z ->
  counted (backs a) (v_machines v1) n1 -> counted (backs b) (v_machines v2) n2 -> down <= n1 - n2.
Proof. exact gap. Qed.
Print Assumptions C23_gap.

Example C23_gap_case :
  let go k f := map f_freeze (fw_sets (fstep 2 3 (mkFW [fz_set "s" f] [fz_dep])
                  (FCheck (mkView [fz_set "s" f] [fz_dep] (fz_ms k "s")) 9))) in
  go 6%nat None = [Some "True"] /\ go 4%nat (Some "True") = [Some "True"] /\ go 3%nat (Some "True") = [None].
Proof. vm_compute. auto. Qed.

(** C23: although a pass acts on one set only, after as many passes as there are sets
    every set has the freeze state its count asks for, if the gap is positive and
    every deployment has a readable maxSurge.
    Partial: without these refuted below. *)
Theorem C23_all_handled_partial : forall up down machines w, 0 < down -> single_refs machines -> NoDup (map f_name (fw_sets w)) ->
  label_free (fw_deps w) -> (forall s, In s (fw_sets w) -> exists z, upper up (fw_deps w) s z) ->
  forall n, (List.length (fw_sets w) <= n)%nat ->
  forall s, In s (fw_sets (passes n up down machines w)) -> settled up down (fw_deps (passes n up down machines w)) machines s.
Proof. exact handled_all. Qed.
Print Assumptions C23_all_handled_partial.

Example C23_all_handled_case :
  let w := mkFW [fz_set "s" None; fz_set "t" (Some "True"); fz_set "u" None] [fz_dep] in
  let ms := fz_ms 9 "s" ++ fz_ms 1 "t" ++ fz_ms 6 "u" in
  map f_freeze (fw_sets (passes 2 2 1 ms w)) = [Some "True"; None; None] /\
  map f_freeze (fw_sets (passes 3 2 1 ms w)) = [Some "True"; None; Some "True"].
Proof. vm_compute. auto. Qed.

(** C23, finding: a set below a deployment without rollingUpdate parameters (the
    Recreate strategy) makes the check dereference nil: the controller goes down and
    an overshooting set behind it is never frozen. *)
Theorem C23_recreate_refuted : exists up down v s, In s (v_sets v) /\ ~ marked (f_freeze s) /\ NoDup (map f_name (v_sets v)) /\
  (exists z n, upper up (v_deps v) s z /\ counted (backs s) (v_machines v) n /\ z <= n) /\ check up down v = VPanic.
Proof.
  exists 2, 1, (mkView [mkFSet "r" 1 [] None [("k", "v")] false false; fz_set "s" None]
                 [mkFDep "rec" 1 [("k", "v")] None None false false] (fz_ms 9 "s")), (fz_set "s" None).
  split; [cbn; auto|]. split; [discriminate|]. split; [repeat constructor; cbn; intuition discriminate|]. split; [|reflexivity].
  exists 8, 9. split.
  - apply limit_upper. reflexivity.
  - split; [|lia]. apply (count_counted (fz_set "s" None)). repeat constructor; cbn; intuition.
Qed.
Print Assumptions C23_recreate_refuted.

(** C23, finding: one deployment whose maxSurge cannot be read stops the check for
    all sets behind it; such an object fails validation but is not removed. *)
Theorem C23_bad_surge_refuted : exists up down v s, In s (v_sets v) /\ ~ marked (f_freeze s) /\ NoDup (map f_name (v_sets v)) /\
  (exists z n, upper up (v_deps v) s z /\ counted (backs s) (v_machines v) n /\ z <= n) /\ check up down v = VErr.
Proof.
  exists 2, 1, (mkView [mkFSet "r" 1 [] None [("k", "v")] false false; fz_set "s" None]
                 [mkFDep "bad" 1 [("k", "v")] (Some (Some IOSBad)) None false false] (fz_ms 9 "s")), (fz_set "s" None).
  split; [cbn; auto|]. split; [discriminate|]. split; [repeat constructor; cbn; intuition discriminate|]. split; [|reflexivity].
  exists 8, 9. split.
  - apply limit_upper. reflexivity.
  - split; [|lia]. apply (count_counted (fz_set "s" None)). repeat constructor; cbn; intuition.
Qed.
Print Assumptions C23_bad_surge_refuted.

(** C23, finding: with --safety-down=0 (not refused) freeze and unfreeze alternate
    while nothing changes, and no other set is ever looked at. *)
Theorem C23_no_gap_refuted : exists up machines w, up = 2 /\ forall n,
  map f_freeze (fw_sets (passes (2 * n) up 0 machines w)) = [None; None] /\
  map f_freeze (fw_sets (passes (S (2 * n)) up 0 machines w)) = [Some "True"; None] /\
  exists z k, upper up (fw_deps w) (fz_set "t" None) z /\ counted (backs (fz_set "t" None)) machines k /\ z < k.
Proof.
  pose (ms := fz_ms 8 "s" ++ fz_ms 9 "t"). pose (w := mkFW [fz_set "s" None; fz_set "t" None] []).
  exists 2, ms, w. split; auto.
  assert (P : forall n, passes (2 * n) 2 0 ms w = w).
  { induction n as [|n IH]; auto. replace (2 * S n)%nat with (2 + 2 * n)%nat by lia.
    change (passes (2 + 2 * n) 2 0 ms w) with (passes (2 * n) 2 0 ms (passes 2 2 0 ms w)).
    replace (passes 2 2 0 ms w) with w by (vm_compute; reflexivity). exact IH. }
  assert (Q : forall m x, passes (S m) 2 0 ms x = passes 1 2 0 ms (passes m 2 0 ms x)).
  { induction m as [|m IHm]; intros x; auto. change (passes (S (S m)) 2 0 ms x) with (passes (S m) 2 0 ms (passes 1 2 0 ms x)).
    rewrite IHm. reflexivity. }
  intros n. rewrite Q, P. split; [reflexivity|]. split; [vm_compute; reflexivity|].
  exists 8, 9. split; [apply limit_upper; reflexivity|]. split; [|lia].
  apply (count_counted (fz_set "t" None)). vm_compute. repeat constructor; cbn; intuition.
Qed.
Print Assumptions C23_no_gap_refuted.

(** C23: after the second part of a pass a deployment carries the freeze label and
    condition exactly when one of the sets listed for it is frozen.
    Partial: the listing must succeed (C23_lookup_error_refuted). *)
Theorem C23_deployment_follows_partial : forall sets deps w i d l, NoDup (map d_name deps) -> In d deps ->
  nth_error (fw_deps w) i = Some d -> sets d = Some l ->
  exists d', nth_error (fw_deps (fold_left write (syncWrites sets deps) w)) i = Some d' /\ d_name d' = d_name d /\
    ((exists s, In s l /\ (marked (f_freeze s) \/ f_cond s = true)) -> marked (d_freeze d') /\ d_cond d' = true) /\
    ((forall s, In s l -> ~ marked (f_freeze s) /\ f_cond s = false) -> ~ marked (d_freeze d') /\ d_cond d' = false).
Proof. exact sync_effect. Qed.
Print Assumptions C23_deployment_follows_partial.

Example C23_deployment_case :
  let go f := map (fun d => (d_freeze d, d_cond d))
      (fw_deps (fold_left write (syncWrites (fun _ => Some [fz_set "s" None; fz_set "t" f]) [fz_dep]) (mkFW [] [fz_dep]))) in
  go (Some "True") = [(Some "True", true)] /\ go None = [(None, false)].
Proof. vm_compute. auto. Qed.

(** C23, finding: an error while the sets of a deployment are looked up is taken for
    "no sets": a frozen deployment with a frozen set is unfrozen. *)
Theorem C23_lookup_error_refuted : exists sets d w s, marked (f_freeze s) /\ In s (fw_sets w) /\ fw_deps w = [d] /\ marked (d_freeze d) /\
  sets d = None /\ map d_freeze (fw_deps (fold_left write (syncWrites sets [d]) w)) = [None].
Proof.
  exists (fun _ => None), (mkFDep "d" 3 [("a", "b")] (Some (Some (IOSInt 1))) (Some "True") true false),
    (mkFW [fz_set "s" (Some "True")] [mkFDep "d" 3 [("a", "b")] (Some (Some (IOSInt 1))) (Some "True") true false]), (fz_set "s" (Some "True")).
  repeat split; cbn; auto.
Qed.
Print Assumptions C23_lookup_error_refuted.

(** C23: somebody asks with the annotation on a deployment: after the third part of a pass
    without failures the deployment is not frozen and the annotation is gone, nothing else
    of it changed, and other deployments are as before; exactly the sets listed for such
    deployments carry the annotation in addition, and nothing else of any set changed. *)
Theorem C23_request_deployments : forall up down sets deps w n, (List.length (unfreezeDepsWrites sets deps) <= n)%nat ->
  let w' := fstep up down w (FUnfreezeDeps sets deps n) in
  (forall i d0, nth_error (fw_deps w) i = Some d0 ->
    ((exists d, In d deps /\ d_unfreeze d = true /\ d_name d = d_name d0) ->
       nth_error (fw_deps w') i = Some (mkFDep (d_name d0) (d_replicas d0) (d_sel d0) (d_surge d0) None false false)) /\
    ((forall d, In d deps -> d_unfreeze d = true -> d_name d <> d_name d0) -> nth_error (fw_deps w') i = Some d0)) /\
  (forall i s, nth_error (fw_sets w) i = Some s -> exists b,
     nth_error (fw_sets w') i = Some (mkFSet (f_name s) (f_replicas s) (f_tmpl s) (f_freeze s) (f_labels s) (f_cond s) b) /\
     (b = true <-> f_unfreeze s = true \/ exists d l x, In d deps /\ d_unfreeze d = true /\ sets d = Some l /\ In x l /\ f_name x = f_name s)).
Proof.
  intros up down sets deps w n L w'. unfold w'. cbn [fstep]. rewrite firstn_all2 by exact L. rewrite sets_eff, deps_eff. split.
  - intros i d0 H. rewrite nth_error_map, H. cbn [option_map]. destruct (ask_deps sets deps d0) as (A & B).
    split; intros X; [rewrite (A X) | rewrite (B X)]; reflexivity.
  - intros i s H. rewrite nth_error_map, H. cbn [option_map]. destruct (ask_sets sets deps s) as (b & E & B). exists b. rewrite E. split; [reflexivity | exact B].
Qed.
Print Assumptions C23_request_deployments.

(** C23: and the sets that carry it are unfrozen by the fourth part, only they, and the
    annotation goes. *)
Theorem C23_request_sets : forall up down l w n i s0, (List.length (unfreezeSetsWrites l) <= n)%nat -> nth_error (fw_sets w) i = Some s0 ->
  let w' := fstep up down w (FUnfreezeSets l n) in
  fw_deps w' = fw_deps w /\
  ((exists s, In s l /\ f_unfreeze s = true /\ f_name s = f_name s0) ->
     nth_error (fw_sets w') i = Some (mkFSet (f_name s0) (f_replicas s0) (f_tmpl s0) None (f_labels s0) false false)) /\
  ((forall s, In s l -> f_unfreeze s = true -> f_name s <> f_name s0) -> nth_error (fw_sets w') i = Some s0).
Proof.
  intros up down l w n i s0 L H w'. unfold w'. cbn [fstep]. rewrite firstn_all2 by exact L. rewrite sets_eff, deps_eff. split.
  - rewrite <- (map_id (fw_deps w)) at 2. apply map_ext. intros d. unfold unfreezeSetsWrites. clear.
    induction l as [|s l IH]; [reflexivity|]. cbn [flat_map]. rewrite fold_left_app. destruct (f_unfreeze s); exact IH.
  - rewrite nth_error_map, H. cbn [option_map]. destruct (thaw_sets l s0) as (A & B).
    split; intros X; [rewrite (A X) | rewrite (B X)]; reflexivity.
Qed.
Print Assumptions C23_request_sets.

Example C23_request_case :
  let d (u : bool) := mkFDep "d" 3 [("a", "b")] (Some (Some (IOSInt 1))) (if u then Some "True" else None) u u in
  let s f u := mkFSet "s" 3 [] f [("a", "b")] false u in
  let w1 := fstep 2 1 (mkFW [s (Some "True") false] [d true]) (FUnfreezeDeps (fun _ => Some [s (Some "True") false]) [d true] 9) in
  w1 = mkFW [s (Some "True") true] [d false] /\
  fstep 2 1 w1 (FUnfreezeSets (fw_sets w1) 9) = mkFW [s None false] [d false].
Proof. split; reflexivity. Qed.

(** C23, finding: the annotation is taken off the deployment before it is passed on to the
    sets: if a call fails in between, the request is lost, the next pass does nothing about
    it, and the deployment is frozen again. *)
Theorem C23_request_lost_refuted : exists (d : FDep) (s : FSet) (w : FWorld) (sets : FDep -> option (list FSet)),
  d_unfreeze d = true /\ marked (f_freeze s) /\ sets = (fun _ : FDep => Some [s]) /\
  w = fstep 2 1 (mkFW [s] [d]) (FUnfreezeDeps sets [d] 2) /\
  Forall (fun d => d_unfreeze d = false) (fw_deps w) /\ Forall (fun s => f_unfreeze s = false /\ marked (f_freeze s)) (fw_sets w) /\
  let w2 := fstep 2 1 (fstep 2 1 (fstep 2 1 w (FSync (fun _ => Some (fw_sets w)) (fw_deps w) 9))
               (FUnfreezeDeps sets (fw_deps w) 9)) (FUnfreezeSets (fw_sets w) 9) in
  Forall (fun d => marked (d_freeze d)) (fw_deps w2) /\ Forall (fun s => marked (f_freeze s)) (fw_sets w2).
Proof.
  exists (mkFDep "d" 3 [("a", "b")] (Some (Some (IOSInt 1))) (Some "True") true true), (mkFSet "s" 3 [] (Some "True") [("a", "b")] true false).
  eexists. eexists. split; [reflexivity|]. split; [reflexivity|]. split; [reflexivity|]. split; [reflexivity|]. vm_compute. repeat constructor.
Qed.
Print Assumptions C23_request_lost_refuted.

(** C23: a check without failures that freezes a set freezes the first deployment that
    selects the stored set along with it and leaves the others; the same for unfreezing, by
    the labels in the cache. *)
Theorem C23_deployment_frozen : forall up down v w i s s' k, NoDup (map f_name (fw_sets w)) -> (4 <= k)%nat ->
  nth_error (fw_sets w) i = Some s -> nth_error (fw_sets (fstep up down w (FCheck v k))) i = Some s' ->
  ~ marked (f_freeze s) -> marked (f_freeze s') ->
  forall j d, nth_error (fw_deps w) j = Some d ->
  (forall p, parent (v_deps v) s p -> d_name p = d_name d ->
    nth_error (fw_deps (fstep up down w (FCheck v k))) j = Some (mkFDep (d_name d) (d_replicas d) (d_sel d) (d_surge d) (Some "True") true (d_unfreeze d))) /\
  ((forall p, parent (v_deps v) s p -> d_name p <> d_name d) -> nth_error (fw_deps (fstep up down w (FCheck v k))) j = Some d).
Proof.
  intros up down v w i s s' k ND K H H' U M j d J. pose proof (nth_error_In _ _ J) as I.
  destruct (freeze_dep _ _ _ _ _ _ _ _ ND K H H' U M d I) as (_ & E). cbn [fstep]. rewrite deps_eff, nth_error_map, J. cbn [option_map]. rewrite E. split.
  - intros p P N. destruct (parent_first _ _ _ P) as (r & ->). rewrite N, String.eqb_refl. reflexivity.
  - intros N. destruct (getMachineDeploymentsForMachineSet (v_deps v) (allLabels s)) as [|p r] eqn:G; [reflexivity|].
    apply deps_first in G. apply N in G. destruct (String.eqb_spec (d_name d) (d_name p)); [congruence | reflexivity].
Qed.
Print Assumptions C23_deployment_frozen.
Theorem C23_deployment_unfrozen : forall up down v w i s s' k, NoDup (map f_name (v_sets v)) -> (4 <= k)%nat ->
  nth_error (fw_sets w) i = Some s -> nth_error (fw_sets (fstep up down w (FCheck v k))) i = Some s' ->
  marked (f_freeze s) -> ~ marked (f_freeze s') ->
  forall s0 j d, In s0 (v_sets v) -> f_name s0 = f_name s -> nth_error (fw_deps w) j = Some d ->
  (forall p, parent (v_deps v) s0 p -> d_name p = d_name d ->
    nth_error (fw_deps (fstep up down w (FCheck v k))) j = Some (mkFDep (d_name d) (d_replicas d) (d_sel d) (d_surge d) None false false)) /\
  ((forall p, parent (v_deps v) s0 p -> d_name p <> d_name d) -> nth_error (fw_deps (fstep up down w (FCheck v k))) j = Some d).
Proof.
  intros up down v w i s s' k ND K H H' M U s0 j d I0 N0 J. pose proof (nth_error_In _ _ J) as I.
  pose proof (thaw_dep _ _ _ _ _ _ _ _ ND K H H' M U s0 d I0 N0 I) as E. cbn [fstep]. rewrite deps_eff, nth_error_map, J. cbn [option_map]. rewrite E. split.
  - intros p P N. destruct (parent_first _ _ _ P) as (r & ->). rewrite N, String.eqb_refl. reflexivity.
  - intros N. destruct (getMachineDeploymentsForMachineSet (v_deps v) (allLabels s0)) as [|p r] eqn:G; [reflexivity|].
    apply deps_first in G. apply N in G. destruct (String.eqb_spec (d_name d) (d_name p)); [congruence | reflexivity].
Qed.
Print Assumptions C23_deployment_unfrozen.
Example C23_deployment_frozen_case :
  let e := mkFDep "e" 3 [("a", "b")] (Some (Some (IOSInt 1))) None false false in
  let go w k f := fstep 2 1 w (FCheck (mkView [fz_set "s" f] [fz_dep; e] (fz_ms k "s")) 4) in
  let w1 := go (mkFW [fz_set "s" None] [fz_dep; e]) 6%nat None in
  map d_freeze (fw_deps w1) = [Some "True"; None] /\ map d_freeze (fw_deps (go w1 1%nat (Some "True"))) = [None; None].
Proof. vm_compute. auto. Qed.
