(** Properties of the deletion of a whole tree: C105. *)
Require Import Coq.Lists.List Coq.Strings.String Coq.Bool.Bool.
From Verif Require Import StatusModel OwnModel OwnSpec CascModel CascSpec CascProofs.
Import ListNotations.
Open Scope string_scope.
Open Scope list_scope.

(** C105, the order: in every execution each VM has its machine, each machine that belongs to a
    set has this set, each set of the deployment has the deployment, each of them with the
    controllers' finalizer. So the levels go away from below: once the deployment is gone none of
    its sets is left and no machine of these.
    Missing: lagging views (C21), a failing write of the deployment's finalizer, and a machine
    whose labels or owner others change. *)
Theorem C105_order_partial : forall me sel dl w0 l w, sel <> [] -> matches sel dl -> start me sel w0 -> trun me dl w0 l w ->
  (forall n, In n (t_vms w) -> mach_held w n) /\
  (forall m u, In m (t_machs w) -> owned (m_obj m) u -> set_held w u) /\
  (forall s, In s (t_sets w) -> owned (t_obj s) me -> dep_held w) /\
  (t_dep w = None -> (forall s, ~ its_set me w s) /\ (forall m, ~ its_mach me w m)).
Proof.
  intros me sel dl w0 l w SE MD S R. pose proof (ti_run _ _ _ _ _ _ (ti_start _ _ _ S) SE MD R) as [A B U C D E F G H J].
  split; [exact J|]. split; [exact H|]. split; [exact E|]. intros N.
  assert (X : forall s, ~ its_set me w s) by (intros s (S1 & S2); destruct (E s S1 S2) as (p & P & _); congruence).
  split; [exact X|]. intros m (_ & s & Y & _). exact (X s Y).
Qed.
Print Assumptions C105_order_partial.

(** C105, that everything goes: the deployment is asked to go; then it passes, its sets pass,
    each of their machines loses its VM and is released, the sets pass again, the deployment
    passes again - with any other steps in between, as long as nobody adds finalizers. Then the
    deployment and its sets are gone, and of the machines that its sets had when it was asked to
    go neither the machine nor the VM is left (unless a machine is made anew under the name).
    Missing: that these passes and calls happen and succeed (C50, C59, C61 for the machines), and
    what is missing above. *)
Theorem C105_all_gone_partial : forall me sel dl w0 l0 w l1 w1 l2 w2 l3 w3 l4 w4 l5 w5,
  sel <> [] -> matches sel dl -> start me sel w0 -> trun me dl w0 l0 w ->
  bare w -> Forall no_added (l1 ++ l2 ++ l3 ++ l4 ++ l5) ->
  (forall p, t_dep w = Some p -> p_deleting p = true) ->
  trun me dl w l1 w1 -> dep_pass_in l1 ->
  trun me dl w1 l2 w2 -> (forall s, its_set me w1 s -> set_pass_in (o_name (t_obj s)) l2) ->
  trun me dl w2 l3 w3 -> (forall m, its_mach me w2 m -> before (TVmGone (o_name (m_obj m))) (TRelease (o_name (m_obj m))) l3) ->
  trun me dl w3 l4 w4 -> (forall s, its_set me w3 s -> set_pass_in (o_name (t_obj s)) l4) ->
  trun me dl w4 l5 w5 -> dep_pass_in l5 ->
  t_dep w5 = None /\ (forall s, ~ its_set me w5 s) /\
  (forall m, its_mach me w m -> (forall op, In op (l1 ++ l2 ++ l3 ++ l4 ++ l5) -> ~ made_anew (o_name (m_obj m)) op) ->
     ~ In (o_name (m_obj m)) (map (fun m => o_name (m_obj m)) (t_machs w5)) /\ ~ In (o_name (m_obj m)) (t_vms w5)).
Proof.
  intros me sel dl w0 l0 w l1 w1 l2 w2 l3 w3 l4 w4 l5 w5 SE MD S R0 B NA D R1 E1 R2 E2 R3 E3 R4 E4 R5 E5.
  pose proof (ti_run _ _ _ _ _ _ (ti_start _ _ _ S) SE MD R0) as T. assert (C : ctx me sel dl w) by (split; [exact T|auto]).
  apply Forall_app in NA as (N1 & NA). apply Forall_app in NA as (N2 & NA). apply Forall_app in NA as (N3 & NA). apply Forall_app in NA as (N4 & N5).
  destruct (all_gone me sel dl w l1 w1 l2 w2 l3 w3 l4 w4 l5 w5) as (G1 & G2 & G3); auto.
  { split; [exact C|]. split; [exact B|]. exact (settled_run _ _ _ _ _ _ S R0). }
  split; [exact G1|]. split; [exact G2|]. intros m M NM.
  assert (TR : track me (o_name (m_obj m)) w5).
  { assert (T0 : track me (o_name (m_obj m)) w).
    { intros m' M' EQ. destruct M as (M1 & M2). pose proof (mach_find _ _ _ m' _ T M' EQ) as X. rewrite (mach_find _ _ _ m _ T M1 eq_refl) in X. injection X as <-. split; auto. }
    pose proof (ctx_run _ _ _ _ _ _ C R1) as C1. pose proof (ctx_run _ _ _ _ _ _ C1 R2) as C2. pose proof (ctx_run _ _ _ _ _ _ C2 R3) as C3. pose proof (ctx_run _ _ _ _ _ _ C3 R4) as C4.
    apply (track_run _ _ _ _ _ _ _ C4 R5); [intros op X; apply NM; rewrite !in_app_iff; auto|].
    apply (track_run _ _ _ _ _ _ _ C3 R4); [intros op X; apply NM; rewrite !in_app_iff; auto|].
    apply (track_run _ _ _ _ _ _ _ C2 R3); [intros op X; apply NM; rewrite !in_app_iff; auto|].
    apply (track_run _ _ _ _ _ _ _ C1 R2); [intros op X; apply NM; rewrite !in_app_iff; auto|].
    apply (track_run _ _ _ _ _ _ _ C R1); [intros op X; apply NM; rewrite !in_app_iff; auto|exact T0]. }
  assert (Z : ~ In (o_name (m_obj m)) (map (fun m => o_name (m_obj m)) (t_machs w5))).
  { intros X. apply in_map_iff in X as (m' & EQ & X). destruct (TR m' X EQ) as (_ & s & Y & _). exact (G2 s Y). }
  split; [exact Z|]. intros V. destruct (ti_vm _ _ _ G3 _ V) as (m' & X & EQ & _). apply Z. apply in_map_iff. exists m'. auto.
Qed.
Print Assumptions C105_all_gone_partial.

Definition ca_sel := [("role", "worker")].
Definition ca_env := mkEnv (LFound 7 false) (fun _ => FNone) true (fun _ => true).
Definition ca_shape (n : nat) := ([("set", "x")], [("set", "x")]).
Definition ca_start := mkTree (Some (mkParent 7 false [] ca_sel)) [] [] [].
(** A deployment with a set with two machines, one with a VM; then the deployment is deleted. *)
Definition ca_up := [TDep ca_env true ca_shape [1]; TPass 1 ca_env true [5; 6]; TProtect 5; TVm 5; TDelete KDep].
Definition ca_down := [TDep ca_env true ca_shape []; TPass 1 ca_env true []; TVmGone 5; TRelease 5; TVmGone 6; TRelease 6; TPass 1 ca_env true []; TDep ca_env true ca_shape []].

Ltac ca_reg := vm_compute; repeat match goal with
  | |- True => exact I
  | |- _ /\ _ => split
  | |- true = true \/ _ => left; reflexivity
  | |- NoDup _ => constructor
  | H : _ \/ _ |- _ => destruct H
  | H : False |- _ => destruct H
  | H : (_, _) = (_, _) |- _ => injection H as <- <-
  | H : _ = _ |- _ => first [discriminate H | subst]
  | |- forall _, _ => intro
  | |- _ -> _ => intro
  | |- has_label _ _ _ => constructor
  end; try (intros H; vm_compute in H; intuition discriminate).
Ltac ca_run := repeat (apply trun_cons; [ca_reg|]); apply trun_nil.

Example C105_case : start 7 ca_sel ca_start /\
  (let w := fold_left (tstep ca_sel) ca_up ca_start in
   trun 7 ca_sel ca_start ca_up w /\ t_vms w = [5] /\ List.length (t_machs w) = 2 /\ List.length (t_sets w) = 1 /\ bare w /\
   (exists p, t_dep w = Some p /\ p_deleting p = true) /\
   let w' := fold_left (tstep ca_sel) ca_down w in trun 7 ca_sel w ca_down w' /\ w' = mkTree None [] [] []).
Proof.
  split; [split; [exists []; reflexivity|repeat split]|]. cbn zeta. split; [|split; [reflexivity|split; [reflexivity|split; [reflexivity|split; [|split; [eexists; split; reflexivity|split]]]]]].
  - unfold ca_up. ca_run.
  - vm_compute. repeat split; intros; repeat match goal with H : _ \/ _ |- _ => destruct H | H : False |- _ => destruct H | H : Some _ = Some _ |- _ => injection H as <- end; subst; cbn; auto; intros z [<-|[]]; left; reflexivity.
  - unfold ca_down. ca_run.
  - reflexivity.
Qed.

(** C105 fails when the deployment's finalizer cannot be written: the failure is ignored
    (deployment.go 462-465, 601-603), the set is made all the same, and deleting the deployment
    then removes it at once. Its set, the machine and the VM stay, and no pass of a controller
    changes anything about that (Kubernetes' own garbage collector, which is external, would ask
    for the deletion of the set). *)
Definition ca_bad := mkEnv (LFound 7 false) (fun _ => FNone) false (fun _ => true).
Theorem C105_unprotected_refuted : exists l, let w := fold_left (tstep ca_sel) l ca_start in
  t_dep w = None /\ (exists s, its_set 7 w s) /\ (exists m, its_mach 7 w m) /\ t_vms w = [5] /\
  (forall e valid shape news, tstep ca_sel w (TDep e valid shape news) = w) /\ (forall e valid, tstep ca_sel w (TPass 1 e valid []) = w) /\
  (forall n, tstep ca_sel w (TVmGone n) = w) /\ (forall n, tstep ca_sel w (TRelease n) = w).
Proof.
  exists [TDep ca_bad true ca_shape [1]; TPass 1 ca_env true [5]; TProtect 5; TVm 5; TDelete KDep]. cbn zeta.
  match goal with |- context [fold_left ?f ?l ?w] => remember (fold_left f l w) as v eqn:E end. vm_compute in E. subst v.
  split; [reflexivity|]. split; [eexists; split; [left; reflexivity|constructor]|].
  split; [eexists; split; [left; reflexivity|eexists; split; [split; [left; reflexivity|constructor]|constructor]]|].
  split; [reflexivity|]. split; [reflexivity|]. split; [intros e [|]; destruct e; reflexivity|].
  split; intros n; unfold tstep; cbn [act]; unfold findMach; cbn [find t_machs m_obj o_name]; destruct (Nat.eqb 5 n); reflexivity.
Qed.
Print Assumptions C105_unprotected_refuted.

(** C105 fails to end while somebody else's finalizer is on one machine: the same passes leave
    the deployment, its set and the machine, though the VM is gone. *)
Theorem C105_foreign_finalizer_refuted :
  let w := fold_left (tstep ca_sel) (ca_up ++ TAddFin (KMach 5) "other" :: ca_down) ca_start in
  trun 7 ca_sel ca_start (ca_up ++ TAddFin (KMach 5) "other" :: ca_down) w /\
  t_dep w <> None /\ (exists s, its_set 7 w s) /\ map (fun m => (o_name (m_obj m), m_fins m)) (t_machs w) = [(5, ["other"])] /\ t_vms w = [].
Proof.
  cbn zeta. split; [unfold ca_up, ca_down; cbn [app]; ca_run|]. split; [vm_compute; discriminate|].
  split; [eexists; split; [vm_compute; left; reflexivity|constructor]|]. split; vm_compute; reflexivity.
Qed.
Print Assumptions C105_foreign_finalizer_refuted.
