(** C64, C82-C84. The safety pass over classes and nodes, secrets and classes. *)
Require Import Coq.ZArith.ZArith Coq.Lists.List Coq.Strings.String Coq.Bool.Bool Coq.micromega.Lia.
From Verif Require Import WakeModel WakeSpec OrphModel OrphSpec OrphProofs.
Import ListNotations.
Open Scope string_scope.
Open Scope list_scope.

(** C64. If no update fails, a pass leaves every node with the right mark: a node on which no
    machine runs and that is older than the creation time-out is marked, a node with exactly
    one machine is not marked, and nothing else is changed. Missing from the full statement:
    a failing update, see [C64_blocked_refuted]. *)
Theorem C64_marks_partial : forall now timeout machines fails nodes n, NoDup (map on_name nodes) ->
  (forall x, In x nodes -> fails (on_name x) = false) -> In n nodes ->
  exists a, written (fst (AnnotateNodesUnmanagedByMCM now timeout machines fails nodes)) n a /\
    sameBut unmanagedKey a (on_annots n) /\
    (nobodyOn (machines (on_name n)) (on_name n) ->
       if (on_created n + timeout <? now)%Z then ~ lacks a unmanagedKey else a = on_annots n) /\
    (forall m, onlyOn (machines (on_name n)) (on_name n) m -> lacks a unmanagedKey).
Proof.
  intros now timeout ms fails nodes n ND F I.
  destruct (nodes_written now timeout ms fails nodes n ND F I) as (W & _). cbv zeta in W.
  eexists. split; [exact W|]. clear W. unfold annotateNode.
  assert (S0 : sameBut unmanagedKey (on_annots n) (on_annots n)) by (intros k v _; tauto).
  split; [|split].
  - destruct (filter _ _) as [| x [|]].
    + destruct (negb (on_created n <? now - timeout)%Z); [exact S0|]. destruct (dget _ _); [exact S0 | apply dput_same].
    + destruct (dget _ _); [apply ddel_same | exact S0].
    + exact S0.
  - intros N. apply nobody_filter in N. rewrite N.
    replace (on_created n <? now - timeout)%Z with (on_created n + timeout <? now)%Z by lia.
    destruct (on_created n + timeout <? now)%Z; cbn [negb]; [|reflexivity].
    destruct (dget NotManagedByMCM (on_annots n)) as [v|] eqn:D.
    + apply dget_some in D. apply (holds_not_lacks _ _ _ D).
    + apply (holds_not_lacks _ _ _ (dput_holds _ _ _)).
  - intros m O. rewrite (only_filter _ _ _ O). destruct (dget NotManagedByMCM (on_annots n)) as [v|] eqn:D.
    + apply ddel_lacks.
    + apply dget_none, D.
Qed.
Print Assumptions C64_marks_partial.

(** C64. Whatever fails, a call never marks a node that has a machine or is young, never
    unmarks one without machine, and changes no other annotation. *)
Theorem C64_no_others : forall now timeout machines fails nodes node a,
  In (UpdateNode node a) (fst (AnnotateNodesUnmanagedByMCM now timeout machines fails nodes)) ->
  exists n, In n nodes /\ on_name n = node /\ sameBut unmanagedKey a (on_annots n) /\
    ((lacks (on_annots n) unmanagedKey /\ holds a unmanagedKey "1" /\ nobodyOn (machines node) node /\ (on_created n + timeout < now)%Z) \/
     (~ lacks (on_annots n) unmanagedKey /\ lacks a unmanagedKey /\ exists m, In m (machines node) /\ runsOn m node)).
Proof.
  intros now timeout ms fails nodes node a H. apply nodes_calls in H as (n & I & E & A). exists n. split; [exact I|]. split; [exact E|].
  unfold annotateNode in A. rewrite E in A.
  destruct (filter _ _) as [| x [|]] eqn:Fl; [| |discriminate].
  - apply nobody_filter in Fl. destruct (on_created n <? now - timeout)%Z eqn:C; [|discriminate]. cbn [negb] in A.
    destruct (dget NotManagedByMCM (on_annots n)) eqn:D; [discriminate|]. injection A as <-. apply dget_none in D.
    split; [apply dput_same|]. left. split; [exact D|]. split; [apply dput_holds|]. split; [exact Fl | lia].
  - destruct (dget NotManagedByMCM (on_annots n)) as [v|] eqn:D; [|discriminate]. injection A as <-. apply dget_some in D.
    split; [apply ddel_same|]. right. split; [apply (holds_not_lacks _ _ _ D)|]. split; [apply ddel_lacks|].
    assert (X : In x (filter (fun m => match wm_node m with Some y => String.eqb y node | None => false end) (ms node))) by (rewrite Fl; left; reflexivity).
    apply filter_In in X as (X & Y). exists x. split; [exact X|]. unfold runsOn. destruct (wm_node x); [|discriminate].
    apply String.eqb_eq in Y. congruence.
Qed.
Print Assumptions C64_no_others.

Definition mach (name node : string) : WM := mkWM name 1 false (Some node) "Running" [] "" "MachineClass" "c".
Definition young : ONode := mkON "young" 90 [].
Definition stray : ONode := mkON "stray" 10 [("zone", "a")].
Definition mine : ONode := mkON "mine" 10 [("node.machine.sapcloud.io/not-managed-by-mcm", "1"); ("zone", "b")].
Example C64_case :
  AnnotateNodesUnmanagedByMCM 100 20 (fun _ => [mach "m" "mine"]) (fun _ => false) [young; stray; mine] =
    ([UpdateNode "stray" [("node.machine.sapcloud.io/not-managed-by-mcm", "1"); ("zone", "a")]; UpdateNode "mine" [("zone", "b")]], EOk) /\
  nobodyOn [mach "m" "mine"] "stray" /\ onlyOn [mach "m" "mine"] "mine" (mach "m" "mine").
Proof.
  split; [reflexivity|]. split.
  - intros m [<- | []]. discriminate.
  - exists [], []. split; [reflexivity|]. split; [reflexivity|]. intros m' [].
Qed.

(** C64. One node whose update fails keeps the nodes after it from being looked at. *)
Theorem C64_blocked_refuted : ~ (forall now timeout machines fails nodes n, NoDup (map on_name nodes) -> In n nodes ->
  fails (on_name n) = false -> nobodyOn (machines (on_name n)) (on_name n) -> (on_created n + timeout < now)%Z ->
  exists a, written (fst (AnnotateNodesUnmanagedByMCM now timeout machines fails nodes)) n a /\ ~ lacks a unmanagedKey).
Proof.
  intros H. specialize (H 100%Z 20%Z (fun _ => []) (fun x => String.eqb x "other") [mkON "other" 10 []; stray] stray).
  destruct H as (a & W & N).
  - repeat constructor; cbn; intuition discriminate.
  - right. left. reflexivity.
  - reflexivity.
  - intros m [].
  - cbn. lia.
  - destruct W as [[W | []] | (-> & _)]; [discriminate|]. apply N. intros v [X | []]. discriminate.
Qed.
Print Assumptions C64_blocked_refuted.

(** C82. A VM that the provider lists for a class is deleted in the pass exactly if it is
    orphaned: the cache has no machine of its name, or one past creation with another provider
    ID. This holds as far as secrets and lists could be read for the classes before. Missing
    from the full statement: a class after one that fails, see [C82_blocked_refuted]. *)
Theorem C82_orphans_partial : forall seen pre c vms post,
  (forall c' a, In (c', a) pre -> readable c' /\ a <> None) -> readable c ->
  (forall c' a, In (c', a) (pre ++ post) -> cl_name c' <> cl_name c) ->
  forall id name, (exists d, In (DeleteVM (cl_name c) id name d) (fst (checkMachineClasses seen (pre ++ (c, Some vms) :: post)))) <->
    In (id, name) vms /\ orphaned (seen id name) id.
Proof.
  intros seen pre c vms post P R U id name.
  destruct (classes_app seen pre ((c, Some vms) :: post) P) as (l & -> & L). cbn [fst]. cbn [checkMachineClasses].
  destruct (check_one seen c vms R) as (d & ->). destruct (checkMachineClasses seen post) as (l' & e) eqn:Q. cbn [fst].
  split.
  - intros (d0 & I). apply in_app_or in I as [I | I].
    + destruct (L _ _ _ _ I) as (c' & a & J & E). destruct (U c' a (in_or_app _ _ _ (or_introl J)) E).
    + apply in_app_or in I as [I | I]; [apply in_deletes in I; tauto|].
      destruct (deletes_only seen post (cl_name c) id name d0) as (c' & v' & J & E & _); [rewrite Q; exact I|].
      destruct (U c' (Some v') (in_or_app _ _ _ (or_intror J)) E).
  - intros (I & O). exists d. apply in_or_app. right. apply in_or_app. left. apply in_deletes. auto.
Qed.
Print Assumptions C82_orphans_partial.

(** C82. Whatever fails, no other VM is deleted, and the call has the data of its class. *)
Theorem C82_no_others : forall seen cs cls id name d, In (DeleteVM cls id name d) (fst (checkMachineClasses seen cs)) ->
  exists c vms, In (c, Some vms) cs /\ cl_name c = cls /\ In (id, name) vms /\ orphaned (seen id name) id /\
    getSecretData None [cl_secret c; cl_creds c] = SData d.
Proof. exact deletes_only. Qed.
Print Assumptions C82_no_others.

(** C82. Unless it panics, the pass looks at the nodes also if classes failed, and it is always
    queued again. *)
Theorem C82_goes_on : forall now timeout seen cs machines fails nodes,
  (forall c a, In (c, a) cs -> readable c) ->
  let '(calls, panics, again) := orphanPass now timeout seen cs machines fails nodes in
  panics = false /\ (again >= 1)%nat /\
  forall x, In x (fst (AnnotateNodesUnmanagedByMCM now timeout machines fails nodes)) -> In x calls.
Proof.
  intros now timeout seen cs ms fails nodes R. unfold orphanPass.
  assert (E : snd (checkMachineClasses seen cs) <> EPanic).
  { revert R. induction cs as [| (c, a) cs IH]; intros R; [discriminate|]. cbn [checkMachineClasses]. unfold checkMachineClass.
    destruct (readable_data c (R c a (or_introl eq_refl))) as (d & ->). destruct a as [vms|]; [|discriminate].
    destruct (checkMachineClasses seen cs) as (l & e). apply IH. intros c' a' I. apply (R c' a'). right. exact I. }
  destruct (checkMachineClasses seen cs) as (c1 & e1). cbn in E. destruct (AnnotateNodesUnmanagedByMCM now timeout ms fails nodes) as (c2 & e2).
  destruct e1; [| |congruence]; (split; [reflexivity|]; split; [destruct e2; cbn; lia|]; intros x X; apply in_or_app; right; exact X).
Qed.
Print Assumptions C82_goes_on.

Definition cls (name : string) : Cls := mkCls name (Some (SecIs [("key", name)])) None ["machine.sapcloud.io/machine-controller-manager"] None.
(** Machine "a" is running with VM "i1", machine "b" is being created. *)
Definition cache (_ name : string) : option OM :=
  if String.eqb name "a" then Some (mkOM "i1" "Running") else if String.eqb name "b" then Some (mkOM "" "") else None.
Example C82_case :
  fst (checkMachineClasses cache [(cls "x", Some [("i1", "a"); ("i2", "a"); ("i3", "b"); ("i4", "c")])]) =
    [ListVMs "x" (Some [("key", "x")]); DeleteVM "x" "i2" "a" (Some [("key", "x")]); DeleteVM "x" "i4" "c" (Some [("key", "x")])] /\
  readable (cls "x").
Proof. split; [reflexivity|]. split; discriminate. Qed.

(** C82. A class whose VMs cannot be listed keeps the pass from the classes after it. *)
Theorem C82_blocked_refuted : ~ (forall seen cs c vms id name, In (c, Some vms) cs -> readable c -> In (id, name) vms -> orphaned (seen id name) id ->
  exists d, In (DeleteVM (cl_name c) id name d) (fst (checkMachineClasses seen cs))).
Proof.
  intros H. destruct (H (fun _ _ => None) [(cls "x", None); (cls "y", Some [("i", "a")])] (cls "y") [("i", "a")] "i" "a") as (d & [X | []]); try discriminate.
  - right. left. reflexivity.
  - split; discriminate.
  - left. reflexivity.
  - exact I.
Qed.
Print Assumptions C82_blocked_refuted.

(** C83. The data handed to the provider are those of both secrets of the class; for a key in
    both, the credentials secret counts. Missing from the full statement: secrets that are not
    found, see [C83_missing_refuted], and errors, see [C83_panic_refuted]. *)
Theorem C83_data_partial : forall a b, NoDup (map fst a) -> NoDup (map fst b) ->
  exists d, getSecretData None [Some (SecIs a); Some (SecIs b)] = SData (Some d) /\
    forall k v, In (k, v) d <-> In (k, v) b \/ (In (k, v) a /\ lacks b k).
Proof.
  intros a b A B. eexists. split; [reflexivity|]. intros k v.
  assert (ND : NoDup (map fst (mergeDataMaps [] a))).
  { unfold mergeDataMaps. cbn [fold_left].
    assert (G : forall l o, NoDup (map fst o) -> NoDup (map fst (fold_left (fun out p => dput (fst p) (snd p) out) l o))).
    { induction l as [| (x, y) l IH]; intros o O; [exact O|]. cbn [fold_left]. apply IH. unfold dput. cbn [map fst]. constructor.
      - intros X. apply in_map_iff in X as ((p, q) & E & X). cbn in E. subst p.
        apply (proj1 (in_ddel x x q o)) in X as (_ & X). congruence.
      - clear - O. induction o as [| (p, q) o IH]; [constructor|]. cbn in *. inversion O as [| ? ? N1 N2]; subst.
        destruct (negb (String.eqb p x)); [|apply IH, N2]. cbn. constructor; [|apply IH, N2].
        intros X. apply N1. apply in_map_iff in X as ((r, t) & E & X). cbn in E. subst r. apply filter_In in X as (X & _).
        apply (in_map fst) in X. exact X. }
    apply G. constructor. }
  rewrite merge_spec by assumption. rewrite merge_spec; [|constructor | exact A]. cbn [In].
  split; intros [H | (H & L)]; auto; right; split; auto. destruct H as [H | ([] & _)]. exact H.
Qed.
Print Assumptions C83_data_partial.

Example C83_case : getSecretData None [Some (SecIs [("token", "old"); ("region", "eu")]); Some (SecIs [("token", "new")])] =
  SData (Some [("token", "new"); ("region", "eu")]).
Proof. reflexivity. Qed.

(** C83. A secret that is not found (e.g. not yet in the cache) is taken as empty: the machine
    is reconciled, and VMs are asked for, without credentials. *)
Theorem C83_missing_refuted : ~ (forall c d, ValidateMachineClass (Some c) = VOk d -> cl_secret c <> Some SecMissing).
Proof.
  intros H. apply (H (mkCls "c" (Some SecMissing) None ["machine.sapcloud.io/machine-controller-manager"] None) None); reflexivity.
Qed.
Print Assumptions C83_missing_refuted.

(** C83. Any other error of the lookup ends in a panic. *)
Theorem C83_panic_refuted : ~ (forall c, ValidateMachineClass c <> VPanic).
Proof. intros H. apply (H (Some (mkCls "c" (Some SecErr) None [] None))). reflexivity. Qed.
Print Assumptions C83_panic_refuted.

(** C84. A machine is only worked on with a class that has the finalizer of the controller and,
    if it has a node template, one with cpu, gpu and memory, an instance type, region and zone;
    if the finalizer alone is what is missing first, the class is queued so that it gets it. *)
Theorem C84_class : forall c,
  (forall d, ValidateMachineClass c = VOk d -> exists x, c = Some x /\ In "machine.sapcloud.io/machine-controller-manager" (cl_fins x) /\
     forall t, cl_tpl x = Some t -> In "cpu" (tp_cap t) /\ In "gpu" (tp_cap t) /\ In "memory" (tp_cap t) /\
       tp_type t <> "" /\ tp_region t <> "" /\ tp_zone t <> "") /\
  (ValidateMachineClass c = VErr true <->
     exists x, c = Some x /\ readable x /\ ~ In "machine.sapcloud.io/machine-controller-manager" (cl_fins x)).
Proof.
  intros c. set (fin := "machine.sapcloud.io/machine-controller-manager").
  assert (EX : forall l s, existsb (String.eqb s) l = true <-> In s l).
  { intros l s. rewrite existsb_exists. split; [intros (y & Y & E); apply String.eqb_eq in E; congruence | intros I; exists s; split; [exact I | apply String.eqb_refl]]. }
  destruct c as [x|]; [|split; [discriminate | split; [discriminate | intros (x & X & _); discriminate]]].
  cbn [ValidateMachineClass]. fold fin. destruct (getSecretData None [cl_secret x; cl_creds x]) as [d|] eqn:S.
  - assert (R : readable x).
    { cbn in S. split; intros E; rewrite E in S; [discriminate|]. destruct (cl_secret x) as [[| |]|]; discriminate. }
    destruct (existsb (String.eqb fin) (cl_fins x)) eqn:F; cbn [negb].
    + apply EX in F. destruct (validTemplate (cl_tpl x)) eqn:V; cbn [negb].
      * split; [|split; [discriminate | intros (y & Y & _ & N); injection Y as <-; contradiction]].
        intros d' _. exists x. split; [reflexivity|]. split; [exact F|]. intros t T. rewrite T in V. unfold validTemplate in V. cbn [forallb] in V.
        rewrite !andb_true_iff, negb_true_iff, !orb_false_iff, !String.eqb_neq, !EX in V. tauto.
      * split; [discriminate | split; [discriminate | intros (y & Y & _ & N); injection Y as <-; contradiction]].
    + split; [discriminate|]. split; [intros _ | reflexivity]. exists x. split; [reflexivity|]. split; [exact R|]. rewrite <- EX, F. discriminate.
  - split; [discriminate|]. split; [discriminate|]. intros (y & Y & R & _). injection Y as <-.
    destruct (readable_data x R) as (d & E). congruence.
Qed.
Print Assumptions C84_class.

(** C84. Nothing else is asked of a class: one that is readable, has the finalizer and whose node
    template, if any, is complete, is accepted. *)
Theorem C84_accepted_exactly : forall c, (exists d, ValidateMachineClass c = VOk d) <->
  exists x, c = Some x /\ readable x /\ In "machine.sapcloud.io/machine-controller-manager" (cl_fins x) /\
    forall t, cl_tpl x = Some t -> In "cpu" (tp_cap t) /\ In "gpu" (tp_cap t) /\ In "memory" (tp_cap t) /\
      tp_type t <> "" /\ tp_region t <> "" /\ tp_zone t <> "".
Proof.
  intros c. assert (EX : forall l s, existsb (String.eqb s) l = true <-> In s l).
  { intros l s. rewrite existsb_exists. split; [intros (y & Y & E); apply String.eqb_eq in E; congruence | intros I; exists s; split; [exact I | apply String.eqb_refl]]. }
  split.
  - intros (d & D). destruct (proj1 (C84_class c) d D) as (x & -> & I & T). exists x. split; [reflexivity|]. split; [|now split].
    unfold ValidateMachineClass in D. destruct (getSecretData None [cl_secret x; cl_creds x]) as [d'|] eqn:S; [|discriminate].
    cbn in S. split; intros E; rewrite E in S; [discriminate|]. destruct (cl_secret x) as [[| |]|]; discriminate.
  - intros (x & -> & R & I & T). destruct (readable_data x R) as (d & S). exists d. unfold ValidateMachineClass. rewrite S.
    apply EX in I. rewrite I. cbn [negb]. replace (validTemplate (cl_tpl x)) with true; [reflexivity|]. symmetry.
    unfold validTemplate. destruct (cl_tpl x) as [t|]; [|reflexivity]. specialize (T t eq_refl). cbn [forallb].
    rewrite !andb_true_iff, negb_true_iff, !orb_false_iff, !String.eqb_neq, !EX. tauto.
Qed.
Print Assumptions C84_accepted_exactly.

Definition big : Tpl := mkTpl ["memory"; "cpu"; "gpu"; "disk"] "m5" "eu" "eu-1".
Example C84_case :
  ValidateMachineClass (Some (mkCls "c" None None ["machine.sapcloud.io/machine-controller-manager"] (Some big))) = VOk None /\
  ValidateMachineClass (Some (mkCls "c" None None ["x"] (Some big))) = VErr true /\
  ValidateMachineClass (Some (mkCls "c" None None ["machine.sapcloud.io/machine-controller-manager"] (Some (mkTpl ["cpu"; "memory"] "m5" "eu" "eu-1")))) = VErr false.
Proof. repeat split. Qed.

(** C82. The pass is queued once for its period, and once more for each half that failed. *)
Theorem C82_repeats : forall now timeout seen cs machines fails nodes,
  let '(calls, panics, again) := orphanPass now timeout seen cs machines fails nodes in
  let failed1 := snd (checkMachineClasses seen cs) = EErr in
  let failed2 := snd (AnnotateNodesUnmanagedByMCM now timeout machines fails nodes) = EErr in
  (panics = true <-> snd (checkMachineClasses seen cs) = EPanic) /\
  (panics = true -> again = 1%nat) /\
  (panics = false -> (failed1 /\ failed2 -> again = 3%nat) /\ (failed1 /\ ~ failed2 \/ ~ failed1 /\ failed2 -> again = 2%nat) /\ (~ failed1 /\ ~ failed2 -> again = 1%nat)).
Proof.
  intros now timeout seen cs ms fails nodes. unfold orphanPass. destruct (checkMachineClasses seen cs) as (c1 & e1).
  destruct (AnnotateNodesUnmanagedByMCM now timeout ms fails nodes) as (c2 & e2). cbn [snd].
  destruct e1, e2; cbn; repeat split; intros; try discriminate; try reflexivity; intuition congruence.
Qed.
Print Assumptions C82_repeats.

Example C82_repeats_case : snd (orphanPass 0 0 cache [(cls "x", None)] (fun _ => []) (fun _ => true) []) = 2%nat.
Proof. reflexivity. Qed.
