(* C44 (finalizers on machine classes) and C65 (finalizers on their secrets). *)
Require Import List String Bool Arith Lia.
From Verif Require Import Sort FinModel FinSpec FinProofs.
Import ListNotations.
Open Scope string_scope.
Open Scope list_scope.
Open Scope nat_scope.

(* C44: a pass over a class with current caches and undisturbed: if machines
   refer to it and it is not being deleted, it carries the finalizer afterwards;
   if it is being deleted and machines refer to it, it is left alone; if no
   machine refers to it, the finalizer is gone (and the class too, if it was being
   deleted and had no other); the finalizers of others stay. *)
Theorem C44_pass : forall s o, srv s = Some o ->
  let s' := run KClass s (pass o (refs s)) in
  refs s' = refs s /\
  (refs s <> [] -> oDel o = false -> exists o', srv s' = Some o' /\ oDel o' = false /\
     In classFinalizer (oFins o') /\ sameOthers classFinalizer (oFins o) (oFins o')) /\
  (refs s <> [] -> oDel o = true -> srv s' = srv s) /\
  (refs s = [] ->
     (exists o', srv s' = Some o' /\ oDel o' = oDel o /\ ~ In classFinalizer (oFins o') /\
        sameOthers classFinalizer (oFins o) (oFins o')) \/
     (srv s' = None /\ oDel o = true /\ forall x, In x (oFins o) -> x = classFinalizer)).
Proof. exact pass_class. Qed.
Print Assumptions C44_pass.

(* C44: in every history, with caches of the class as old as they may be, the
   finalizer is taken away only at a moment when no machine refers to the class.
   Partial: provided that a pass does not overlook all machines that refer to the
   class, that none starts to refer to it while a pass is taking the finalizer
   away, and that others leave it alone. *)
Theorem C44_removed_only_partial : forall ops o s, pend s = Idle -> carefulRun KClass s (ops ++ [o]) ->
  holds classFinalizer (run KClass s ops) -> ~ holds classFinalizer (run KClass s (ops ++ [o])) ->
  refs (run KClass s ops) = [].
Proof. exact (removed_only KClass). Qed.
Print Assumptions C44_removed_only_partial.

(* ... so a class with the finalizer stays, and keeps it, as long as there is a
   machine that refers to it, even if its deletion is requested.
   Partial: under the same assumptions. *)
Theorem C44_stays_partial : forall ops s, pend s = Idle -> carefulRun KClass s ops ->
  holds classFinalizer s -> (forall x, In x (states KClass s ops) -> refs x <> []) ->
  holds classFinalizer (run KClass s ops).
Proof.
  intros ops s P C H R. apply run_holds; try assumption. unfold guard, removing. rewrite P. tauto.
Qed.
Print Assumptions C44_stays_partial.

(* C44: edits of others are safe from a pass if they happen between its Get and
   its Update, and if they were already in the cache when it started.
   Partial: not in between. *)
Theorem C44_locked_partial : forall k s l rv ops, rvOK s -> pend s = Fetched l rv ->
  (forall o, In o ops -> others o) -> srv (run k s ops) <> srv s ->
  srv (step k (run k s ops) (Write false)) = srv (run k s ops).
Proof. exact locked. Qed.
Print Assumptions C44_locked_partial.

(* C44: the write of a pass keeps the finalizers of others.
   Partial: those it saw in the cache (C44_edit_lost_refuted, C44_edit_undone_refuted). *)
Theorem C44_others_kept_partial : forall k s view seen l rv o o', decide k view seen = Put l ->
  pend s = Fetched l rv -> srv s = Some o -> sameOthers (finalizerOf k) (oFins view) (oFins o) ->
  srv (step k s (Write false)) = Some o' -> sameOthers (finalizerOf k) (oFins o) (oFins o').
Proof. exact write_others. Qed.
Print Assumptions C44_others_kept_partial.

(* Resource versions stay in order in every run, so the hypothesis of
   C44_locked_partial is always met. *)
Theorem C44_versions : forall k ops s, rvOK s -> rvOK (run k s ops).
Proof.
  intros k ops. induction ops as [|o ops IH]; intros s H; [exact H|]. apply IH. now apply step_rv.
Qed.
Print Assumptions C44_versions.

Definition cls (fins : list string) (del : bool) (rv : nat) : Obj := mkObj fins del rv.
Definition world (o : Obj) (rs : list nat) : St := mkSt (Some o) rs Idle (oRV o).

(* A non-trivial case: a machine appears, the finalizer is added; deletion is
   requested, the class stays; the machine goes, the class goes. *)
Example C44_case :
  let fin := classFinalizer in
  let s0 := world (cls ["user"] false 1) [] in
  let ops1 := [RefAdd 7; Look (cls ["user"] false 1) [7]; Fetch false; Write false; DeleteReq;
               Look (cls [fin; "user"] true 3) [7]] in
  let ops2 := [RefDel 7; Look (cls [fin; "user"] true 3) []; Fetch false; Write false; OtherRemoves "user"] in
  carefulRun KClass s0 (ops1 ++ ops2) /\
  srv (run KClass s0 ops1) = Some (cls [fin; "user"] true 3) /\
  srv (run KClass s0 (ops1 ++ ops2)) = None.
Proof.
  cbv zeta. split; [|split; vm_compute; reflexivity].
  vm_compute. repeat split; try discriminate; try tauto.
Qed.

(* C44 does not hold in full.  A finalizer that somebody adds while a pass is
   between its look at the cache and its Get is lost, *)
Theorem C44_edit_lost_refuted : ~ (forall s ops f, pend s = Idle -> freshRun KClass s ops ->
  f <> classFinalizer -> holds f s \/ In (OtherAdds f) ops ->
  (forall x, In x ops -> x <> OtherRemoves f /\ x <> DeleteReq) ->
  srv s <> None -> (forall o, srv s = Some o -> oDel o = false) -> holds f (run KClass s ops)).
Proof.
  intros H.
  destruct (H (world (cls [] false 1) [7])
              [Look (cls [] false 1) [7]; OtherAdds "user"; Fetch false; Write false] "user") as (o & E & I).
  - reflexivity.
  - vm_compute. repeat split.
  - discriminate.
  - right. right. now left.
  - intros x [<-|[<-|[<-|[<-|[]]]]]; split; discriminate.
  - discriminate.
  - intros o E. injection E as <-. reflexivity.
  - vm_compute in E. injection E as <-. destruct I as [I|[]]. discriminate.
Qed.
Print Assumptions C44_edit_lost_refuted.

(* one that somebody removes comes back, *)
Theorem C44_edit_undone_refuted : ~ (forall s ops f, pend s = Idle -> freshRun KClass s (ops ++ [Write false]) ->
  f <> classFinalizer -> ~ holds f (run KClass s ops) -> ~ holds f (run KClass s (ops ++ [Write false]))).
Proof.
  intros H.
  apply (H (world (cls ["user"] false 1) [7])
           [Look (cls ["user"] false 1) [7]; OtherRemoves "user"; Fetch false] "user").
  - reflexivity.
  - vm_compute. repeat split.
  - discriminate.
  - intros (o & E & I). vm_compute in E. injection E as <-. destruct I.
  - exists (cls [classFinalizer; "user"] false 3). split; [vm_compute; reflexivity|right; now left].
Qed.
Print Assumptions C44_edit_undone_refuted.

(* and a machine that starts to refer to the class while the finalizer is being
   taken away is left with an unprotected class, which a deletion removes. *)
Theorem C44_unprotected_refuted : ~ (forall s ops, pend s = Idle -> freshRun KClass s ops ->
  holds classFinalizer s -> (forall x, In x ops -> x <> OtherRemoves classFinalizer) ->
  refs (run KClass s ops) <> [] -> srv (run KClass s ops) <> None).
Proof.
  intros H. set (o := cls [classFinalizer] false 1).
  apply (H (world o []) [Look o []; RefAdd 7; Fetch false; Write false; DeleteReq]).
  - reflexivity.
  - vm_compute. repeat split.
  - exists o. split; [reflexivity|now left].
  - intros x [<-|[<-|[<-|[<-|[<-|[]]]]]]; discriminate.
  - discriminate.
  - vm_compute. reflexivity.
Qed.
Print Assumptions C44_unprotected_refuted.

(* C65: the same for secrets and the classes that refer to them. *)
Theorem C65_pass : forall s o, srv s = Some o ->
  let s' := run KSecret s (pass o (refs s)) in
  refs s' = refs s /\
  (refs s <> [] -> oDel o = false -> exists o', srv s' = Some o' /\ oDel o' = false /\
     In secretFinalizer (oFins o') /\ sameOthers secretFinalizer (oFins o) (oFins o')) /\
  (refs s <> [] -> oDel o = true -> srv s' = srv s) /\
  (refs s = [] ->
     (exists o', srv s' = Some o' /\ oDel o' = oDel o /\ ~ In secretFinalizer (oFins o') /\
        sameOthers secretFinalizer (oFins o) (oFins o')) \/
     (srv s' = None /\ oDel o = true /\ forall x, In x (oFins o) -> x = secretFinalizer)).
Proof. exact pass_secret. Qed.
Print Assumptions C65_pass.

(* C65: the finalizer is taken off only while no class refers to the secret.
   Partial: as for C44, classes must not start to refer while it is being taken off. *)
Theorem C65_removed_only_partial : forall ops o s, pend s = Idle -> carefulRun KSecret s (ops ++ [o]) ->
  holds secretFinalizer (run KSecret s ops) -> ~ holds secretFinalizer (run KSecret s (ops ++ [o])) ->
  refs (run KSecret s ops) = [].
Proof. exact (removed_only KSecret). Qed.
Print Assumptions C65_removed_only_partial.

(* C65: a secret to which a class starts or ceases to refer is queued.
   Partial: only if the class has its first reference, before and after. *)
Theorem C65_queued_partial : forall old new r, secretRef old <> None -> secretRef new <> None ->
  (In r (refsOf old) /\ ~ In r (refsOf new)) \/ (In r (refsOf new) /\ ~ In r (refsOf old)) ->
  In (refKey r) (machineClassToSecretUpdate old new).
Proof. exact queued_update. Qed.
Print Assumptions C65_queued_partial.

(* C65: a new class queues the secrets it refers to.
   Partial: only if it has its first reference (C65_credentials_only_refuted). *)
Theorem C65_queued_add_partial : forall c r, secretRef c <> None -> In r (refsOf c) ->
  In (refKey r) (machineClassToSecretAdd c).
Proof. exact queued_add. Qed.
Print Assumptions C65_queued_add_partial.

Example C65_case :
  let a := mkRefs (Some ("ns", "a")) (Some ("ns", "b")) in
  let b := mkRefs (Some ("ns", "b")) (Some ("ns", "c")) in
  machineClassToSecretUpdate a b = ["ns/a"; "ns/b"; "ns/b"; "ns/c"] /\
  srv (run KSecret (world (cls ["x"] false 1) [3]) (pass (cls ["x"] false 1) [3])) =
    Some (cls [secretFinalizer; "x"] false 2).
Proof. split; vm_compute; reflexivity. Qed.

(* C65 does not hold in full: a class with credentials only queues nothing, *)
Theorem C65_credentials_only_refuted : ~ (forall c r, In r (refsOf c) ->
  In (refKey r) (machineClassToSecretAdd c)).
Proof. intros H. apply (H (mkRefs None (Some ("ns", "a"))) ("ns", "a")). now left. Qed.
Print Assumptions C65_credentials_only_refuted.

(* and a secret is held by a class that refers to another one of the same name. *)
Theorem C65_other_namespace_refuted : ~ (forall ns name cs,
  existsMachineClassForSecret name cs = true -> exists c, In c cs /\ In (ns, name) (refsOf c)).
Proof.
  intros H. destruct (H "mine" "a" [mkRefs (Some ("other", "a")) None]) as (c & [<-|[]] & I); [reflexivity|].
  cbn in I. destruct I as [I|[]]. discriminate.
Qed.
Print Assumptions C65_other_namespace_refuted.

(* C65: a secret counts as used exactly if some class refers to a secret of that name. *)
Theorem C65_held_exactly : forall name cs, existsMachineClassForSecret name cs = true <->
  exists c r, In c cs /\ In r (refsOf c) /\ snd r = name.
Proof.
  intros name cs. unfold existsMachineClassForSecret. rewrite existsb_exists. split.
  - intros (c & I & R). unfold refersTo in R. apply orb_prop in R. exists c. unfold refsOf.
    destruct (secretRef c) as [[n1 s1]|], (credRef c) as [[n2 s2]|]; cbn in *; destruct R as [R|R]; try discriminate; apply String.eqb_eq in R; subst;
      first [exists (n1, name); cbn; auto; fail | exists (n2, name); cbn; auto; fail].
  - intros (c & r & I & R & N). exists c. split; [exact I|]. unfold refersTo, refsOf in *.
    destruct (secretRef c) as [[n1 s1]|], (credRef c) as [[n2 s2]|]; cbn in R; decompose [or] R; subst; try contradiction; cbn; rewrite String.eqb_refl; auto using orb_true_r.
Qed.
Print Assumptions C65_held_exactly.
Example C65_held_case : existsMachineClassForSecret "s" [mkRefs (Some ("n", "x")) None; mkRefs (Some ("n", "x")) (Some ("n", "s"))] = true /\
  existsMachineClassForSecret "n" [mkRefs (Some ("n", "x")) (Some ("n", "s"))] = false.
Proof. split; reflexivity. Qed.

(* C44: what the others do in the histories above: machines appear and disappear one by one,
   and a class that is gone may be made anew. *)
Theorem C44_others_do : forall k s,
  (forall m x, In x (refs (step k s (RefAdd m))) <-> x = m \/ In x (refs s)) /\
  (forall m x, In x (refs (step k s (RefDel m))) <-> x <> m /\ In x (refs s)) /\
  (forall m, srv (step k s (RefAdd m)) = srv s /\ srv (step k s (RefDel m)) = srv s) /\
  (forall fins, srv s = None -> exists o, srv (step k s (Recreate fins)) = Some o /\ oFins o = fins /\ oDel o = false /\ rev s < oRV o) /\
  (forall fins, srv s <> None -> step k s (Recreate fins) = s).
Proof.
  intros k s. split; [|split; [|split; [|split]]].
  - intros m x. cbn. intuition auto.
  - intros m x. cbn. rewrite filter_In, negb_true_iff, Nat.eqb_neq. tauto.
  - intros m. split; reflexivity.
  - intros fins N. cbn. rewrite N. eexists. split; [reflexivity|]. cbn. repeat split. lia.
  - intros fins N. cbn. destruct (srv s); [reflexivity | contradiction].
Qed.
Print Assumptions C44_others_do.
