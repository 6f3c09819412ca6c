(** Properties of ownership and of deleting parents: C20, C21, C56-C58. *)
Require Import Coq.Lists.List Coq.Strings.String Coq.Bool.Bool.
From Verif Require Import StatusModel OwnModel OwnSpec OwnProofs.
Import ListNotations.
Open Scope string_scope.
Open Scope list_scope.

Definition ow_sel := [("role", "worker")].
Definition ow_obj (n : nat) (ow : list Owner) := mkObj n n ow [("zone", "a"); ("role", "worker")] false.
Definition ow_env := mkEnv (LFound 7 false) (fun _ => FNone) true (fun _ => true).

(** C20: every claimed child is in the view, matches, and is owned by the claimer, or
    it is unowned and not being deleted, the claimer is not being deleted and a live
    read confirmed that. Then the claimer is recorded as its owner. *)
Theorem C20_claimed : forall me deleting l faults sel store cache claimed err store',
  Claim me deleting l faults sel store cache = (claimed, err, store') ->
  forall o, In o claimed -> In o cache /\ matches sel (o_labels o) /\
    (owned o me \/
     (orphan o /\ o_deleting o = false /\ deleting = false /\ l = LFound me false /\
      exists s', In s' store' /\ o_name s' = o_name o /\ o_owners s' = [mkOwner me true])).
Proof.
  intros me d l f sel st c cl err st' H o Ho. destruct (claim_sound _ _ _ _ _ _ _ _ _ _ H o Ho) as (A & B & C).
  split; [exact A|]. split; [exact B|]. destruct C as [C|(C & D & E & F)]; [left; exact C|right].
  repeat split; auto. exact (claim_adopted _ _ _ _ _ _ _ _ _ _ H o Ho C).
Qed.
Print Assumptions C20_claimed.

(** C20: nothing is left out: own matching children are claimed; if no error is
    reported, so is every matching orphan that may be adopted and still exists. *)
Theorem C20_claims_all : forall me deleting l faults sel store cache claimed err store',
  Claim me deleting l faults sel store cache = (claimed, err, store') ->
  forall o, In o cache -> matches sel (o_labels o) ->
    (owned o me -> In o claimed) /\
    (err = false -> orphan o -> o_deleting o = false -> deleting = false -> In o claimed \/ ~ In (o_name o) (map o_name store)).
Proof. intros me d l f sel st c cl err st' H. exact (claim_complete _ _ _ _ _ _ _ _ _ _ H). Qed.
Print Assumptions C20_claims_all.

(** C20: a pass reports a failure exactly when some child could not be released or adopted. *)
Theorem C20_failure_reported : forall me deleting l faults sel store cache claimed err store', distinct store ->
  Claim me deleting l faults sel store cache = (claimed, err, store') ->
  (err = true <-> exists o, In o cache /\ claim_fails me deleting l (faults (o_name o)) sel store o).
Proof. intros me d l f sel st c cl err st' D H. exact (claim_error _ _ _ _ _ _ _ _ _ _ D H). Qed.
Print Assumptions C20_failure_reported.

Example C20_failure_case :
  let a := ow_obj 1 [] in let b := mkObj 2 2 [mkOwner 7 true] [("role", "other")] false in
  snd (fst (Claim 7 false (LFound 7 false) (fun n => match n with 2 => FAfter | _ => FNone end) ow_sel [a; b] [a; b])) = true /\
  claim_fails 7 false (LFound 7 false) FAfter ow_sel [a; b] b /\
  snd (fst (Claim 7 false (LFound 7 false) (fun _ => FNone) ow_sel [a] [a; b])) = false /\
  snd (fst (Claim 7 false (LFound 7 false) (fun _ => FNone) ow_sel [mkObj 1 5 [] [] false] [a])) = true.
Proof.
  split; [reflexivity|]. split; [|split; reflexivity]. split; [reflexivity|]. left. split; [constructor|]. split.
  - intro M. specialize (M "role" "worker" (or_introl eq_refl)). inversion M as [|? ? ? ? ? NE]; subst. apply NE. reflexivity.
  - right. split; [reflexivity|]. eexists. split; [right; left; reflexivity|]. split; reflexivity.
Qed.

(** C20, as far as it holds: with a current view no child of another owner is
    touched. Missing: lagging views, and releasing (refuted below). *)
Theorem C20_others_untouched_partial : forall me deleting l faults sel store claimed err store' u s, distinct store ->
  Claim me deleting l faults sel store store = (claimed, err, store') -> In s store -> owned s u -> u <> me -> In s store'.
Proof. exact others_untouched. Qed.
Print Assumptions C20_others_untouched_partial.

Example C20_case :
  let a := ow_obj 1 [mkOwner 7 true] in let b := ow_obj 2 [mkOwner 3 false] in let c := ow_obj 3 [mkOwner 9 true] in
  Claim 7 false (LFound 7 false) (fun _ => FNone) ow_sel [a; b; c] [a; b; c] = ([a; b], false, [a; ow_obj 2 [mkOwner 7 true]; c]) /\
  Claim 7 false (LFound 7 true) (fun _ => FNone) ow_sel [a; b; c] [a; b; c] = ([a], true, [a; b; c]).
Proof. split; reflexivity. Qed.

(** C20 fails with a lagging view: a child adopted by another controller in the
    meantime is taken over without error, because a JSON merge patch replaces the
    list of owner references. *)
Theorem C20_taken_over_refuted : exists store cache, let '(claimed, err, store') := Claim 7 false (LFound 7 false) (fun _ => FNone) ow_sel store cache in
  err = false /\ (exists s, In s store /\ owned s 9) /\ (forall s, In s store' -> ~ owned s 9 /\ owned s 7).
Proof.
  exists [ow_obj 1 [mkOwner 9 true]], [ow_obj 1 []]. cbn. split; [reflexivity|]. split.
  - eexists. split; [left; reflexivity|constructor].
  - intros s [<-|[]]. split; [intro H; inversion H|constructor].
Qed.
Print Assumptions C20_taken_over_refuted.

(** C20 fails for releasing: no pass ever gives up a child, whether its labels match
    or not: the patch is a JSON merge patch, to which "$patch" means nothing. *)
Theorem C20_never_released_refuted : forall me deleting l faults sel store cache claimed err store' s,
  Claim me deleting l faults sel store cache = (claimed, err, store') ->
  In s store -> owned s me -> exists s', In s' store' /\ o_name s' = o_name s /\ owned s' me.
Proof. exact never_released. Qed.
Print Assumptions C20_never_released_refuted.

Example C20_release_case :
  let a := mkObj 1 1 [mkOwner 7 true] [("role", "other")] false in
  Claim 7 false (LFound 7 false) (fun _ => FNone) ow_sel [a] [a] = ([], false, [a]).
Proof. reflexivity. Qed.

(** C20: adoption also drops owner references of others that are not controllers. *)
Theorem C20_references_lost_refuted : exists s, o_owners s = [mkOwner 3 false] /\ In s [s] /\
  map o_owners (snd (Claim 7 false (LFound 7 false) (fun _ => FNone) ow_sel [s] [s])) = [[mkOwner 7 true]].
Proof. exists (ow_obj 1 [mkOwner 3 false]). split; [reflexivity|]. split; [left; reflexivity|reflexivity]. Qed.
Print Assumptions C20_references_lost_refuted.

(** C21, as far as it holds: in every history in which reconciles see the current
    machines, a MachineSet with machines still exists and carries the finalizer.
    Missing: lagging views and machines whose labels were changed (refuted below). *)
Theorem C21_set_outlives_partial : forall me tmpl p store l w', p_uid p = me -> matches (p_sel p) tmpl -> distinct store -> (forall s, In s store -> ~ owned s me) ->
  run me tmpl (mkWorld (Some p) store) l w' -> (exists s, In s (w_store w') /\ owned s me) ->
  exists p', w_parent w' = Some p' /\ p_uid p' = me /\ In DeleteFinalizerName (p_finalizers p').
Proof. exact outlives. Qed.
Print Assumptions C21_set_outlives_partial.

Definition ow_p := mkParent 7 false [] ow_sel.
Definition ow_tmpl := [("role", "worker")].
Example C21_case :
  let m := adoptive 7 ow_tmpl 1 in let m' := mkObj 1 1 [mkOwner 7 true] ow_tmpl true in
  let w1 := mkWorld (Some (mkParent 7 true [DeleteFinalizerName] ow_sel)) [m] in
  run 7 ow_tmpl (mkWorld (Some ow_p) []) [OReconcile ow_env true [] [1]; ODelete] w1 /\
  run 7 ow_tmpl w1 [OReconcile ow_env true [m] []; OReconcile ow_env true [m'] []; OGone 1; OReconcile ow_env true [] []] (mkWorld None []).
Proof.
  split.
  - eapply run_cons; [repeat split; repeat constructor; intros []|]. eapply run_cons; [exact I|]. apply run_nil.
  - eapply run_cons; [repeat split; repeat constructor|]. eapply run_cons; [repeat split; repeat constructor|]. eapply run_cons; [exact I|].
    eapply run_cons; [repeat split; repeat constructor|]. apply run_nil.
Qed.

(** C21: while children are left, a parent being deleted keeps its finalizer and asks
    for the deletion of each of them. *)
Theorem C21_all_asked : forall e p store tmpl news s, p_deleting p = true -> In DeleteFinalizerName (p_finalizers p) -> distinct store ->
  In s store -> owned s (p_uid p) -> matches (p_sel p) (o_labels s) -> p_sel p <> [] ->
  (exists q, reconcileSet e true p (p_finalizers p) store store tmpl news = (p_finalizers p, q) /\
     exists s', In s' q /\ o_name s' = o_name s /\ o_owners s' = o_owners s /\ o_deleting s' = o_deleting s || e_delete e (o_name s)) /\
  (exists q, reconcileDeployment e true p (p_finalizers p) store store tmpl news = (p_finalizers p, q) /\
     exists s', In s' q /\ o_name s' = o_name s /\ o_owners s' = o_owners s /\ o_deleting s' = o_deleting s || e_delete e (o_name s)).
Proof. exact all_asked. Qed.
Print Assumptions C21_all_asked.

Example C21_asked_case : let p := mkParent 7 true [DeleteFinalizerName] ow_sel in
  reconcileSet ow_env true p (p_finalizers p) [ow_obj 1 [mkOwner 7 true]; ow_obj 2 [mkOwner 8 true]] [ow_obj 1 [mkOwner 7 true]; ow_obj 2 [mkOwner 8 true]] [] [] =
  ([DeleteFinalizerName], [mkObj 1 1 [mkOwner 7 true] [("zone", "a"); ("role", "worker")] true; ow_obj 2 [mkOwner 8 true]]).
Proof. reflexivity. Qed.

(** C21: a parent being deleted leaves every child that is not its own as it is. *)
Theorem C21_others_unharmed : forall e valid p q store tmpl news s, p_deleting p = true -> distinct store -> In s store -> ~ owned s (p_uid p) ->
  In s (snd (reconcileSet e valid p q store store tmpl news)) /\ In s (snd (reconcileDeployment e valid p q store store tmpl news)).
Proof. exact unharmed. Qed.
Print Assumptions C21_others_unharmed.

(** C21: a MachineSet that is not being deleted, whose finalizer is there or can be written
    and that claims without a failure, goes on to make its machines, and they are its own. *)
Theorem C21_goes_on : forall e p store cache tmpl news, p_deleting p = false -> distinct store ->
  (In DeleteFinalizerName (p_finalizers p) \/ e_final e = true) ->
  (forall o, In o cache -> ~ claim_fails (p_uid p) false (e_live e) (e_fault e (o_name o)) (p_sel p) store o) ->
  forall n, In n news ->
  (exists s, In s (snd (reconcileSet e true p (p_finalizers p) store cache tmpl news)) /\
     o_name s = n /\ owned s (p_uid p) /\ o_deleting s = false /\ o_labels s = tmpl) /\
  In DeleteFinalizerName (fst (reconcileSet e true p (p_finalizers p) store cache tmpl news)).
Proof. exact goes_on. Qed.
Print Assumptions C21_goes_on.

Example C21_goes_on_case : reconcileSet (mkEnv LFail (fun _ => FBefore) false (fun _ => false)) true (mkParent 7 false [DeleteFinalizerName] ow_sel)
    [DeleteFinalizerName] [] [] ow_tmpl [3; 4] = ([DeleteFinalizerName], [adoptive 7 ow_tmpl 3; adoptive 7 ow_tmpl 4]).
Proof. reflexivity. Qed.

(** C21 fails for a machine whose labels no longer match: the MachineSet goes although
    it still owns the machine, even with a current view. *)
Theorem C21_relabelled_refuted : exists s, owned s 7 /\
  step ow_tmpl (mkWorld (Some (mkParent 7 true [DeleteFinalizerName] ow_sel)) [s]) (OReconcile ow_env true [s] []) = mkWorld None [s].
Proof. exists (mkObj 1 1 [mkOwner 7 true] [("role", "other")] false). split; [constructor|reflexivity]. Qed.
Print Assumptions C21_relabelled_refuted.

(** C21 fails with a lagging view: a machine created just before is not seen. *)
Theorem C21_lagging_view_refuted : exists w, w_parent w = Some ow_p /\ w_store w = [] /\
  let w1 := fold_left (step ow_tmpl) [OReconcile ow_env true [] [1]; ODelete; OReconcile ow_env true [] []] w in
  w_parent w1 = None /\ exists s, In s (w_store w1) /\ owned s 7 /\ matches ow_sel (o_labels s).
Proof.
  exists (mkWorld (Some ow_p) []). cbn. repeat split. exists (adoptive 7 ow_tmpl 1). split; [left; reflexivity|]. split; [constructor|].
  intros k v [E|[]]. injection E as <- <-. constructor.
Qed.
Print Assumptions C21_lagging_view_refuted.

(** C21 fails for a MachineDeployment: if adding the finalizer fails the error is
    ignored, and the reconcile goes on to create MachineSets. *)
Theorem C21_deployment_refuted : exists p e, p_deleting p = false /\ e_final e = false /\
  exists s, reconcileDeployment e true p (p_finalizers p) [] [] ow_tmpl [1] = ([], [s]) /\ owned s (p_uid p) /\
  settleParent (mkParent (p_uid p) true [] (p_sel p)) = None.
Proof.
  exists ow_p, (mkEnv (LFound 7 false) (fun _ => FNone) false (fun _ => true)). split; [reflexivity|]. split; [reflexivity|].
  exists (adoptive 7 ow_tmpl 1). split; [reflexivity|]. split; [constructor|reflexivity].
Qed.
Print Assumptions C21_deployment_refuted.

(** C56: a parent being deleted that sees no child of its own loses the finalizer in
    one reconcile; for MachineDeployments if the selector is not empty. *)
Theorem C56_deletable : forall e p store cache tmpl news, p_deleting p = true -> e_final e = true ->
  (forall o, In o cache -> ~ owned o (p_uid p)) ->
  fst (reconcileSet e true p (p_finalizers p) store cache tmpl news) = del DeleteFinalizerName (p_finalizers p) /\
  (p_sel p <> [] -> fst (reconcileDeployment e true p (p_finalizers p) store cache tmpl news) = del DeleteFinalizerName (p_finalizers p)).
Proof. exact deletable. Qed.
Print Assumptions C56_deletable.

Example C56_case : let p := mkParent 7 true ["other"; DeleteFinalizerName] ow_sel in
  fst (reconcileDeployment ow_env true p (p_finalizers p) [] [ow_obj 1 [mkOwner 9 true]] [] []) = ["other"].
Proof. reflexivity. Qed.

(** C56 fails for a MachineDeployment with an empty selector: it passes validation
    and gets the finalizer, but no reconcile ever removes it. *)
Theorem C56_empty_selector_refuted : validSelector [] ow_tmpl = true /\
  (forall e p, p_sel p = [] -> p_deleting p = false -> p_finalizers p = [] -> e_final e = true ->
     fst (reconcileDeployment e true p [] [] [] ow_tmpl []) = [DeleteFinalizerName]) /\
  (forall e p store cache tmpl news, p_sel p = [] -> p_deleting p = true -> 
     fst (reconcileDeployment e true p (p_finalizers p) store cache tmpl news) = p_finalizers p).
Proof.
  split; [reflexivity|]. split; intros e p.
  - intros H1 H2 H3 H4. unfold reconcileDeployment, updateFinalizers. rewrite H1, H2, H3, H4. reflexivity.
  - intros st c t n H1 H2. unfold reconcileDeployment. rewrite H1, H2. reflexivity.
Qed.
Print Assumptions C56_empty_selector_refuted.

(** C57, as far as it holds: reconciles keep the finalizers of others. Missing: edits
    by others during the reconcile (refuted below). *)
Theorem C57_other_finalizers_partial : forall e valid p store cache tmpl news x, x <> DeleteFinalizerName ->
  (In x (fst (reconcileSet e valid p (p_finalizers p) store cache tmpl news)) <-> In x (p_finalizers p)) /\
  (In x (fst (reconcileDeployment e valid p (p_finalizers p) store cache tmpl news)) <-> In x (p_finalizers p)).
Proof. exact other_finalizers. Qed.
Print Assumptions C57_other_finalizers_partial.

Example C57_case : fst (reconcileSet ow_env true (mkParent 7 false ["other"] ow_sel) ["other"] [] [] [] []) = [DeleteFinalizerName; "other"].
Proof. reflexivity. Qed.

(** C57 fails with concurrent edits: the list computed from the first read replaces
    the list of a fresh read, so a finalizer added in between is lost and one removed
    in between comes back, without a conflict. *)
Theorem C57_lost_edit_refuted : exists p q, In "added" q /\ ~ In "removed" q /\ In "removed" (p_finalizers p) /\
  let r := fst (reconcileSet ow_env true p q [] [] [] []) in ~ In "added" r /\ In "removed" r.
Proof.
  exists (mkParent 7 true ["removed"; DeleteFinalizerName] ow_sel), ["added"; DeleteFinalizerName]. cbn.
  repeat split; auto; intros H; repeat destruct H as [H|H]; try discriminate; auto.
Qed.
Print Assumptions C57_lost_edit_refuted.

(** C58, as far as it holds: if validation accepts a selector without empty values,
    machines made from the template match it. Missing: empty values (refuted below)
    and match expressions, which validation does not look at. *)
Theorem C58_accepted_selector_partial : forall sel tmpl, (forall k v, In (k, v) sel -> v <> "") -> validSelector sel tmpl = true -> matches sel tmpl.
Proof. exact valid_selector. Qed.
Print Assumptions C58_accepted_selector_partial.

Example C58_case : validSelector ow_sel [("a", ""); ("role", "worker")] = true /\ validSelector ow_sel [("role", "x")] = false.
Proof. split; reflexivity. Qed.

(** C58 fails for an empty value: the missing label passes validation, but none of the
    machines made from the template is ever counted as the set's own, however many
    have been made, so every reconcile makes more. *)
Theorem C58_runaway_refuted : exists sel tmpl, validSelector sel tmpl = true /\
  forall e p names store, p_sel p = sel -> exists store',
    Claim (p_uid p) true (e_live e) (e_fault e) sel store (map (adoptive (p_uid p) tmpl) names) = ([], false, store') /\
    fst (fst (Claim (p_uid p) false (e_live e) (e_fault e) sel store (map (adoptive (p_uid p) tmpl) names))) = [].
Proof. exact runaway. Qed.
Print Assumptions C58_runaway_refuted.
