(* C34 (annotations, conditions, the autoscaler's annotation) and C63 (machines
   named for deletion). *)
Require Import List String Ascii Bool Arith.
From Verif Require Import MetaModel MetaSpec MetaProofs TaintModel AnnoModel AnnoSpec AnnoProofs.
Import ListNotations.
Open Scope string_scope.
Open Scope list_scope.

(* C34: adding annotations sets the named keys and touches no other; it reports
   a change exactly if one of them was missing or different. *)
Theorem C34_add : forall n anns, isMap anns -> isMap (entries n) ->
  let '(r, u) := AddOrUpdateAnnotation n anns in
  isMap (entries r) /\
  (forall k v, In (k, v) anns -> In (k, v) (entries r)) /\
  (forall k v, ~ In k (keys anns) -> (In (k, v) (entries r) <-> In (k, v) (entries n))) /\
  (u = false <-> forall k v, In (k, v) anns -> In (k, v) (entries n)) /\
  (u = false -> entries r = entries n).
Proof. exact add_anno_spec. Qed.
Print Assumptions C34_add.

(* C34: removing annotations removes the named keys and no other, and reports a
   change exactly if one was there; also with nil maps. *)
Theorem C34_remove : forall n anns,
  let '(r, d) := RemoveAnnotation n anns in
  withoutKeys (entries anns) (entries n) (entries r) /\
  (d = true <-> exists k, In k (keys (entries n)) /\ In k (keys (entries anns))) /\
  (d = false -> r = n).
Proof. exact remove_anno_spec. Qed.
Print Assumptions C34_remove.

(* C34: adding a node condition replaces those of its type, keeps all others in
   order, and keeps the transition time of one with the same status and reason. *)
Theorem C34_condition : forall l c, cType c <> "" -> cStatus c <> "" ->
  exists t,
    CloneAndAddCondition l c =
      filter (fun x => negb (String.eqb (cType x) (cType c))) l ++
      [mkNCond (cType c) (cStatus c) (cReason c) (cMessage c) (cHeartbeat c) t] /\
    ((exists x, In x l /\ (cType x = cType c /\ cStatus x = cStatus c /\ cReason x = cReason c) /\
        t = cTransition x) \/
     (t = cTransition c /\
      forall x, In x l -> ~ (cType x = cType c /\ cStatus x = cStatus c /\ cReason x = cReason c))).
Proof. exact cond_spec. Qed.
Print Assumptions C34_condition.

(* C34: a condition without type or status is not added, and nothing else changes. *)
Theorem C34_no_condition : forall l c, cType c = "" \/ cStatus c = "" -> CloneAndAddCondition l c = l.
Proof.
  intros l c H. unfold CloneAndAddCondition. destruct H as [-> | ->]; cbn [String.eqb orb]; rewrite ?orb_true_r; reflexivity.
Qed.
Print Assumptions C34_no_condition.
Example C34_no_condition_case : CloneAndAddCondition [mkNCond "Ready" "True" "r" "" 1 1] (mkNCond "" "True" "u" "new" 9 9) = [mkNCond "Ready" "True" "r" "" 1 1].
Proof. reflexivity. Qed.

(* C34: the annotation for the autoscaler is taken away only where this
   controller put its own mark: on a node that it never annotated, and where
   nobody else sets that mark, its steps change nothing. *)
Theorem C34_not_ours : forall es n, isMap (entries n) ->
  get ByMCM (entries n) = None ->
  (forall e, In e es -> e <> Annotate /\ (forall v, e <> UserSets ByMCM v)) ->
  nrun n es = nrun n (filter byOthers es).
Proof. exact run_not_ours. Qed.
Print Assumptions C34_not_ours.

(* C34: on a node without the two annotations, any number of rollouts, with
   others editing other annotations meanwhile, leave after the clean-up what
   those edits alone would have left.
   Partial: not for nodes on which a user had disabled scale-down before. *)
Theorem C34_round_trip_partial : forall es n k, isMap (entries n) ->
  (forall e, In e es -> ~ touches ScaleDownDisabled e /\ ~ touches ByMCM e) ->
  get ByMCM (entries n) = None -> get ScaleDownDisabled (entries n) = None ->
  get k (entries (nrun n (es ++ [Unannotate]))) = get k (entries (nrun n (filter byOthers es))).
Proof. exact run_roundtrip. Qed.
Print Assumptions C34_round_trip_partial.

Example C34_case :
  isMap (entries (Some [("x", "1")])) /\
  nrun (Some [("x", "1")]) [Annotate] =
    Some [(ByMCM, "true"); (ScaleDownDisabled, "true"); ("x", "1")] /\
  nrun (Some [("x", "1")]) [Annotate; UserSets "y" "2"; Annotate; Unannotate] =
    Some [("y", "2"); ("x", "1")] /\
  nrun (Some [(ScaleDownDisabled, "true")]) [Unannotate] = Some [(ScaleDownDisabled, "true")] /\
  CloneAndAddCondition [mkNCond "Ready" "True" "r" "" 1 1; mkNCond "T" "True" "u" "old" 2 2]
    (mkNCond "T" "True" "u" "new" 9 9) =
    [mkNCond "Ready" "True" "r" "" 1 1; mkNCond "T" "True" "u" "new" 9 2].
Proof.
  split; [cbn; repeat constructor; cbn; tauto|]. split; [reflexivity|]. split; [reflexivity|]. split; reflexivity.
Qed.

(* C34: what one reconcile of a rollout does to a node: nothing if the feature is off, or if no
   old set has machines and the rollout is not complete; while old sets have machines both
   annotations are there; after the reconcile that completes the rollout neither of them is, if
   the controller's mark was there before or old sets remained until then. *)
Theorem C34_reconcile : forall on old complete n, isMap (entries n) ->
  let r := nrun n (rolloutEvents on old complete) in
  (on = false \/ (old = false /\ complete = false) -> r = n) /\
  (on = true -> old = true -> complete = false -> get ByMCM (entries r) = Some "true" /\ get ScaleDownDisabled (entries r) = Some "true") /\
  (on = true -> complete = true -> old = true \/ get ByMCM (entries n) <> None -> get ByMCM (entries r) = None /\ get ScaleDownDisabled (entries r) = None) /\
  (forall k, k <> ByMCM -> k <> ScaleDownDisabled -> get k (entries r) = get k (entries n)).
Proof. exact reconcile_spec. Qed.
Print Assumptions C34_reconcile.

Example C34_reconcile_case :
  nrun None (rolloutEvents true false false) = None /\ nrun (Some [("x", "1")]) (rolloutEvents true true true) = Some [("x", "1")].
Proof. vm_compute. auto. Qed.

(* Finding.  A user who had disabled scale-down on the node themselves loses that
   annotation: the rollout adds the by-mcm mark beside it, and the clean-up then
   takes both away.  A value "false" is overwritten in the same way. *)
Theorem C34_users_annotation_lost_refuted : exists n,
  get ScaleDownDisabled (entries n) = Some "true" /\ get ByMCM (entries n) = None /\
  get ScaleDownDisabled (entries (nrun n [Annotate; Unannotate])) = None.
Proof. exists (Some [(ScaleDownDisabled, "true")]). repeat split. Qed.
Print Assumptions C34_users_annotation_lost_refuted.

Theorem C34_users_value_overwritten_refuted : exists n,
  get ScaleDownDisabled (entries n) = Some "false" /\
  get ScaleDownDisabled (entries (nrun n [Annotate])) = Some "true".
Proof. exists (Some [(ScaleDownDisabled, "false")]). repeat split. Qed.
Print Assumptions C34_users_value_overwritten_refuted.

(* Finding.  If the switch is turned off while a rollout is under way, the
   annotations stay for ever: no later reconcile removes them. *)
Theorem C34_switched_off_refuted : forall rest,
  Forall (fun es => exists old complete, es = rolloutEvents false old complete) rest ->
  nrun None (rolloutEvents true true false ++ List.concat rest) =
    Some [(ByMCM, "true"); (ScaleDownDisabled, "true")].
Proof.
  intros rest H. assert (E : List.concat rest = []).
  { induction H as [|es rest [old [c ->]] H IH]; [reflexivity|].
    cbn [List.concat]. rewrite IH. destruct old, c; reflexivity. }
  rewrite E. reflexivity.
Qed.
Print Assumptions C34_switched_off_refuted.

(* C63: of the machines in the namespace only named ones that are neither failed
   nor being deleted are changed, by getting priority 1; without an error all of
   them have it, and the list then names exactly those; after an error the list
   is as before, so that the next reconcile starts over. *)
Theorem C63_marks : forall fails mdFails v ms, ms "" = None ->
  let '(ms', v', err) := setPriorities fails mdFails v ms in
  onlyMarked (namesTriggered v) ms ms' /\
  (err = true -> v' = v) /\
  (err = false -> allMarked (namesTriggered v) ms ms' /\
     (forall x, In x (namesTriggered v') <-> In x (namesTriggered v) /\ markable ms x)) /\
  ((forall n, fails n = false) -> mdFails = false -> err = false).
Proof. exact setPriorities_spec. Qed.
Print Assumptions C63_marks.

Definition exMs : Machines := fun n =>
  if String.eqb n "a" then Some (mkTMachine "md" false "3")
  else if String.eqb n "b" then Some (mkTMachine "md" true "3")
  else if String.eqb n "z" then Some (mkTMachine "other" false "3")
  else None.

Example C63_case :
  let '(ms', v', err) := setPriorities (fun _ => false) false "b,gone,a" exMs in
  ms' "a" = Some (mkTMachine "md" false "1") /\ ms' "b" = exMs "b" /\ v' = "a" /\ err = false.
Proof. vm_compute. auto. Qed.

(* Finding.  Nothing checks that a named machine belongs to the deployment: a
   machine of another deployment gets priority 1 there. *)
Theorem C63_foreign_machine_refuted : exists v ms,
  let '(ms', _, err) := setPriorities (fun _ => false) false v ms in
  err = false /\ ms "z" = Some (mkTMachine "other" false "3") /\
  ms' "z" = Some (mkTMachine "other" false "1").
Proof. exists "a,z", exMs. vm_compute. auto. Qed.
Print Assumptions C63_foreign_machine_refuted.
