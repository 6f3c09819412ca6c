(* C91: writes to Node objects; C92: annotations that keep the autoscaler away
   during a rollout; C93: the condition that announces a termination. *)
Require Import List String Bool Arith ZArith Lia.
From Verif Require Import MetaModel MetaSpec TaintModel AnnoModel AnnoSpec NodeModel NodeSpec NodeProofs.
From Verif Require CodesModel MachModel LifeModel LifeProps NodeRunProofs.
Import ListNotations.
Open Scope string_scope.
Open Scope list_scope.
Open Scope nat_scope.

(* C91: setting annotations, whatever state is read and whatever others write
   meanwhile.  At most one state is added, on top of the newest one and with no
   difference but the annotations asked for; none is added if an error is
   returned; without one, the annotations are set or a state was read that has
   them already or in which there is no node. *)
Theorem C91_annotate : forall a r rest h h' e, isMap a ->
  AddOrUpdateAnnotationOnNode (Some a) (r :: rest) h = (h', e) ->
  let h1 := others (rdOthers r) h in
  (h' = h1 \/ wrote (annotated a) h1 h') /\
  (e <> None -> h' = h1) /\
  (e = None -> wrote (annotated a) h1 h' \/ rdRead r = inr Absent \/ seen h None \/
     exists o, seen h (Some o) /\ carries a o).
Proof. exact annotate_lemma. Qed.
Print Assumptions C91_annotate.

(* C91: the same for removing annotations. *)
Theorem C91_deannotate : forall name a r rest h h' e, name <> "" ->
  RemoveAnnotationsOffNode name (Some a) (r :: rest) h = (h', e) ->
  let h1 := others (rdOthers r) h in
  (h' = h1 \/ wrote (deannotated a) h1 h') /\
  (e <> None -> h' = h1) /\
  (e = None -> wrote (deannotated a) h1 h' \/ rdRead r = inr Absent \/ seen h None \/
     exists o, seen h (Some o) /\ lacks a o).
Proof. exact deannotate_lemma. Qed.
Print Assumptions C91_deannotate.

(* C91: the same for a condition, which is always written. *)
Theorem C91_condition : forall c r rest h h' e, cType c <> "" -> cStatus c <> "" ->
  AddOrUpdateConditionsOnNode c (r :: rest) h = (h', e) ->
  let h1 := others (rdOthers r) h in
  (e = None -> wrote (conditioned c) h1 h') /\
  (e <> None -> h' = h1) /\
  (e = Some NotFound -> rdRead r = inr Absent \/ seen h None).
Proof. exact condition_lemma. Qed.
Print Assumptions C91_condition.

(* C91: without disturbance each of the three calls does its work. *)
Theorem C91_undisturbed : forall rounds h o, quiet rounds -> current h = Some o ->
  (forall a, isMap a -> exists h' o', AddOrUpdateAnnotationOnNode (Some a) rounds h = (h', None) /\
     current h' = Some o' /\ annotated a o o') /\
  (forall name a, name <> "" -> exists h' o', RemoveAnnotationsOffNode name (Some a) rounds h = (h', None) /\
     current h' = Some o' /\ deannotated a o o') /\
  (forall c, cType c <> "" -> cStatus c <> "" -> exists h' o', AddOrUpdateConditionsOnNode c rounds h = (h', None) /\
     current h' = Some o' /\ conditioned c o o').
Proof.
  intros rounds h o Q C. split; [|split].
  - intros a A. apply quiet_annotate; assumption.
  - intros name a N. apply quiet_deannotate; assumption.
  - intros c T S. apply quiet_condition; assumption.
Qed.
Print Assumptions C91_undisturbed.

(* One stale read, then reads that are up to date; another client has changed the
   node in the meantime. *)
Definition exStale : list Round := mkRound (inl 1) [] None :: repeat (mkRound (inl 0) [] None) 4.
Definition exHist : Hist := [Some (mkNObj (Some [("x", "2")]) [] 7); Some (mkNObj (Some [("x", "1")]) [] 7)].
Definition exOurs : Map := [("a", "1"); ("b", "2")].

Example C91_case :
  isMap exOurs /\
  (* up to date: the new state has all of it, and keeps what others wrote *)
  AddOrUpdateAnnotationOnNode (Some exOurs) [mkRound (inl 0) [] None] exHist =
    (Some (mkNObj (Some [("b", "2"); ("a", "1"); ("x", "2")]) [] 7) :: exHist, None) /\
  RemoveAnnotationsOffNode "n" (Some [("x", "")]) [mkRound (inl 0) [] None] exHist =
    (Some (mkNObj (Some []) [] 7) :: exHist, None) /\
  (* another client writes between read and update: nothing is lost *)
  AddOrUpdateAnnotationOnNode (Some exOurs)
    (mkRound (inl 0) [fun _ => Some (mkNObj (Some [("x", "3")]) [] 8)] None :: repeat (mkRound (inl 0) [] None) 4) exHist =
    (Some (mkNObj (Some [("x", "3")]) [] 8) :: exHist, Some Other) /\
  AddOrUpdateConditionsOnNode (mkNCond "Ready" "False" "r" "m" 5 5) [mkRound (inl 0) [] None] exHist =
    (Some (mkNObj (Some [("x", "2")]) [mkNCond "Ready" "False" "r" "m" 5 5] 7) :: exHist, None).
Proof.
  split; [repeat constructor; cbn; intuition discriminate|]. repeat split; reflexivity.
Qed.
Print Assumptions C91_case.

(* Finding.  The calls are wrapped in a retry on conflicts with five attempts, of
   which none but the first is ever made: the conflict is put into a new error that
   the retry does not recognise. *)
Theorem C91_never_retried_refuted : forall r rest h,
  (forall a, AddOrUpdateAnnotationOnNode a (r :: rest) h = AddOrUpdateAnnotationOnNode a [r] h) /\
  (forall n a, RemoveAnnotationsOffNode n a (r :: rest) h = RemoveAnnotationsOffNode n a [r] h) /\
  (forall c, AddOrUpdateConditionsOnNode c (r :: rest) h = AddOrUpdateConditionsOnNode c [r] h).
Proof.
  intros r rest h. split; [|split].
  - intros [a|]; [|reflexivity]. unfold AddOrUpdateAnnotationOnNode.
    rewrite !retry_once by (intros; apply tryAnn_conflict). reflexivity.
  - intros n [a|]; [|reflexivity]. unfold RemoveAnnotationsOffNode. destruct (String.eqb n ""); [reflexivity|].
    rewrite !retry_once by (intros; apply tryAnn_conflict). reflexivity.
  - intros c. unfold AddOrUpdateConditionsOnNode. rewrite !retry_once by (intros; apply tryCond_conflict). reflexivity.
Qed.
Print Assumptions C91_never_retried_refuted.

(* So one stale read by the first attempt fails the call although the four others
   would succeed. *)
Theorem C91_stale_read_refuted :
  AddOrUpdateAnnotationOnNode (Some exOurs) exStale exHist = (exHist, Some Other) /\
  snd (AddOrUpdateAnnotationOnNode (Some exOurs) (tl exStale) exHist) = None.
Proof. split; reflexivity. Qed.
Print Assumptions C91_stale_read_refuted.

(* Finding.  Success may be reported although the node has no such annotation: a
   stale state was read that had it. *)
Theorem C91_stale_success_refuted :
  let h := [Some (mkNObj (Some []) [] 7); Some (mkNObj (Some exOurs) [] 7)] in
  AddOrUpdateAnnotationOnNode (Some exOurs) exStale h = (h, None) /\
  ~ exists o, current h = Some o /\ carries exOurs o.
Proof.
  split; [reflexivity|]. intros [o [C K]]. injection C as <-. specialize (K "a" "1" (or_introl eq_refl)). discriminate.
Qed.
Print Assumptions C91_stale_success_refuted.

(* C92: annotating.  No other error is returned than that of a set whose machines
   cannot be found; failures at other nodes do not matter: every node that is
   named, exists and is reached undisturbed carries both annotations afterwards;
   nodes that are not named are left alone.
   Partial: disturbed nodes (C92_gap_refuted, C92_unprotected_refuted). *)
Theorem C92_annotates_partial : forall env sets ns ns' err n, annotateNodes env sets ns = (ns', err) ->
  (err = true <-> In (Some None) sets) /\
  (~ In n (names sets) -> ns' n = ns n) /\
  (forall o, n <> "" -> quiet (env n) -> current (ns n) = Some o ->
     exists o', current (ns' n) = Some o' /\
       (err = false -> In n (names sets) -> annotated scaleDownAnnotations o o') /\
       (o' = o \/ annotated scaleDownAnnotations o o')).
Proof. exact annotateNodes_spec. Qed.
Print Assumptions C92_annotates_partial.

(* C92: cleaning up.  Nodes without the mark of the controller are left alone;
   those with it lose exactly the two annotations, unless an error stops the loop
   or the node is not named.
   Partial: an error at one node stops the loop (C92_clean_up_blocked_refuted). *)
Theorem C92_cleans_partial : forall gf env sets ns ns' err n, unannotateNodes gf env sets ns = (ns', err) ->
  (~ In n (names' sets) -> ns' n = ns n) /\
  (n <> "" -> gf n = None -> forall o, current (ns n) = Some o ->
     (get ByMCM (entries (nAnn o)) = None -> ns' n = ns n) /\
     (quiet (env n) -> get ByMCM (entries (nAnn o)) <> None ->
        ns' n = ns n /\ ~ (err = false /\ In n (names' sets)) \/
        exists o', current (ns' n) = Some o' /\ deannotated scaleDownAnnotations o o')).
Proof. exact unannotateNodes_spec. Qed.
Print Assumptions C92_cleans_partial.

(* C92: and no error is returned if nothing fails. *)
Theorem C92_cleans_through : forall gf env sets ns, ~ In None sets ->
  (forall n, In n (names' sets) -> n <> "" -> gf n = None /\ quiet (env n)) ->
  snd (unannotateNodes gf env sets ns) = false.
Proof. exact unannotateNodes_ok. Qed.
Print Assumptions C92_cleans_through.

(* C92: when a reconcile annotates: the switch is on and some old set has
   machines wanted, existing, labelled, ready and available. *)
Theorem C92_when : forall sw old, annotates sw old = true <->
  sw = true /\ exists c, In c old /\ 0 < ctSpec c /\ 0 < ctAvailable c /\ 0 < ctLabelled c /\ 0 < ctReady c /\ 0 < ctReplicas c.
Proof. exact annotates_iff. Qed.
Print Assumptions C92_when.

Definition exQuiet : list Round := [mkRound (inl 0) [] None].
Definition exBroken : list Round := [mkRound (inr Unread) [] None].
Definition exNode : Hist := [Some (mkNObj None [] 0)].

(* Three machines on three nodes, one without a node yet; the second node cannot be
   reached. *)
Example C92_case :
  let env n := if String.eqb n "n2" then exBroken else exQuiet in
  let '(ns, err) := annotateNodes env [Some (Some ["n1"; ""; "n2"; "n3"]); None] (fun _ => exNode) in
  err = false /\ map (fun n => current (ns n)) ["n1"; "n2"; "n3"] =
    [Some (mkNObj (Some [(ByMCM, "true"); (ScaleDownDisabled, "true")]) [] 0); Some (mkNObj None [] 0);
     Some (mkNObj (Some [(ByMCM, "true"); (ScaleDownDisabled, "true")]) [] 0)] /\
  let '(ns2, err2) := unannotateNodes (fun _ => None) (fun _ => exQuiet) [Some ["n1"; ""; "n2"; "n3"]] ns in
  err2 = false /\ map (fun n => current (ns2 n)) ["n1"; "n2"; "n3"] =
    [Some (mkNObj (Some []) [] 0); Some (mkNObj None [] 0); Some (mkNObj (Some []) [] 0)] /\
  annotates true [mkCounts 3 2 3 2 3] = true.
Proof. repeat split; vm_compute; reflexivity. Qed.
Print Assumptions C92_case.

(* Finding.  The rollout goes on although a node could not be annotated. *)
Theorem C92_unprotected_refuted :
  annotateNodes (fun _ => exBroken) [Some (Some ["n1"])] (fun _ => exNode) =
    (setHist "n1" exNode (fun _ => exNode), false).
Proof. reflexivity. Qed.
Print Assumptions C92_unprotected_refuted.

(* Finding.  A set counts as scaled to zero if any one of its five numbers is zero:
   with three machines left of an old set whose wanted number is zero already, or
   with none of its machines ready, nodes are not annotated. *)
Theorem C92_gap_refuted : forall sw,
  annotates sw [mkCounts 0 3 3 3 3] = false /\ annotates sw [mkCounts 3 0 3 0 3] = false /\
  annotates sw [mkCounts 3 3 0 3 3] = false.
Proof. intros []; repeat split; reflexivity. Qed.
Print Assumptions C92_gap_refuted.

(* Finding.  One node that cannot be cleaned keeps the annotations on all nodes
   that come after it. *)
Theorem C92_clean_up_blocked_refuted : forall n2,
  n2 <> "n1" -> n2 <> "" ->
  let full := [Some (mkNObj (Some scaleDownAnnotations) [] 0)] in
  let '(ns, err) := unannotateNodes (fun _ => None) (fun n => if String.eqb n "n1" then exBroken else exQuiet)
                      [Some ["n1"; n2]] (fun _ => full) in
  err = true /\ ns n2 = full.
Proof.
  intros n2 D N. cbn. split; [reflexivity|]. unfold setHist. destruct (String.eqb_spec n2 "n1"); [contradiction|reflexivity].
Qed.
Print Assumptions C92_clean_up_blocked_refuted.

(* C93: if no error is returned, the node has exactly one condition of the type,
   true and with the reason below, and everything else as it was; or there was no
   node; with an error nothing is changed. *)
Theorem C93_announced : forall phase now fail between r rest h h' e,
  UpdateNodeTerminationCondition phase now fail between (r :: rest) h = (h', e) ->
  phase <> "" -> phase <> "CrashLoopBackOff" -> fail = None -> forall o, current h = Some o ->
  let h1 := others (rdOthers r) (others between h) in
  let c := terminationCondition phase now (getNodeCondition (nConds o) "Terminating") in
  (e = None -> wrote (conditioned c) h1 h' \/ h' = h1 /\ (rdRead r = inr Absent \/ seen (others between h) None)) /\
  (e <> None -> h' = h1).
Proof. exact termination_lemma. Qed.
Print Assumptions C93_announced.

(* C93: type, status and reason: a machine that is Failed is announced as
   unhealthy, any other as scaled down; while the machine terminates, the reason
   and message that are there stay. *)
Theorem C93_reason : forall phase now old,
  let c := terminationCondition phase now old in
  cType c = "Terminating" /\ cStatus c = "True" /\ cHeartbeat c = now /\
  (phase = "Failed" -> cReason c = "Unhealthy") /\
  (phase <> "Failed" -> phase <> "Terminating" -> cReason c = "ScaleDown") /\
  (phase = "Terminating" -> forall x, old = Some x -> cReason c = cReason x /\ cMessage c = cMessage x) /\
  (phase = "Terminating" -> old = None -> cReason c = "ScaleDown").
Proof.
  intros phase now old. cbv zeta. destruct (termination_fields phase now old) as [A B].
  split; [exact A|]. split; [exact B|]. unfold terminationCondition, terminationReason.
  split; [|split; [|split; [|split]]].
  - destruct old; [destruct (String.eqb phase "Terminating"); [reflexivity|]|]; destruct (String.eqb phase "Failed"); reflexivity.
  - intros ->. destruct old; reflexivity.
  - intros F T. destruct (String.eqb_spec phase "Failed"); [contradiction|].
    destruct (String.eqb_spec phase "Terminating"); [contradiction|]. destruct old; reflexivity.
  - intros -> x ->. split; reflexivity.
  - intros -> ->. reflexivity.
Qed.
Print Assumptions C93_reason.

(* C93: undisturbed, the announcement is made. *)
Theorem C93_undisturbed : forall phase now rounds h o, phase <> "" -> phase <> "CrashLoopBackOff" ->
  quiet rounds -> current h = Some o ->
  exists h' o', UpdateNodeTerminationCondition phase now None [] rounds h = (h', None) /\ current h' = Some o' /\
    conditioned (terminationCondition phase now (getNodeCondition (nConds o) "Terminating")) o o'.
Proof.
  intros phase now rounds h o P1 P2 Q C. unfold UpdateNodeTerminationCondition.
  destruct (String.eqb_spec phase ""); [contradiction|]. destruct (String.eqb_spec phase "CrashLoopBackOff"); [contradiction|].
  cbn [orb]. rewrite C. change (others [] h) with h.
  destruct (termination_fields phase now (getNodeCondition (nConds o) "Terminating")) as [T S].
  destruct (quiet_condition (terminationCondition phase now (getNodeCondition (nConds o) "Terminating")) rounds h o)
    as (h' & o' & E & C' & K); [rewrite T; discriminate|rewrite S; discriminate|exact Q|exact C|].
  rewrite E. exists h', o'. auto.
Qed.
Print Assumptions C93_undisturbed.

(* C93: while the machine terminates, the node keeps the reason and message that
   its condition of the type has already; without such a condition, whatever the
   others say, it is announced as scaled down. *)
Theorem C93_reason_kept : forall now rounds h o, quiet rounds -> current h = Some o ->
  exists h' o' c', UpdateNodeTerminationCondition "Terminating" now None [] rounds h = (h', None) /\
    current h' = Some o' /\ In c' (nConds o') /\ cType c' = "Terminating" /\
    (forall x, In x (nConds o) -> cType x = "Terminating" ->
       (forall y, In y (nConds o) -> cType y = "Terminating" -> y = x) ->
       cReason c' = cReason x /\ cMessage c' = cMessage x) /\
    ((forall x, In x (nConds o) -> cType x <> "Terminating") -> cReason c' = "ScaleDown").
Proof.
  intros now rounds h o Q C.
  destruct (C93_undisturbed "Terminating" now rounds h o) as (h' & o' & E & C' & _ & _ & c' & K1 & K2 & _ & K4 & K5 & _);
    [discriminate|discriminate|exact Q|exact C|].
  exists h', o', c'. split; [exact E|]. split; [exact C'|]. split; [rewrite K1; apply in_or_app; right; left; reflexivity|].
  destruct (C93_reason "Terminating" now (getNodeCondition (nConds o) "Terminating")) as (R1 & _ & _ & _ & _ & R5 & R6).
  split; [rewrite K2; exact R1|]. rewrite K4, K5. unfold getNodeCondition in *.
  destruct (find (fun c => String.eqb (cType c) "Terminating") (nConds o)) as [z|] eqn:F.
  - apply find_some in F. destruct F as (I & T). apply String.eqb_eq in T. split.
    + intros x X1 X2 U. rewrite <- (U z I T). apply R5; reflexivity.
    + intros N. destruct (N z I T).
  - split.
    + intros x X1 X2 _. pose proof (find_none _ _ F x X1) as G. cbn beta in G. rewrite X2 in G. discriminate G.
    + intros _. apply R6; reflexivity.
Qed.
Print Assumptions C93_reason_kept.

Example C93_reason_kept_case :
  let x := mkNCond "Terminating" "True" "Unhealthy" "it failed" 1 1 in
  let y := mkNCond "Ready" "True" "Terminating" "kubelet" 1 1 in
  option_map nConds (current (fst (UpdateNodeTerminationCondition "Terminating" 5 None []
    [mkRound (inl 0) [] None] [Some (mkNObj None [y; x] 0)])))
  = Some [y; mkNCond "Terminating" "True" "Unhealthy" "it failed" 5 1].
Proof. reflexivity. Qed.

Definition exReady : NCond := mkNCond "Ready" "True" "r" "m" 1 1.

Example C93_case :
  let h := [Some (mkNObj None [exReady] 7)] in
  let '(h1, e1) := UpdateNodeTerminationCondition "Failed" 5 None [] exQuiet h in
  e1 = None /\ current h1 = Some (mkNObj None [exReady;
    mkNCond "Terminating" "True" "Unhealthy" "Machine Controller is terminating failed machine" 5 5] 7) /\
  let '(h2, e2) := UpdateNodeTerminationCondition "Terminating" 9 None [] exQuiet h1 in
  e2 = None /\ current h2 = Some (mkNObj None [exReady;
    mkNCond "Terminating" "True" "Unhealthy" "Machine Controller is terminating failed machine" 9 5] 7).
Proof. vm_compute. repeat split; reflexivity. Qed.
Print Assumptions C93_case.

(* Finding.  Failed machines are not announced as unhealthy: in every history of
   a machine the announcement is made when the phase is Terminating already, so
   that a node without the condition gets the reason of a scale-down. *)
Theorem C93_unhealthy_refuted : forall cf now ops who m r,
  In (who, LifeModel.CNodeCond m, r) (LifeModel.w_log (LifeModel.run cf (LifeModel.init now) ops)) ->
  forall t, cReason (terminationCondition (MachModel.phase m) t None) = "ScaleDown".
Proof.
  intros cf now ops who m r I t. apply NodeRunProofs.cond_phase in I. rewrite I. reflexivity.
Qed.
Print Assumptions C93_unhealthy_refuted.

(* Such a history: a machine fails, is deleted, and its node is announced as
   scaled down. *)
Example C93_unhealthy_case :
  let ops := [LifeProps.create1; LifeModel.OAdvance; LifeModel.OTick 5000%Z] ++
    LifeProps.pass false [LifeModel.RBool false; LifeModel.RUnit; LifeModel.RUnit;
      LifeModel.PFail (CodesModel.errorText (CodesModel.mkStatus 13%N "broken")) None; LifeModel.RUnit; LifeModel.RUnit] ++
    [LifeModel.ODelete; LifeModel.OAdvance] ++ LifeProps.deletionForced in
  let w := LifeModel.run LifeProps.cf0 (LifeModel.init 1000%Z) ops in
  map (fun m => (MachModel.mo_uid m, MachModel.phase m)) (LifeModel.w_vers w) =
    [(1, "Terminating"); (1, "Terminating"); (1, "Terminating"); (1, "Terminating"); (1, "Failed"); (1, "Failed"); (1, "")] /\
  existsb (fun x => match x with
      | (LifeModel.QT, LifeModel.CNodeCond m, _) => String.eqb (MachModel.phase m) "Terminating"
      | _ => false end) (LifeModel.w_log w) = true.
Proof. split; vm_compute; reflexivity. Qed.
Print Assumptions C93_unhealthy_case.

(* Finding.  A node that goes away between the read and the update gives an
   error, although a missing node is meant to be none. *)
Theorem C93_vanished_refuted :
  UpdateNodeTerminationCondition "Terminating" 5 None [] [mkRound (inl 0) [fun _ => None] None] exNode =
    ([None; Some (mkNObj None [] 0)], Some Other).
Proof. reflexivity. Qed.
Print Assumptions C93_vanished_refuted.

(* C93: a machine that is not known yet or is being created anew is not announced. *)
Theorem C93_not_announced : forall phase now fail between rounds h, phase = "" \/ phase = "CrashLoopBackOff" ->
  UpdateNodeTerminationCondition phase now fail between rounds h = (h, None).
Proof. intros phase now fail between rounds h [-> | ->]; reflexivity. Qed.
Print Assumptions C93_not_announced.
