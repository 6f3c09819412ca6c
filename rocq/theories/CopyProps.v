(** What a MachineSet takes over from its MachineDeployment, and what a rollback takes back (C85 to C87). *)
Require Import Coq.ZArith.ZArith Coq.Lists.List Coq.Strings.String Coq.Bool.Bool Coq.micromega.Lia.
From Verif Require RevisionModel.
From Verif Require Import MetaModel MetaSpec MetaProofs TmplModel CopyModel CopySpec CopyProofs.
Import ListNotations.
Open Scope string_scope.
Open Scope list_scope.
Open Scope Z_scope.

(** A small template: node template, configuration and class kind are given. *)
Definition tmpl (node conf kind : string) : Template := mkT [] [] "" "" kind "class" "" node conf.

(** C85. After a pass whose update (if any) goes through, the MachineSet of the current template
    has the node template, the machine configuration, the class kind and the minReadySeconds of
    the MachineDeployment and each of its annotations, except the ones each object has for itself.
    Nothing else of the set is touched. Partial: the revision of the set must be readable, the
    value of an annotation not empty, and annotations removed from the deployment stay. *)
Theorem C85_follows_partial : forall d maxOld is,
  isMap (c_annots d) -> goodRevision (c_annots is) ->
  let is' := stored d maxOld true is in
  sameSettings d is' /\
  (forall k v, shared k -> get k (c_annots d) = Some v -> v <> "" -> get k (c_annots is') = Some v).
Proof.
  intros d m is M G. destruct (stored_is d m is M G) as (a3 & E1 & E2 & E3 & E4 & _).
  destruct (tmpl3_spec (c_tmpl d) (c_tmpl is)) as (T1 & T2 & T3 & _). cbn zeta. split.
  - unfold sameSettings. rewrite E3. auto.
  - intros k v S Gk N. rewrite E1. destruct (shared_ne k S) as (N1 & N2). rewrite E2, copy_get by assumption.
    apply skip_false in S. rewrite S, Gk. destruct (String.eqb_spec (at_ k (c_annots is)) v) as [E | E]; [|reflexivity].
    unfold at_ in E. destruct (get k (c_annots is)); congruence.
Qed.
Print Assumptions C85_follows_partial.

(** The annotations each object has for itself are left alone (the revision and its history
    aside), so are those the deployment does not have, and the remaining template — whether or
    not the update goes through, and whatever the revision is. *)
Theorem C85_nothing_else : forall d maxOld ok is,
  isMap (c_annots d) ->
  let is' := stored d maxOld ok is in
  sameRest (c_tmpl is') (c_tmpl is) /\
  (forall k, In k ownKeys -> k <> revisionKey -> k <> historyKey -> get k (c_annots is') = get k (c_annots is)) /\
  (forall k, shared k -> get k (c_annots d) = None -> get k (c_annots is') = get k (c_annots is)).
Proof.
  intros d m ok is M. destruct (takeOver_spec d m is) as (a3 & E & O & _). unfold stored. rewrite E.
  destruct (snd (takeOver d m is) && ok); cbn zeta; cbn [c_annots c_tmpl].
  - destruct (tmpl3_spec (c_tmpl d) (c_tmpl is)) as (_ & _ & _ & R). split; [exact R|]. split.
    + intros k I N1 N2. rewrite O, copy_get by assumption. apply skip_spec in I. rewrite I. reflexivity.
    + intros k S Gk. destruct (shared_ne k S) as (N1 & N2). rewrite O, copy_get by assumption. rewrite Gk. destruct (skipCopyAnnotation k); reflexivity.
  - split; [unfold sameRest; auto 8|]. auto.
Qed.
Print Assumptions C85_nothing_else.

(** If the update fails, the set is as before. *)
Theorem C85_failed : forall d maxOld is, stored d maxOld false is = is.
Proof. intros d m is. unfold stored. destruct (takeOver d m is) as (i, w). rewrite andb_false_r. reflexivity. Qed.
Print Assumptions C85_failed.

(** A set to be created has the annotations of the deployment (own and empty ones aside), the
    next revision, both replica counts, and no others.
    Partial: readable revisions and non-empty values (C85_follows_refuted). *)
Theorem C85_created_partial : forall d maxOld desired max,
  isMap (c_annots d) -> 0 <= maxOld < 9223372036854775807 ->
  let a := firstAnnotations d maxOld desired max in
  (forall k v, shared k -> get k (c_annots d) = Some v -> v <> "" -> get k a = Some v) /\
  (forall k, shared k -> get k (c_annots d) = None -> get k a = None) /\
  get "deployment.kubernetes.io/revision" a = Some (FormatInt (maxOld + 1)) /\
  get "deployment.kubernetes.io/desired-replicas" a = Some (FormatInt desired) /\
  get "deployment.kubernetes.io/max-replicas" a = Some (FormatInt max) /\
  (forall k, In k ownKeys -> k <> "deployment.kubernetes.io/revision" -> k <> "deployment.kubernetes.io/desired-replicas" ->
     k <> "deployment.kubernetes.io/max-replicas" -> get k a = None).
Proof.
  intros d m ds mx M R. cbv zeta.
  destruct (copyAnnotations (c_annots d) []) as (a0, ch) eqn:CA.
  assert (A0 : forall k, get k a0 = if skipCopyAnnotation k then None
      else match get k (c_annots d) with None => None | Some v => if String.eqb "" v then None else Some v end).
  { intros k. pose proof (copy_get (c_annots d) [] k M) as H. rewrite CA in H. exact H. }
  assert (W : RevisionModel.wrap64 (m + 1) = m + 1).
  { unfold RevisionModel.wrap64. rewrite Z.mod_small by lia. lia. }
  assert (RA : get "deployment.kubernetes.io/revision" a0 = None) by (rewrite A0; reflexivity).
  assert (F : firstAnnotations d m ds mx = fst (SetReplicasAnnotations ds mx (put "deployment.kubernetes.io/revision" (FormatInt (m + 1)) a0))).
  { unfold firstAnnotations. rewrite CA, W. unfold setRevision. unfold at_ at 1 2. rewrite RA. change (ParseInt "") with (@None Z).
    change (String.eqb "" "") with true. cbv iota. rewrite parse_format by (unfold InRange; lia).
    replace (0 <? m + 1) with true by (symmetry; apply Z.ltb_lt; lia). cbn [andb]. cbv iota.
    destruct (SetReplicasAnnotations ds mx _) as (x, y). reflexivity. }
  rewrite F. clear F.
  pose proof (setReplicas_spec ds mx (put "deployment.kubernetes.io/revision" (FormatInt (m + 1)) a0)) as S.
  destruct (SetReplicasAnnotations ds mx (put "deployment.kubernetes.io/revision" (FormatInt (m + 1)) a0)) as (a3, c). cbn [fst] in *.
  destruct S as (S1 & S2 & S3).
  assert (NE : forall z, FormatInt z <> "").
  { intros z E. unfold FormatInt in E. destruct (to_int_not_nil z) as (X & Y). destruct (Z.to_int z) as [u | u]; destruct u; cbn in E; congruence. }
  assert (AT : forall k z, at_ k a3 = FormatInt z -> get k a3 = Some (FormatInt z)).
  { intros k z E. unfold at_ in E. destruct (get k a3); [congruence|]. symmetry in E. contradiction (NE _ E). }
  assert (SH : forall k, shared k -> get k a3 = get k a0).
  { intros k Sk. rewrite S3; [rewrite get_put; destruct (String.eqb_spec k "deployment.kubernetes.io/revision") as [-> | _]; [|reflexivity] | |].
    - contradiction Sk. cbn. auto 10.
    - intros ->. apply Sk. cbn. auto 10.
    - intros ->. apply Sk. cbn. auto 10. }
  split; [|split; [|split; [|split; [|split]]]].
  - intros k v Sk G N. rewrite SH, A0, G by exact Sk. apply skip_false in Sk. rewrite Sk.
    destruct (String.eqb_spec "" v); [congruence | reflexivity].
  - intros k Sk G. rewrite SH, A0, G by exact Sk. destruct (skipCopyAnnotation k); reflexivity.
  - rewrite S3 by discriminate. rewrite get_put. reflexivity.
  - apply AT, S1.
  - apply AT, S2.
  - intros k I N1 N2 N3. rewrite S3 by assumption. rewrite get_put. apply String.eqb_neq in N1. rewrite N1. rewrite A0.
    apply skip_spec in I. rewrite I. reflexivity.
Qed.
Print Assumptions C85_created_partial.

(** The revision shown by the deployment becomes that of the set; nothing else is changed, and
    nothing is written if it is shown already. *)
Theorem C85_revision_shown : forall r d,
  (r <> "" -> get revisionKey (fst (SetMachineDeploymentRevision r d)) = Some r) /\
  (forall k, k <> revisionKey -> get k (fst (SetMachineDeploymentRevision r d)) = get k d) /\
  (get revisionKey d = Some r -> SetMachineDeploymentRevision r d = (d, false)).
Proof.
  intros r d. unfold SetMachineDeploymentRevision, at_. change revisionKey with "deployment.kubernetes.io/revision".
  destruct (get "deployment.kubernetes.io/revision" d) as [v|] eqn:G.
  - destruct (String.eqb_spec v r) as [-> | N]; cbn [fst].
    + repeat split; auto.
    + rewrite get_put. split; [reflexivity|]. split; [|congruence]. intros k Nk. rewrite get_put. apply String.eqb_neq in Nk. rewrite Nk. reflexivity.
  - destruct (String.eqb_spec "" r) as [<- | N]; cbn [fst].
    + repeat split; congruence.
    + rewrite get_put. split; [reflexivity|]. split; [|discriminate]. intros k Nk. rewrite get_put. apply String.eqb_neq in Nk. rewrite Nk. reflexivity.
Qed.
Print Assumptions C85_revision_shown.

(** A deployment with a changed node template, configuration, kind, readiness time and an edited
    annotation; the set is at revision 2 and was at 1. *)
Example C85_case :
  let d := mkC [("note", "b"); ("deployment.kubernetes.io/revision", "2"); ("deployment.kubernetes.io/desired-replicas", "9")] 30 (tmpl "cpu=4" "drain=5m" "MachineClass") in
  let is := mkC [("note", "a"); ("mine", "x"); ("deployment.kubernetes.io/revision", "2"); ("deployment.kubernetes.io/desired-replicas", "3")] 10 (tmpl "cpu=2" "drain=2h" "AWSMachineClass") in
  isMap (c_annots d) /\ goodRevision (c_annots is) /\
  c_tmpl (stored d 1 true is) = tmpl "cpu=4" "drain=5m" "MachineClass" /\ c_min (stored d 1 true is) = 30 /\
  map (fun k => get k (c_annots (stored d 1 true is))) ["note"; "mine"; "deployment.kubernetes.io/revision"; "deployment.kubernetes.io/desired-replicas"] =
    [Some "b"; Some "x"; Some "2"; Some "3"].
Proof.
  cbn zeta. split; [repeat constructor; cbn; intuition congruence|]. split; [right; exists 2; reflexivity|]. repeat split.
Qed.
Example C85_created_case :
  let d := mkC [("note", "b"); ("empty", ""); ("deployment.kubernetes.io/revision", "2")] 30 (tmpl "" "" "MachineClass") in
  map (fun k => get k (firstAnnotations d 2 5 6)) ["note"; "empty"; "deployment.kubernetes.io/revision"; "deployment.kubernetes.io/desired-replicas"; "deployment.kubernetes.io/max-replicas"; "deployment.kubernetes.io/revision-history"] =
    [Some "b"; None; Some "3"; Some "5"; Some "6"; None].
Proof. reflexivity. Qed.
(** C85: recording the sizes. Both numbers can be read from the set afterwards, no other
    annotation is touched, and a change is reported exactly if there is one; so recording the
    same sizes again changes and reports nothing. *)
Theorem C85_sizes_recorded : forall desired max a, InRange desired -> InRange max ->
  let (a', changed) := SetReplicasAnnotations desired max a in
  ParseInt (at_ "deployment.kubernetes.io/desired-replicas" a') = Some desired /\
  ParseInt (at_ "deployment.kubernetes.io/max-replicas" a') = Some max /\
  (forall k, k <> "deployment.kubernetes.io/desired-replicas" -> k <> "deployment.kubernetes.io/max-replicas" -> get k a' = get k a) /\
  (changed = false -> a' = a) /\ (changed = true -> a' <> a) /\
  SetReplicasAnnotations desired max a' = (a', false).
Proof.
  intros ds mx a R1 R2. pose proof (setReplicas_spec ds mx a) as (A & B & C).
  destruct (SetReplicasAnnotations ds mx a) as (a', ch) eqn:S. cbn [fst] in *.
  split; [change "deployment.kubernetes.io/desired-replicas" with DesiredReplicasAnnotation; rewrite A; apply parse_format, R1|].
  split; [change "deployment.kubernetes.io/max-replicas" with MaxReplicasAnnotation; rewrite B; apply parse_format, R2|].
  split; [exact C|].
  assert (Q : SetReplicasAnnotations ds mx a' = (a', false)) by (unfold SetReplicasAnnotations; rewrite A, String.eqb_refl, B, String.eqb_refl; reflexivity).
  split; [|split; [|exact Q]].
  - intros ->. unfold SetReplicasAnnotations in S. destruct (String.eqb _ _) in S.
    + destruct (String.eqb _ _) in S; [congruence|discriminate].
    + destruct (String.eqb _ _) in S; discriminate.
  - intros -> ->. rewrite Q in S. discriminate.
Qed.
Print Assumptions C85_sizes_recorded.

Example C85_sizes_case : InRange 10 /\ InRange 13 /\
  SetReplicasAnnotations 10 13 [("deployment.kubernetes.io/desired-replicas", "9"); ("a", "b")] =
  ([("deployment.kubernetes.io/max-replicas", "13"); ("deployment.kubernetes.io/desired-replicas", "10"); ("a", "b")], true).
Proof. unfold InRange. split; [lia|]. split; [lia|]. vm_compute. reflexivity. Qed.

Example C85_revision_case : SetMachineDeploymentRevision "3" [("deployment.kubernetes.io/revision", "2"); ("a", "b")] = ([("deployment.kubernetes.io/revision", "3"); ("a", "b")], true).
Proof. reflexivity. Qed.

(** Without the restrictions the claim fails. (1) With an unreadable revision on the set, a new
    node template never reaches it. (2) An annotation with an empty value never reaches a set
    that lacks it. (3) An annotation removed from the deployment stays on the set. *)
Theorem C85_follows_refuted :
  (exists d is, forall maxOld ok, t_node (c_tmpl d) <> t_node (c_tmpl is) /\ stored d maxOld ok is = is) /\
  (exists d is k, shared k /\ goodRevision (c_annots is) /\ get k (c_annots d) = Some "" /\
     forall maxOld ok, get k (c_annots (stored d maxOld ok is)) = None) /\
  (exists d is k, shared k /\ goodRevision (c_annots is) /\ get k (c_annots d) = None /\
     forall maxOld ok, get k (c_annots (stored d maxOld ok is)) = Some "old").
Proof.
  split; [|split].
  - exists (mkC [] 0 (tmpl "cpu=4" "" "")), (mkC [("deployment.kubernetes.io/revision", "two")] 0 (tmpl "cpu=2" "" "")).
    intros m ok. split; [discriminate|]. reflexivity.
  - exists (mkC [("note", "")] 0 (tmpl "" "" "")), (mkC [("deployment.kubernetes.io/revision", "1")] 0 (tmpl "" "" "")), "note".
    split; [intros H; cbn in H; intuition congruence|]. split; [right; exists 1; reflexivity|]. split; [reflexivity|].
    intros m ok. destruct (takeOver_spec (mkC [("note", "")] 0 (tmpl "" "" "")) m (mkC [("deployment.kubernetes.io/revision", "1")] 0 (tmpl "" "" ""))) as (a3 & E & O & _).
    unfold stored. rewrite E. destruct (snd _ && ok); cbn [c_annots]; [|reflexivity]. rewrite O by discriminate. reflexivity.
  - exists (mkC [] 0 (tmpl "" "" "")), (mkC [("note", "old"); ("deployment.kubernetes.io/revision", "1")] 0 (tmpl "" "" "")), "note".
    split; [intros H; cbn in H; intuition congruence|]. split; [right; exists 1; reflexivity|]. split; [reflexivity|].
    intros m ok. destruct (takeOver_spec (mkC [] 0 (tmpl "" "" "")) m (mkC [("note", "old"); ("deployment.kubernetes.io/revision", "1")] 0 (tmpl "" "" ""))) as (a3 & E & O & _).
    unfold stored. rewrite E. destruct (snd _ && ok); cbn [c_annots]; [|reflexivity]. rewrite O by discriminate. reflexivity.
Qed.
Print Assumptions C85_follows_refuted.

(** C86. After a pass whose update went through, the next pass over the same deployment and old
    sets writes nothing: the copying does not keep the controller busy, nor the history growing. *)
Theorem C86_quiet : forall d maxOld is,
  isMap (c_annots d) ->
  snd (takeOver d maxOld (stored d maxOld true is)) = false /\
  stored d maxOld true (stored d maxOld true is) = stored d maxOld true is.
Proof.
  intros d m is M. pose proof (quiet_lemma d m is M) as Q. split; [exact Q|].
  unfold stored at 1. destruct (takeOver d m (stored d m true is)) as (x, w). cbn [snd] in Q. rewrite Q. reflexivity.
Qed.
Print Assumptions C86_quiet.
Example C86_case :
  let d := mkC [("note", "b"); ("empty", "")] 30 (tmpl "cpu=4" "" "") in
  let is := mkC [("deployment.kubernetes.io/revision", "1")] 10 (tmpl "cpu=2" "" "") in
  snd (takeOver d 3 is) = true /\ snd (takeOver d 3 (stored d 3 true is)) = false /\
  get "deployment.kubernetes.io/revision" (c_annots (stored d 3 true is)) = Some "4".
Proof. repeat split. Qed.

(** The history of a set only grows, and a revision that is left is noted in it: the entries of
    the history stay and the revision comes right after them. A history that starts with a comma
    counts as none and is out of view. *)
Theorem C86_history : forall d maxOld ok is,
  isMap (c_annots d) -> (forall r, get historyKey (c_annots is) <> Some ("," ++ r)%string) ->
  let text a := match get historyKey a with Some h => h | None => "" end in
  let h := text (c_annots is) in
  let h' := text (c_annots (stored d maxOld ok is)) in
  (exists t, h' = (h ++ t)%string) /\
  (forall r, get revisionKey (c_annots is) = Some r -> get revisionKey (c_annots (stored d maxOld ok is)) <> Some r ->
     exists t, h' = ((if String.eqb h "" then r else h ++ "," ++ r) ++ t)%string).
Proof.
  intros d m ok is M C text h h'. unfold h', h, text. unfold stored.
  pose proof (takeOver_hist d m is M) as T. destruct (takeOver d m is) as (x, w). cbn [fst] in T.
  destruct (w && ok).
  - apply T. intros r E. unfold at_ in E. destruct (get historyKey (c_annots is)) as [v|] eqn:G; [|discriminate]. subst v. contradiction (C r). reflexivity.
  - split; [exists ""; symmetry; apply append_nil|]. intros r G N. contradiction (N G).
Qed.
Print Assumptions C86_history.
Example C86_history_case :
  let d := mkC [] 30 (tmpl "cpu=4" "" "") in
  let is := mkC [("deployment.kubernetes.io/revision", "3"); ("deployment.kubernetes.io/revision-history", "1")] 30 (tmpl "cpu=4" "" "") in
  get historyKey (c_annots (stored d 7 true is)) = Some "1,3" /\ get revisionKey (c_annots (stored d 7 true is)) = Some "8".
Proof. split; reflexivity. Qed.

(** But not every entry is a revision the set has left: one pass that copies an annotation, a
    node template and a configuration notes the current revision three times. *)
Theorem C86_history_refuted : exists d is,
  get revisionKey (c_annots is) = Some "2" /\ get revisionKey (c_annots (stored d 1 true is)) = Some "2" /\
  get historyKey (c_annots is) = None /\ get historyKey (c_annots (stored d 1 true is)) = Some "2,2,2".
Proof.
  exists (mkC [("note", "b")] 30 (tmpl "cpu=4" "drain=5m" "")), (mkC [("deployment.kubernetes.io/revision", "2")] 30 (tmpl "cpu=2" "" "")).
  repeat split.
Qed.
Print Assumptions C86_history_refuted.

(** C87. A rollback gives the deployment the annotations of the set it goes back to, and lets it
    keep the ones each object has for itself. *)
Theorem C87_rollback : forall d is k,
  isMap is ->
  (In k ownKeys -> get k (SetMachineDeploymentAnnotationsTo d is) = get k d) /\
  (shared k -> get k (SetMachineDeploymentAnnotationsTo d is) = get k is).
Proof.
  intros d is k M. rewrite rollback_get by exact M. split.
  - intros I. apply skip_spec in I. rewrite I. reflexivity.
  - intros S. apply skip_false in S. rewrite S. reflexivity.
Qed.
Print Assumptions C87_rollback.

(** So the pass after the rollback copies no annotation onto that set. *)
Theorem C87_no_copy : forall d is,
  isMap d -> isMap is -> copyAnnotations (SetMachineDeploymentAnnotationsTo d is) is = (is, false).
Proof.
  intros d is Md M. apply copy_quiet. intros k v I S. unfold at_. apply (In_get k v _ (rollback_map is d Md)) in I.
  rewrite rollback_get in I by exact M. apply skip_false in S. rewrite S in I. rewrite I. reflexivity.
Qed.
Print Assumptions C87_no_copy.
Example C87_case :
  let d := [("cause", "edit"); ("deployment.kubernetes.io/revision", "2"); ("new", "x")] in
  let is := [("cause", "create"); ("deployment.kubernetes.io/revision", "1")] in
  isMap d /\ isMap is /\
  map (fun k => get k (SetMachineDeploymentAnnotationsTo d is)) ["cause"; "deployment.kubernetes.io/revision"; "new"] = [Some "create"; Some "2"; None].
Proof. cbn zeta. split; [|split]; [repeat constructor; cbn; intuition congruence.. | reflexivity]. Qed.

(** Requests written on the deployment as annotations do not survive a rollback: the list of the
    machines to be deleted first is lost, and a list that was worked off long ago comes back with
    the set. *)
Theorem C87_requests_refuted :
  let key := "node.machine.sapcloud.io/trigger-deletion-by-mcm" in
  (exists d is, isMap d /\ isMap is /\ get key d = Some "machine-7" /\ get key (SetMachineDeploymentAnnotationsTo d is) = None) /\
  (exists d is, isMap d /\ isMap is /\ get key d = None /\ get key (SetMachineDeploymentAnnotationsTo d is) = Some "machine-1").
Proof.
  cbn zeta. split.
  - exists [("node.machine.sapcloud.io/trigger-deletion-by-mcm", "machine-7")], []. repeat split; repeat constructor; cbn; auto.
  - exists [], [("node.machine.sapcloud.io/trigger-deletion-by-mcm", "machine-1")]. repeat split; repeat constructor; cbn; auto.
Qed.
Print Assumptions C87_requests_refuted.
