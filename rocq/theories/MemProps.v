(* C115, C116: the theorems. *)
Require Import List String Bool.
From Verif Require Import MemModel MemMcModel MemMcmModel MemSpec MemProofs MemRunProofs.
Import ListNotations.
Open Scope string_scope.

(* ------------------------------------------------------------------ C115 *)
(* Whatever the workers, handlers and the metrics collector of the machine
   controller do, in any interleaving and with any answers: what an informer
   has stored stays as it was stored. *)
Theorem C115_machine_cache : forall ms1 ms2 w1 tr1 w2 tr2,
  run mc_programs ms1 world0 = Some (w1, tr1) -> run mc_programs ms2 w1 = Some (w2, tr2) ->
  forall l n, in_cache w1 l n -> in_cache w2 l n.
Proof. exact mc_cache. Qed.
Print Assumptions C115_machine_cache.

(* ... and so does everything below it: a cached object points to cached memory
   only. *)
Theorem C115_machine_objects : forall ms w tr, run mc_programs ms world0 = Some (w, tr) ->
  forall l n f m, in_cache w l n -> In (f, VLoc m) n -> exists n', in_cache w m n'.
Proof. exact mc_objects. Qed.
Print Assumptions C115_machine_objects.

(* A worker writes what it has made itself, or the record of the safety
   options; with the lock held it writes the list of attachment workers. *)
Theorem C115_machine_writes : forall ms w tr, run mc_programs ms world0 = Some (w, tr) ->
  forall i l, (In (Wrote i l) tr -> l = 0 \/ exists n, nth_error (heap w) l = Some (Of i, n)) /\
              (In (Locked i l) tr -> l = 2).
Proof. exact mc_writes. Qed.
Print Assumptions C115_machine_writes.

(* A machine and a node with a map of labels in the cache; worker 0 takes the
   machine up to the label it puts on its own copy of the node. *)
Definition node_and_machine : list Node :=
  [ [("Meta.Name", VData 1)];
    [("Meta.Name", VData 2); ("Meta.Labels", VLoc 5)];
    [("zone", VData 7)] ].
Definition label_plan : list Plan :=
  [ Then (Inform node_and_machine); Then (Begin 0 0);
    Walk 0 [ Pick (VLoc 3); Path [3]; Path [3]; Path [3]; Pick VNil; Path []; Stop; Path [];
             Path [3]; Blk [[]] (VLoc 7) []; Blk [[("Meta.Name", VData 1)]] (VLoc 8) [3];
             Num "" 0; Path [8]; Path [3]; Left;
             Blk [[("Meta.Name", VData 1)]] (VLoc 9) [3]; Path [3]; Pick (VLoc 4); Left; Right; Path []; Right; Right;
             Path [3]; Pick (VLoc 4); Path [4];
             Blk [[("Meta.Name", VData 2); ("Meta.Labels", VLoc 11)]; [("zone", VData 7)]] (VLoc 10) [4; 5];
             Right; Num "node.gardener.cloud/machine-name" 1 ] ].
Definition label_moves : list Move := plan mc_programs label_plan world0.

Example C115_machine_case : exists w tr, run mc_programs label_moves world0 = Some (w, tr) /\
  in_cache w 4 [("Meta.Name", VData 2); ("Meta.Labels", VLoc 5)] /\
  in_cache w 5 [("zone", VData 7)] /\
  nth_error (heap w) 11 = Some (Of 0, [("node.gardener.cloud/machine-name", VData 1); ("zone", VData 7)]) /\
  In (Read 0 5) tr /\ In (Wrote 0 11) tr.
Proof.
  destruct (outcome mc_programs label_moves) as [[[[h tr] a] b]|] eqn:O; vm_compute in O; [|discriminate].
  destruct (outcome_run mc_programs label_moves h tr a b) as [w [R [H _]]].
  { vm_cast_no_check O. }
  exists w, tr. split; [exact R|]. unfold in_cache. rewrite H. inversion O; subst.
  split; [reflexivity|]. split; [reflexivity|]. split; [reflexivity|].
  split; simpl; tauto.
Qed.

(* The manager: any statement but the three of machineset_util.go:145, 190 and
   199 leaves the caches alone ... *)
Theorem C115_manager_cache : forall ms m w tr w' ev, run mcm_programs ms world0 = Some (w, tr) ->
  move mcm_programs m w = Some (w', ev) -> ~ copies_template w m ->
  forall l n, in_cache w l n -> in_cache w' l n.
Proof. exact mcm_cache. Qed.
Print Assumptions C115_manager_cache.

(* ... and a cached object keeps all its fields but the three these are
   about. *)
Theorem C115_manager_fields : forall ms1 ms2 w1 tr1 w2 tr2,
  run mcm_programs ms1 world0 = Some (w1, tr1) -> run mcm_programs ms2 w1 = Some (w2, tr2) ->
  forall l n, in_cache w1 l n ->
  exists n', in_cache w2 l n' /\ forall f, template_field f = false -> look n' f = look n f.
Proof. exact mcm_fields. Qed.
Print Assumptions C115_manager_fields.

(* A machine in the cache, its MachineSet from the API with other labels for
   the node: worker 0 is about to copy them. *)
Definition cached_machine : Node :=
  [("Meta.Name", VData 1); ("Spec.Class.Kind", VData 1); ("Spec.NodeTemplateSpec.Labels", VData 4)].
Definition its_set : Node :=
  [("Spec.Template.Spec.NodeTemplateSpec.Labels", VData 5); ("Spec.Template.Spec.Class.Kind", VData 2)].
Definition copy_plan : list Plan :=
  [ Then (Inform [cached_machine]); Then (Begin 0 0);
    Walk 0 [ Blk [its_set] (VLoc 4) []; Path [4]; Path []; Right; Again; Pick (VLoc 3); InPlace; Stop;
             Again; Pick (VLoc 3); Path [3]; Path [4]; Right; InPlace; Stop;
             Again; Pick (VLoc 3); Path [3]; Blk [its_set] (VLoc 8) [4]; Blk [cached_machine] (VLoc 9) [3];
             Path [8]; Path [9]; Left ];
    Then (Work 0 Go);
    Then (Begin 1 3); Walk 1 [Pick (VLoc 3); Pick VNil]; Then (Work 1 Go) ].
Definition copy_moves : list Move := plan mcm_programs copy_plan world0.

Example C115_manager_case : exists w tr w' ev, run mcm_programs copy_moves world0 = Some (w, tr) /\
  in_cache w 3 cached_machine /\ copies_template w (Work 0 Go) /\
  run mcm_programs [Work 0 Go] w = Some (w', ev) /\
  in_cache w' 3 [("Spec.NodeTemplateSpec.Labels", VData 5); ("Meta.Name", VData 1); ("Spec.Class.Kind", VData 1)] /\
  ~ copies_template w (Work 1 (Path [3])).
Proof.
  destruct (outcome mcm_programs copy_moves) as [[[[h tr] a] b]|] eqn:O; vm_compute in O; [|discriminate].
  destruct (outcome_run mcm_programs copy_moves h tr a b) as [w [R [H [A B]]]].
  { vm_cast_no_check O. }
  destruct (outcome mcm_programs (copy_moves ++ [Work 0 Go])) as [[[[h' tr'] a'] b']|] eqn:O'; vm_compute in O'; [|discriminate].
  destruct (outcome_run mcm_programs (copy_moves ++ [Work 0 Go]) h' tr' a' b') as [w' [R' [H' _]]].
  { vm_cast_no_check O'. }
  destruct (run_app _ _ _ _ _ _ R') as [w1 [t1 [t2 [R1 [R2 _]]]]].
  assert (E : w1 = w) by (rewrite R in R1; inversion R1; auto). subst w1.
  exists w, tr, w', t2.
  injection O as O1 O2 O3 O4. rewrite <- O3 in A. rewrite <- O4 in B.
  split; [exact R|]. split; [unfold in_cache; rewrite H, <- O1; reflexivity|].
  split.
  - eapply ahead_copies; [exact A|reflexivity].
  - split; [exact R2|]. split; [unfold in_cache; rewrite H'; injection O' as O5; rewrite <- O5; reflexivity|].
    intros C. apply (proj1 (ahead_copies _ _ _ _ B)) in C. discriminate C.
Qed.

(* So the manager does change what its informers have stored. *)
Theorem C115_manager_refuted : ~ (forall ms1 ms2 w1 tr1 w2 tr2,
  run mcm_programs ms1 world0 = Some (w1, tr1) -> run mcm_programs ms2 w1 = Some (w2, tr2) ->
  forall l n, in_cache w1 l n -> in_cache w2 l n).
Proof.
  intros H.
  destruct C115_manager_case as [w [tr [w' [ev [R [N [_ [M [N' _]]]]]]]]].
  specialize (H _ _ _ _ _ _ R M _ _ N). unfold in_cache, cached_machine in *. congruence.
Qed.
Print Assumptions C115_manager_refuted.

(* ------------------------------------------------------------------ C116 *)
(* The machine controller: memory one worker writes is not touched by another
   one, except for the record of the safety options. *)
Theorem C116_machine_race : forall ms w tr, run mc_programs ms world0 = Some (w, tr) ->
  forall i j l, i <> j -> In (Wrote i l) tr -> touches tr j l -> l = 0.
Proof. exact mc_race. Qed.
Print Assumptions C116_machine_race.

(* What is written with the lock held is never written without. *)
Theorem C116_machine_locks : forall ms w tr, run mc_programs ms world0 = Some (w, tr) ->
  forall i l, In (Locked i l) tr -> l = 2 /\ forall j, ~ In (Wrote j l) tr.
Proof. intros ms w tr R. exact (locks _ _ _ _ _ _ _ mc_checked R). Qed.
Print Assumptions C116_machine_locks.

(* The safety worker is about to write the record (machine_safety.go:113), a machine worker
   is about to read it (machine.go:175). *)
Definition frozen_plan : list Plan :=
  [ Then (Inform [[("Meta.Name", VData 1)]]); Then (Begin 1 0); Walk 1 [Pick (VLoc 3); Path [3]];
    Then (Work 1 Go); Then (Work 1 Go); Then (Work 1 Go); Then (Work 1 Go);
    Then (Begin 0 6); Walk 0 [Right; Left; Num "" 1]; Then (Work 1 Go) ].
Definition frozen_moves : list Move := plan mc_programs frozen_plan world0.
Theorem C116_frozen_refuted :
  ~ (forall ms w tr, run mc_programs ms world0 = Some (w, tr) -> forall i j l, ~ clash tr i j l).
Proof.
  intros H.
  destruct (outcome mc_programs frozen_moves) as [[[[h tr] a] b]|] eqn:O; vm_compute in O; [|discriminate].
  destruct (outcome_run mc_programs frozen_moves h tr a b) as [w [R _]].
  { vm_cast_no_check O. }
  apply (H _ _ _ R 0 1 0). split; [discriminate|].
  exists (firstn (List.length tr - 2) tr), []. inversion O; subst. reflexivity.
Qed.
Print Assumptions C116_frozen_refuted.

(* A drain registers its worker (volume_attachment.go:80-87, lock held) while the
   handler of volume attachments reads the list (line 31, not held). *)
Definition attachment_plan : list Plan :=
  let s := Path [] in let n := Num "" 0 in
  [ Then (Inform [[("Meta.Name", VData 1)]; [("Meta.Name", VData 2)]; [("Meta.Name", VData 3)]]);
    Then (Begin 1 9); Then (Work 1 Go); Then (Work 1 Go); Then (Work 1 Go); Then (Begin 0 1);
    Walk 0 [ Pick (VLoc 3); s; s; Pick (VLoc 4); s; Stop; s; n; n; n; n; s; Right; Right; Left;
             s; Pick (VLoc 3); s; Left; s; Blk [] VNil []; s; Stop;
             Blk [[]] (VLoc 9) []; Blk [[]] (VLoc 10) [9]; n; s;
             Again; Pick (VLoc 5); InPlace; Stop; Again; Pick (VLoc 5); s; InPlace; Stop;
             Again; Pick (VLoc 13); s; Left; InPlace; Stop; Stop; Blk [] VNil []; Stop; Stop;
             Blk [] VNil []; Stop; Again; Again; Pick (VLoc 13); n ];
    Then (Work 1 Go) ].
Definition attachment_moves : list Move := plan mc_programs attachment_plan world0.
Theorem C116_attachment_refuted :
  ~ (forall ms w tr, run mc_programs ms world0 = Some (w, tr) -> forall i j l, ~ clash_locked tr i j l).
Proof.
  intros H.
  destruct (outcome mc_programs attachment_moves) as [[[[h tr] a] b]|] eqn:O; vm_compute in O; [|discriminate].
  destruct (outcome_run mc_programs attachment_moves h tr a b) as [w [R _]].
  { vm_cast_no_check O. }
  apply (H _ _ _ R 0 1 2). split; [discriminate|].
  exists (firstn (List.length tr - 2) tr), []. inversion O; subst. reflexivity.
Qed.
Print Assumptions C116_attachment_refuted.

(* The manager: memory written by any but the three statements is not touched
   by another worker, before or after. *)
Theorem C116_manager_race : forall ms1 m ms2 w1 tr1 w2 ev w tr,
  run mcm_programs ms1 world0 = Some (w1, tr1) ->
  move mcm_programs m w1 = Some (w2, ev) -> run mcm_programs ms2 w2 = Some (w, tr) ->
  ~ copies_template w1 m ->
  forall i j l, i <> j -> In (Wrote i l) ev -> ~ touches (tr1 ++ ev ++ tr)%list j l.
Proof. exact mcm_race. Qed.
Print Assumptions C116_manager_race.

(* The three statements do race: a handler reads the cached machine the
   MachineSet worker writes. *)
Theorem C116_manager_refuted :
  ~ (forall ms w tr, run mcm_programs ms world0 = Some (w, tr) -> forall i j l, ~ clash tr i j l).
Proof.
  intros H.
  destruct (outcome mcm_programs (copy_moves ++ [Work 0 Go; Work 1 (Path [3])])) as [[[[h tr] a] b]|] eqn:O; vm_compute in O; [|discriminate].
  destruct (outcome_run mcm_programs (copy_moves ++ [Work 0 Go; Work 1 (Path [3])]) h tr a b) as [w [R _]].
  { vm_cast_no_check O. }
  apply (H _ _ _ R 0 1 3). split; [discriminate|].
  exists (firstn (List.length tr - 2) tr), []. inversion O; subst. reflexivity.
Qed.
Print Assumptions C116_manager_refuted.

(* Two workers of the machine controller at work on the same cached machine:
   both read it, each writes its own copy. *)
Definition two_plan : list Plan :=
  [ Then (Inform [[("Meta.Name", VData 1)]]); Then (Begin 0 0); Then (Begin 1 0);
    Walk 0 [Pick (VLoc 3); Path [3]; Path [3]; Path [3]; Pick VNil; Path []; Stop; Path []; Path [3];
            Blk [] VNil []; Blk [[]] (VLoc 5) [3]; Num "" 0];
    Walk 1 [Pick (VLoc 3); Path [3]; Path [3]; Path [3]; Pick VNil; Path []; Stop; Path []; Path [3];
            Blk [] VNil []; Blk [[]] (VLoc 7) [3]; Num "" 0] ].
Example C116_machine_case : exists w tr, run mc_programs (plan mc_programs two_plan world0) world0 = Some (w, tr) /\
  In (Wrote 0 5) tr /\ In (Wrote 1 7) tr /\ touches tr 0 3 /\ touches tr 1 3 /\ ~ touches tr 1 5.
Proof.
  destruct (outcome mc_programs (plan mc_programs two_plan world0)) as [[[[h tr] a] b]|] eqn:O; vm_compute in O; [|discriminate].
  destruct (outcome_run mc_programs (plan mc_programs two_plan world0) h tr a b) as [w [R _]].
  { vm_cast_no_check O. }
  exists w, tr. split; [exact R|]. inversion O; subst.
  split; [simpl; tauto|]. split; [simpl; tauto|].
  split; [left; simpl; tauto|]. split; [left; simpl; tauto|].
  unfold touches. simpl. intuition discriminate.
Qed.
