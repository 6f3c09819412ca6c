(* C32: copying a machine's node template to its node. *)
Require Import List String Bool Arith.
From Verif Require Import MetaModel MetaSpec MetaProofs.
Import ListNotations.
Open Scope string_scope.
Open Scope list_scope.

(* C32, first half.  For every template, node and readable record: after a sync
   whose write (if any) is accepted, every entry of the template is on the node,
   every recorded entry that the template dropped is gone, everything else is as
   it was; the record's own key is the only exception.
   Partial: the template must not use the record's key, must not hold two taints
   with one key and effect, and the record must be readable. *)
Theorem C32_in_line_partial : forall enc dec tp n last,
  goodTemplate tp -> goodNode n -> recorded dec n last ->
  inLine tp last n (after (syncNode enc dec tp n) n) /\
  goodNode (after (syncNode enc dec tp n) n).
Proof. exact syncNode_inLine. Qed.
Print Assumptions C32_in_line_partial.

(* C32, second half: a second sync writes nothing, provided that what was
   written reads back as the same template.
   Partial: in addition no taint of the template has TimeAdded set. *)
Theorem C32_second_writes_nothing_partial : forall enc dec tp n last,
  dec (enc tp) = Some tp ->
  goodTemplate tp -> goodNode n -> recorded dec n last ->
  (forall t, In t (tpTaints tp) -> tTime t = None) ->
  syncNode enc dec tp (after (syncNode enc dec tp n) n) = NoWrite.
Proof. exact syncNode_twice. Qed.
Print Assumptions C32_second_writes_nothing_partial.

(* A concrete run: "a" was applied before and is dropped, "b" changes its value,
   "u" belongs to the user; likewise for taints. *)
Definition exOld : Template :=
  mkTemplate [("a", "1"); ("b", "1")] [("l", "x")] [mkTaint "k" "v" "NoSchedule" None].
Definition exNew : Template :=
  mkTemplate [("b", "2")] [("l", "x"); ("m", "y")] [mkTaint "k" "v" "NoExecute" None].
Definition exNode : Node :=
  mkNode (Some [("u", "user"); ("a", "1"); ("b", "1"); (LastApplied, "old")])
         [("l", "x"); ("host", "h")]
         [mkTaint "k" "v" "NoSchedule" None; mkTaint "mine" "" "NoSchedule" (Some 7)].
Definition exEnc (t : Template) : string := "new".
Definition exDec (s : string) : option Template :=
  if String.eqb s "old" then Some exOld else if String.eqb s "new" then Some exNew else None.

Example C32_case :
  goodTemplate exNew /\ goodNode exNode /\ recorded exDec exNode exOld /\
  exDec (exEnc exNew) = Some exNew /\
  syncNode exEnc exDec exNew exNode =
    Write (mkNode (Some [(LastApplied, "new"); ("b", "2"); ("u", "user")])
                  [("m", "y"); ("l", "x"); ("host", "h")]
                  [mkTaint "k" "v" "NoExecute" None; mkTaint "mine" "" "NoSchedule" (Some 7)]) /\
  syncNode exEnc exDec exNew (after (syncNode exEnc exDec exNew exNode) exNode) = NoWrite.
Proof.
  assert (ND1 : forall a b c d : string, a <> b -> a <> c -> a <> d -> b <> c -> b <> d -> c <> d ->
    NoDup [a; b; c; d]).
  { intros. repeat constructor; cbn [In]; intuition congruence. }
  assert (ND2 : forall a b : string, a <> b -> NoDup [a; b]).
  { intros. repeat constructor; cbn [In]; intuition congruence. }
  split; [|split; [|split; [|split; [reflexivity|split; vm_compute; reflexivity]]]].
  - split; [|split; [|split]]; cbv [isMap keys isTaintSet map fst ke exNew tpAnnotations tpLabels tpTaints tKey tEffect].
    + repeat constructor; cbn [In]; tauto.
    + apply ND2. discriminate.
    + repeat constructor; cbn [In]; tauto.
    + cbn [In]. intros [H|[]]. discriminate.
  - split; [|split]; cbv [isMap keys isTaintSet map fst ke exNode annotationsOf nAnnotations nLabels nTaints tKey tEffect].
    + apply ND1; discriminate.
    + apply ND2. discriminate.
    + repeat constructor; cbn [In]; intuition discriminate.
  - apply (RecSome exDec exNode "old" exOld); [cbn; tauto|reflexivity].
Qed.

(* Finding.  "A second sync changes nothing" fails for a template taint with
   TimeAdded set: Go compares the pointers, so the taint never counts as being on
   the node.  Every sync from then on writes the node again and ends the
   reconcile of the machine early. *)
Theorem C32_time_added_refuted : forall enc dec,
  (forall t, dec (enc t) = Some t) ->
  exists tp n, goodTemplate tp /\ goodNode n /\
    (forall t, In t (tpTaints tp) -> In t (nTaints n)) /\
    syncNode enc dec tp n = Write n.
Proof.
  intros enc dec RT.
  set (tp := mkTemplate [] [] [mkTaint "k" "v" "NoExecute" (Some 1)]).
  exists tp, (mkNode (Some [(LastApplied, enc tp)]) [] [mkTaint "k" "v" "NoExecute" (Some 1)]).
  split; [|split; [|split]].
  - split; [|split; [|split]]; cbn; repeat constructor; cbn; tauto.
  - split; [|split]; cbn; repeat constructor; cbn; tauto.
  - cbn. auto.
  - assert (R := RT tp). unfold syncNode. cbn [nAnnotations get]. rewrite String.eqb_refl. rewrite R. reflexivity.
Qed.
Print Assumptions C32_time_added_refuted.

(* Finding.  The same for a template with an annotation under the record's key:
   each sync puts the template's value and then overwrites it with the record. *)
Theorem C32_record_key_refuted : forall enc dec,
  (forall t, dec (enc t) = Some t) ->
  (forall t, ~ In (LastApplied, enc t) (tpAnnotations t)) ->
  exists tp n, goodNode n /\ isMap (tpAnnotations tp) /\
    syncNode enc dec tp n = Write n /\
    exists v, In (LastApplied, v) (tpAnnotations tp) /\ ~ In (LastApplied, v) (annotationsOf n).
Proof.
  intros enc dec RT NE.
  set (tp := mkTemplate [(LastApplied, "mine")] [] []).
  exists tp, (mkNode (Some [(LastApplied, enc tp)]) [] []).
  assert (D : enc tp <> "mine").
  { intros E. apply (NE tp). cbn. left. rewrite E. reflexivity. }
  split; [|split; [|split]].
  - split; [|split]; cbn; repeat constructor; cbn; tauto.
  - cbn. repeat constructor. cbn. tauto.
  - assert (R := RT tp). unfold syncNode. cbn [nAnnotations get]. rewrite String.eqb_refl. rewrite R.
    assert (E : String.eqb "mine" (enc tp) = false).
    { apply String.eqb_neq. congruence. }
    assert (Q : syncMap (tpAnnotations tp) (tpAnnotations tp) [(LastApplied, enc tp)] =
      ([(LastApplied, "mine")], true)).
    { change (tpAnnotations tp) with [(LastApplied, "mine")]. unfold syncMap. cbn [dropStale get].
      rewrite String.eqb_refl. cbn [putAll get]. rewrite String.eqb_refl. rewrite E. unfold put, del. cbn [filter fst].
      rewrite String.eqb_refl. reflexivity. }
    rewrite Q.
    reflexivity.
  - exists "mine". split; [cbn; auto|]. cbn. intros [H|[]]. injection H as H. congruence.
Qed.
Print Assumptions C32_record_key_refuted.

(* Finding.  A record that cannot be read (anybody may edit the annotation)
   stops the sync for ever: it is an error each time and nothing repairs it. *)
Theorem C32_bad_record_refuted : exists (n : Node) (s : string),
  goodNode n /\
  forall enc dec tp, dec s = None ->
    syncNode enc dec tp n = BadRecord /\ after (syncNode enc dec tp n) n = n.
Proof.
  exists (mkNode (Some [(LastApplied, "{")]) [] []), "{".
  split; [split; [|split]; cbn; repeat constructor; cbn; tauto|].
  intros enc dec tp H. unfold syncNode. cbn [nAnnotations get]. rewrite String.eqb_refl, H. auto.
Qed.
Print Assumptions C32_bad_record_refuted.

(* Finding.  The record is written only together with another change.  A label
   that the node already had when it entered the template is therefore not
   recorded, and stays on the node when the template drops it. *)
Theorem C32_matching_key_kept_refuted : forall enc dec,
  exists tp1 tp2 n, goodTemplate tp1 /\ goodTemplate tp2 /\ goodNode n /\
    In ("zone", "a") (tpLabels tp1) /\ ~ In "zone" (keys (tpLabels tp2)) /\
    (let n1 := after (syncNode enc dec tp1 n) n in
     let n2 := after (syncNode enc dec tp2 n1) n1 in
     In ("zone", "a") (nLabels n2)).
Proof.
  intros enc dec.
  exists (mkTemplate [] [("zone", "a")] []), (mkTemplate [] [] []), (mkNode (Some []) [("zone", "a")] []).
  split; [|split; [|split; [|split; [|split]]]].
  - split; [|split; [|split]]; cbn; repeat constructor; cbn; tauto.
  - split; [|split; [|split]]; cbn; repeat constructor; cbn; tauto.
  - split; [|split]; cbn; repeat constructor; cbn; tauto.
  - cbn. auto.
  - cbn. auto.
  - cbn. auto.
Qed.
Print Assumptions C32_matching_key_kept_refuted.

(* Finding.  Two taints with one key and effect in a template: only one of them
   reaches the node. *)
Theorem C32_double_taint_refuted : exists m n t,
  isTaintSet n /\ In t m /\ ~ In t (fst (syncTaints m [] n)).
Proof.
  exists [mkTaint "k" "1" "NoSchedule" None; mkTaint "k" "2" "NoSchedule" None], [],
    (mkTaint "k" "1" "NoSchedule" None).
  split; [constructor|]. split; [left; reflexivity|]. vm_compute. intros [H|[]]. discriminate.
Qed.
Print Assumptions C32_double_taint_refuted.
