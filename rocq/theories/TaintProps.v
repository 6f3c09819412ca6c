(* C33 (taint lists and their text) and C62 (tainting the nodes of a rollout). *)
Require Import List String Ascii Bool Arith Lia.
From Verif Require Import MetaModel MetaSpec MetaProofs TaintModel TaintSpec TaintProofs.
Import ListNotations.
Open Scope string_scope.
Open Scope list_scope.
Open Scope nat_scope.

(* C33: adding.  For every list with at most one entry of the taint's key and
   effect there is exactly one afterwards, the given one; all others are kept in
   order; the flag says whether the list changed.
   Partial: not for lists that hold the key and effect twice (see below). *)
Theorem C33_add_partial : forall t l, List.length (alike t l) <= 1 ->
  Added t l (fst (AddOrUpdateTaint l t)) (snd (AddOrUpdateTaint l t)).
Proof. exact add_spec. Qed.
Print Assumptions C33_add_partial.

(* C33: removing, for every list, by RemoveTaint and by DeleteTaint. *)
Theorem C33_remove : forall t l,
  Removed t l (fst (RemoveTaint l t)) (snd (RemoveTaint l t)) /\
  Removed t l (fst (DeleteTaint l t)) (snd (DeleteTaint l t)).
Proof. intros t l. split; [apply remove_spec|apply delete_spec]. Qed.
Print Assumptions C33_remove.

(* C33: the text form.  Printing a non-empty list of valid taints and reading it
   gives the list back, and whatever can be read prints as the same text. *)
Theorem C33_text : forall qn lv, validators qn lv ->
  (forall l, l <> [] -> Forall (validTaint qn lv) l -> VarSet qn lv (VarString l) = ROk l) /\
  (forall s l, VarSet qn lv s = ROk l -> VarString l = s /\ l <> [] /\ Forall (validTaint qn lv) l).
Proof.
  intros qn lv V. split; [intros; apply set_string; assumption|intros; apply string_set; assumption].
Qed.
Print Assumptions C33_text.

(* C33: ParseTaints never panics and accepts no key and effect twice. *)
Theorem C33_parse_list : forall qn lv spec, validators qn lv ->
  ParseTaints qn lv spec <> RPanic /\
  (forall a r, ParseTaints qn lv spec = ROk (a, r) -> isTaintSet a).
Proof.
  intros qn lv spec V. split; [apply parseTaints_no_panic; exact V|].
  intros a r H. eapply parseTaints_unique; [|exact H]. constructor.
Qed.
Print Assumptions C33_parse_list.

(* C33: ParseTaints reads whatever is written as documented, taints and removals mixed, and
   gives all of them in the order of the specs. *)
Theorem C33_parse_asks : forall qn lv l, validators qn lv -> Forall (goodAsk qn lv) l -> isTaintSet (wanted l) ->
  ParseTaints qn lv (map askText l) = ROk (wanted l, dropped l).
Proof. intros qn lv l V G U. unfold ParseTaints. now rewrite parse_asks. Qed.
Print Assumptions C33_parse_asks.

Example C33_parse_asks_case :
  let yes s := negb (contains "=" s || contains ":" s || contains "," s) in
  let t := mkTaint "a" "1" "NoSchedule" None in
  map askText [Drop "x" "NoExecute"; Want t; Drop "y" ""] = ["x:NoExecute-"; "a=1:NoSchedule"; "y-"] /\
  ParseTaints yes yes ["x:NoExecute-"; "a=1:NoSchedule"; "y-"] =
    ROk ([t], [mkTaint "x" "" "NoExecute" None; mkTaint "y" "" "" None]).
Proof. split; vm_compute; reflexivity. Qed.

(* C33 through the API server: a call that succeeds either found nothing to do
   in what it read, or the node is what others left with all the taints added and
   nothing else changed; a call that fails leaves what others left.  So nobody's
   edit is lost.
   Partial: "nothing to do" is judged by a possibly old copy of the node. *)
Theorem C33_node_add_partial : forall ts a steps srv r e,
  ts <> [] -> isTaintSet ts ->
  (forall s, arGet a s <> inr Conflict) -> coherent (a :: steps) ->
  isTaintSet (oTaints (arOthers a srv)) ->
  AddOrUpdateTaintOnNode ts (a :: steps) srv = (r, e) ->
  (e <> None -> r = arOthers a srv) /\
  (e = None -> oRest r = oRest (arOthers a srv) /\
     (AllAdded ts (oTaints (arOthers a srv)) (oTaints r) \/
      exists o, arGet a srv = inl o /\ r = arOthers a srv /\
        snd (editAll AddOrUpdateTaint ts (oTaints o)) = false)).
Proof.
  intros ts a steps srv r e NE TS NC C S H. unfold AddOrUpdateTaintOnNode in H.
  destruct ts as [|t ts]; [congruence|].
  destruct (call_spec _ _ _ _ _ _ NC C H) as [A B]. split; [exact A|].
  intros E. destruct (B E) as [o [G [[R F]|[EO [R F]]]]].
  - rewrite R. split; [reflexivity|]. right. exists o. auto.
  - rewrite R. cbn [oRest oTaints]. split; [reflexivity|]. left.
    apply editAll_add; assumption.
Qed.
Print Assumptions C33_node_add_partial.

(* C33: the same for removing taints from a node. Partial: likewise (C33_stale_success_refuted). *)
Theorem C33_node_remove_partial : forall ts a steps srv r e,
  ts <> [] ->
  (forall s, arGet a s <> inr Conflict) -> coherent (a :: steps) ->
  RemoveTaintOffNode None ts (a :: steps) srv = (r, e) ->
  (e <> None -> r = arOthers a srv) /\
  (e = None -> oRest r = oRest (arOthers a srv) /\
     (AllRemoved ts (oTaints (arOthers a srv)) (oTaints r) \/
      exists o, arGet a srv = inl o /\ r = arOthers a srv /\
        snd (editAll RemoveTaint ts (oTaints o)) = false)).
Proof.
  intros ts a steps srv r e NE NC C H. unfold RemoveTaintOffNode in H.
  destruct ts as [|t ts]; [congruence|].
  destruct (call_spec _ _ _ _ _ _ NC C H) as [A B]. split; [exact A|].
  intros E. destruct (B E) as [o [G [[R F]|[EO [R F]]]]].
  - rewrite R. split; [reflexivity|]. right. exists o. auto.
  - rewrite R. cbn [oRest oTaints]. split; [reflexivity|]. left.
    apply editAll_remove.
Qed.
Print Assumptions C33_node_remove_partial.

Definition exA : Taint := mkTaint "a" "1" "NoSchedule" None.
Definition exB : Taint := mkTaint "b" "" "NoExecute" None.
Definition exA2 : Taint := mkTaint "a" "2" "NoSchedule" None.
Definition okName (s : string) : bool :=
  negb (contains "=" s) && negb (contains ":" s) && negb (contains "," s).

Example C33_case :
  AddOrUpdateTaint [exA; exB] exA2 = ([exA2; exB], true) /\
  AddOrUpdateTaint [exA2; exB] exA2 = ([exA2; exB], false) /\
  RemoveTaint [exA; exB] exA2 = ([exB], true) /\
  RemoveTaint [exB] exA = ([exB], false) /\
  VarString [exA; exB] = "a=1:NoSchedule,b=:NoExecute" /\
  VarSet okName okName "a=1:NoSchedule,b=:NoExecute" = ROk [exA; exB] /\
  validators okName okName /\ Forall (validTaint okName okName) [exA; exB] /\
  ParseTaints okName okName ["a=1:NoSchedule"; "b:NoExecute-"; "c-"] =
    ROk ([exA], [mkTaint "b" "" "NoExecute" None; mkTaint "c" "" "" None]) /\
  ParseTaints okName okName ["a=1:NoSchedule"; "a=2:NoSchedule"] = RError.
Proof.
  assert (V : forall s, okName s = true -> plain s).
  { intros s H. unfold okName in H. repeat rewrite andb_true_iff in H. destruct H as [[A B] C].
    apply negb_true_iff in A. apply negb_true_iff in B. apply negb_true_iff in C. repeat split; assumption. }
  split; [reflexivity|]. split; [reflexivity|]. split; [reflexivity|]. split; [reflexivity|].
  split; [reflexivity|]. split; [vm_compute; reflexivity|]. split; [split; exact V|].
  split; [|split; vm_compute; reflexivity].
  constructor; [|constructor; [|constructor]].
  - split; [reflexivity|]. split; [reflexivity|]. split; [left; reflexivity|reflexivity].
  - split; [reflexivity|]. split; [reflexivity|]. split; [right; right; reflexivity|reflexivity].
Qed.

(* Finding.  With the key and effect twice in the list, adding leaves two. *)
Theorem C33_duplicates_stay_refuted : exists t l,
  alike t (fst (AddOrUpdateTaint l t)) = [t; t].
Proof. exists exA2, [exA; exA]. reflexivity. Qed.
Print Assumptions C33_duplicates_stay_refuted.

(* Finding.  A text "key=value" without an effect makes the reader index past
   the end of a slice: exactly the texts with an accepted name, one "=", a value
   and no ":" do. *)
Theorem C33_parse_panics_refuted : forall qn lv, qn "key" = true ->
  VarSet qn lv "key=value" = RPanic.
Proof. intros qn lv Q. unfold VarSet. cbn. rewrite Q. reflexivity. Qed.
Print Assumptions C33_parse_panics_refuted.

Theorem C33_parse_panics_exactly : forall qn lv s, parseTaint qn lv s = RPanic <->
  exists k p, s = (k ++ String "=" p)%string /\ contains "=" k = false /\ contains "=" p = false /\
    contains ":" p = false /\ p <> ""%string /\ qn k = true.
Proof. exact parse_panic. Qed.
Print Assumptions C33_parse_panics_exactly.

(* Finding.  The empty list prints as a text that cannot be read. *)
Theorem C33_empty_text_refuted : forall qn lv, VarSet qn lv (VarString []) = RError.
Proof. intros. reflexivity. Qed.
Print Assumptions C33_empty_text_refuted.

(* Finding.  ReorganizeTaints reports "tainted" (or "untainted") instead of
   "modified" if taints were removed but the last one asked for was not there. *)
Theorem C33_report_refuted : exists old add rm l errs,
  ReorganizeTaints old false add rm = (TAINTED, l, errs) /\
  In exA old /\ ~ In exA l.
Proof.
  exists [exA], [exB; mkTaint "c" "" "NoSchedule" None], [exA; mkTaint "z" "" "NoSchedule" None].
  eexists. eexists. split; [vm_compute; reflexivity|]. split; [left; reflexivity|].
  intros [H|[H|[]]]; discriminate.
Qed.
Print Assumptions C33_report_refuted.

(* Finding.  A conflict is never retried, though four more attempts would be
   allowed: the error is re-made with %v and no longer counts as a conflict.  A
   first read from an old cache therefore fails the call for good, while the very
   next attempt would succeed. *)
Theorem C33_conflict_not_retried_refuted : exists t a b srv,
  undisturbed [b] /\
  AddOrUpdateTaintOnNode [t] [b] srv = (mkObj 6 [t] 0, None) /\
  AddOrUpdateTaintOnNode [t] [a; b; b; b; b] srv = (srv, Some Other) /\
  (forall s, arOthers a s = s) /\ arFail a = None.
Proof.
  exists exA, (mkAround (fun _ => inl (mkObj 4 [] 0)) (fun s => s) None),
    (mkAround (fun s => inl s) (fun s => s) None), (mkObj 5 [] 0).
  split; [|split; [|split; [|split]]]; try reflexivity.
  eexists. eexists. split; [reflexivity|]. auto.
Qed.
Print Assumptions C33_conflict_not_retried_refuted.

(* Finding.  A stale first read that already shows the taint makes the call
   succeed without the taint being on the node. *)
Theorem C33_stale_success_refuted : exists t a srv,
  coherent [a] /\ AddOrUpdateTaintOnNode [t] [a] srv = (srv, None) /\ ~ In t (oTaints srv).
Proof.
  exists exA, (mkAround (fun _ => inl (mkObj 4 [exA] 0)) (fun _ => mkObj 5 [] 0) None), (mkObj 5 [] 0).
  split; [|split; [reflexivity|intros []]].
  constructor; [|constructor]. cbn. intros srv o H. injection H as <-. discriminate.
Qed.
Print Assumptions C33_stale_success_refuted.

(* C33: removing all taints of a key keeps the others in their order. *)
Theorem C33_remove_key : forall l k,
  (forall x, In x (fst (DeleteTaintsByKey l k)) <-> In x l /\ tKey x <> k) /\
  (snd (DeleteTaintsByKey l k) = true <-> exists x, In x l /\ tKey x = k) /\
  forall a x b y c, fst (DeleteTaintsByKey l k) = a ++ x :: b ++ y :: c -> exists a' b' c', l = a' ++ x :: b' ++ y :: c'.
Proof.
  intros l k. split; [intros x; apply byKey_in|]. split; [apply byKey_flag|]. intros a x b y c H. rewrite byKey_order in H.
  revert a H. induction l as [|z l IH]; intros a H; cbn [filter] in H; [destruct a; discriminate|].
  assert (T : forall a, filter (fun x => negb (String.eqb (tKey x) k)) l = a ++ y :: c -> In y l).
  { intros a' E. assert (I : In y (filter (fun x => negb (String.eqb (tKey x) k)) l)) by (rewrite E; apply in_or_app; right; left; reflexivity). apply filter_In in I. tauto. }
  destruct (String.eqb (tKey z) k); cbn [negb] in H.
  - destruct (IH _ H) as (a' & b' & c' & ->). exists (z :: a'), b', c'. reflexivity.
  - destruct a as [|a0 a]; cbn [app] in H.
    + assert (E : z = x) by congruence. assert (F : filter (fun x => negb (String.eqb (tKey x) k)) l = b ++ y :: c) by congruence. subst z.
      destruct (in_split _ _ (T _ F)) as (b' & c' & ->). exists [], b', c'. reflexivity.
    + assert (F : filter (fun x => negb (String.eqb (tKey x) k)) l = a ++ x :: b ++ y :: c) by congruence. destruct (IH _ F) as (a' & b' & c' & ->). exists (z :: a'), b', c'. reflexivity.
Qed.
Print Assumptions C33_remove_key.
Example C33_remove_key_case : DeleteTaintsByKey [exA; exB; exA2] (tKey exA) = ([exB], true).
Proof. reflexivity. Qed.

(* C33: the difference of two lists. *)
Theorem C33_difference : forall l1 l2 x,
  (In x (fst (TaintSetDiff l1 l2)) <-> In x l1 /\ forall y, In y l2 -> ke y <> ke x) /\
  (In x (snd (TaintSetDiff l1 l2)) <-> In x l2 /\ forall y, In y l1 -> ke y <> ke x).
Proof.
  assert (X : forall l x, negb (TaintExists l x) = true <-> forall y, In y l -> ke y <> ke x).
  { intros l x. rewrite negb_true_iff. split.
    - intros H y I E. assert (K : TaintExists l x = true) by (apply exists_alike, in_alike_iff; eauto). congruence.
    - intros H. destruct (TaintExists l x) eqn:E; [|reflexivity]. apply exists_alike, in_alike_iff in E as (y & I & K). destruct (H y I K). }
  intros l1 l2 x. unfold TaintSetDiff. cbn [fst snd]. rewrite !filter_In, !X. tauto.
Qed.
Print Assumptions C33_difference.
Example C33_difference_case : TaintSetDiff [exA; exB] [exA2] = ([exB], []).
Proof. reflexivity. Qed.

(* C33: a request with additions and removals leaves what was asked for and what
   was there and not replaced, less all that is to be removed; an error tells of
   every removal that found nothing. *)
Theorem C33_reorganize : forall old overwrite add rm rep l errs,
  isTaintSet old -> ReorganizeTaints old overwrite add rm = (rep, l, errs) ->
  (forall x, In x l <-> (In x add \/ In x old /\ ~ In (ke x) (map ke add)) /\ forall t, In t rm -> ~ meant t x) /\
  (isTaintSet add -> isTaintSet l) /\ errs <= List.length rm /\
  (errs = 0 <-> forall before t after, rm = before ++ t :: after ->
     exists x, (In x add \/ In x old /\ ~ In (ke x) (map ke add)) /\ meant t x /\ forall t', In t' before -> ~ meant t' x).
Proof.
  intros old ov add rm rep l errs S H. unfold ReorganizeTaints, addTaints in H. destruct (add_all old add _ eq_refl S) as (A1 & A2 & _). remember (fold_left _ old add) as r.
  rewrite deleteTaints_cut in H. destruct (fold_left _ rm (r, 0, false)) as ((l', n'), d') eqn:D. destruct (delete_all _ _ _ _ _ _ _ D) as (D1 & D2 & D3 & _ & _ & D6).
  assert (l' = l /\ n' = errs) as (-> & ->) by (split; congruence). split; [|split; [|split]].
  - intros x. rewrite D1, A1. reflexivity.
  - intros Sa. apply D6, A2, Sa.
  - lia.
  - rewrite D3. split; intros K a t b E; destruct (K a t b E) as (x & I & J); exists x; (split; [apply A1, I | exact J]).
Qed.
Print Assumptions C33_reorganize.
(* C33: the report, if all removals found something. (Otherwise see the finding below.)
   Partial: C33_report_refuted. *)
Theorem C33_report_partial : forall old overwrite add rm rep l errs,
  isTaintSet old -> isTaintSet add -> ReorganizeTaints old overwrite add rm = (rep, l, errs) ->
  (overwrite = true -> rep = MODIFIED) /\
  (overwrite = false -> (rep = UNTAINTED <-> forall t, In t add -> In (ke t) (map ke old))) /\
  (overwrite = false -> rm = [] -> rep <> MODIFIED) /\
  (overwrite = false -> rm <> [] -> errs = 0 -> rep <> TAINTED).
Proof.
  intros old ov add rm rep l errs So Sa H. assert (A := added_iff old add So Sa). unfold ReorganizeTaints in H. destruct (addTaints old add) as (r, added). cbn [snd] in A.
  rewrite deleteTaints_cut in H. destruct (fold_left _ rm (r, 0, false)) as ((l', n'), d') eqn:D. destruct (delete_all _ _ _ _ _ _ _ D) as (_ & _ & _ & D4 & D5 & _).
  assert (E : rep = if (added && d') || ov then MODIFIED else if added then TAINTED else UNTAINTED) by congruence. assert (n' = errs) as -> by congruence. clear H. split; [|split; [|split]].
  - intros ->. rewrite orb_true_r in E. exact E.
  - intros ->. rewrite orb_false_r in E. split.
    + intros R t I. destruct added; [cbn [andb] in E; destruct d'; congruence|].
      destruct (in_dec (fun a b : string * string => ltac:(decide equality; apply string_dec)) (ke t) (map ke old)) as [Y|N]; [exact Y|]. assert (false = true) by (apply A; eauto). discriminate.
    + intros K. destruct added; [|exact E]. destruct (proj1 A eq_refl) as (t & I & N). destruct (N (K t I)).
  - intros -> R. rewrite (D4 R), andb_false_r in E. cbn in E. destruct added; congruence.
  - intros -> R Z. rewrite (D5 R Z), andb_true_r, orb_false_r in E. destruct added; congruence.
Qed.
Print Assumptions C33_report_partial.
Example C33_reorganize_case : ReorganizeTaints [exA; exB] false [exA2; mkTaint "c" "" "NoSchedule" None] [mkTaint (tKey exB) "" "" None; mkTaint "z" "" "" None] =
  (TAINTED, [exA2; mkTaint "c" "" "NoSchedule" None], 1).
Proof. reflexivity. Qed.


(* C62: when an old machine set is treated, every node of its machines gets the
   taint and keeps everything else, and the set is marked.
   Partial: only if no node call is disturbed and every machine already has its
   node label. *)
Theorem C62_all_tainted_partial : forall t env markOk s ns,
  (forall n, undisturbed (env n)) -> (forall n, isTaintSet (oTaints (ns n))) ->
  tsMarked s = false ->
  let '(s', ns') := taintSet t env markOk s ns in
  tsMarked s' = markOk /\
  (forall n, In n (tsNodes s) -> n <> ""%string -> In t (oTaints (ns' n))) /\
  (forall n, oRest (ns' n) = oRest (ns n)) /\
  (forall n x, ke x <> ke t -> (In x (oTaints (ns' n)) <-> In x (oTaints (ns n)))) /\
  (forall n, ~ In n (tsNodes s) -> ns' n = ns n).
Proof.
  intros t env markOk s ns U S M. unfold taintSet. rewrite M.
  destruct (taintMachines_all t env (tsNodes s) ns U S) as [A [B [C [D [E F]]]]].
  cbn [tsMarked]. auto.
Qed.
Print Assumptions C62_all_tainted_partial.

(* C62, back again: on rollback to a marked set the taint is taken off all its
   nodes and the mark is removed.  Partial as above. *)
Theorem C62_all_untainted_partial : forall t got env markOk s ns,
  (forall n, undisturbed (env n)) -> (forall n, got n = Some (ns n)) -> NoDup (tsNodes s) ->
  tsMarked s = true ->
  let '(s', ns') := untaintSet t got env markOk s ns in
  tsMarked s' = negb markOk /\
  (forall n, In n (tsNodes s) -> n <> ""%string ->
     forall x, In x (oTaints (ns' n)) <-> In x (oTaints (ns n)) /\ ke x <> ke t) /\
  (forall n, oRest (ns' n) = oRest (ns n)) /\
  (forall n, ~ In n (tsNodes s) -> ns' n = ns n).
Proof.
  intros t got env markOk s ns U G ND M. unfold untaintSet. rewrite M.
  destruct (untaintMachines_all t env (tsNodes s) ns U got G ND) as [A [B C]].
  cbn [tsMarked]. auto.
Qed.
Print Assumptions C62_all_untainted_partial.

Definition calm : Around := mkAround (fun s => inl s) (fun s => s) None.

Example C62_case :
  (forall n, undisturbed ((fun _ : string => [calm]) n)) /\
  let ns := fun n : string => mkObj 3 [exB] 9 in
  let '(s', ns') := taintSet exA (fun _ => [calm]) true (mkTSet false ["n1"; ""; "n2"]) ns in
  tsMarked s' = true /\ ns' "n1" = mkObj 4 [exB; exA] 9 /\ ns' "n2" = mkObj 4 [exB; exA] 9 /\
  ns' "n3" = mkObj 3 [exB] 9 /\
  let '(s2, ns2) := untaintSet exA (fun n => Some (ns' n)) (fun _ => [calm]) true s' ns' in
  tsMarked s2 = false /\ ns2 "n1" = mkObj 5 [exB] 9.
Proof.
  split; [|vm_compute; auto 10].
  intros n. exists calm, []. auto.
Qed.

(* C62: every node is treated as if it were the only one of its set: what happens to
   the others, errors included, makes no difference to it. *)
Theorem C62_each_alone : forall t got env markOk s ns n, NoDup (tsNodes s) -> In n (tsNodes s) ->
  snd (taintSet t env markOk s ns) n = snd (taintSet t env markOk (mkTSet (tsMarked s) [n]) ns) n /\
  snd (untaintSet t got env markOk s ns) n = snd (untaintSet t got env markOk (mkTSet (tsMarked s) [n]) ns) n.
Proof. exact each_alone. Qed.
Print Assumptions C62_each_alone.

(* A node that cannot be read does not keep the next one from losing the taint. *)
Example C62_each_alone_case :
  let ns := fun n : string => mkObj 3 [exA; exB] 9 in
  let got := fun n => if String.eqb n "n1" then None else Some (ns n) in
  let ns' := snd (untaintSet exA got (fun _ => [calm]) true (mkTSet true ["n1"; "n2"]) ns) in
  oTaints (ns' "n1") = [exA; exB] /\ oTaints (ns' "n2") = [exB].
Proof. vm_compute. auto. Qed.

(* Finding.  An error for a node is only logged: the set is marked as tainted
   although the node is not, and from then on it is skipped for ever. *)
Theorem C62_marked_not_tainted_refuted : exists t env s ns n,
  tsMarked s = false /\ In n (tsNodes s) /\
  let '(s1, ns1) := taintSet t env true s ns in
  tsMarked s1 = true /\ ~ In t (oTaints (ns1 n)) /\
  (forall env' ok, taintSet t env' ok s1 ns1 = (s1, ns1)).
Proof.
  exists exA, (fun _ => [mkAround (fun _ => inr Other) (fun s => s) None]), (mkTSet false ["n1"]),
    (fun _ => mkObj 3 [] 0), "n1".
  split; [reflexivity|]. split; [left; reflexivity|]. cbn. split; [reflexivity|]. split; [tauto|reflexivity].
Qed.
Print Assumptions C62_marked_not_tainted_refuted.

(* Finding.  A machine whose node has not registered yet has no node label; its
   set is marked all the same and the node never gets the taint. *)
Theorem C62_late_node_refuted : exists t s ns,
  (forall env, let '(s1, ns1) := taintSet t env true s ns in
     tsMarked s1 = true /\
     (forall n env' ok, let '(_, ns2) := taintSet t env' ok (mkTSet (tsMarked s1) [n]) ns1 in
        ~ In t (oTaints (ns2 n)))).
Proof.
  exists exA, (mkTSet false [""]), (fun _ => mkObj 3 [] 0). intros env. cbn.
  split; [reflexivity|]. intros n env' ok. cbn. tauto.
Qed.
Print Assumptions C62_late_node_refuted.

(* Finding.  On rollback a node that could not be read stays tainted while the
   mark is removed, so that no later rollback takes the taint off. *)
Theorem C62_stays_tainted_refuted : exists t got s ns n,
  tsMarked s = true /\ In n (tsNodes s) /\
  (forall env, let '(s1, ns1) := untaintSet t got env true s ns in
   tsMarked s1 = false /\ In t (oTaints (ns1 n)) /\
   (forall got' env' ok, untaintSet t got' env' ok s1 ns1 = (s1, ns1))).
Proof.
  exists exA, (fun _ => None), (mkTSet true ["n1"]), (fun _ => mkObj 3 [exA] 0), "n1".
  split; [reflexivity|]. split; [left; reflexivity|]. intros env. cbn. auto.
Qed.
Print Assumptions C62_stays_tainted_refuted.
