Require Import List String Bool Arith Lia.
From Verif Require Import MetaModel MetaSpec MetaProofs TaintModel AnnoModel AnnoSpec AnnoProofs NodeModel NodeSpec.
Import ListNotations.
Open Scope string_scope.
Open Scope list_scope.

(* ---- histories ---- *)

Lemma others_grows : forall fs h, List.length h <= List.length (others fs h).
Proof.
  induction fs as [|f fs IH]; intros h; cbn; [lia|]. specialize (IH (f (current h) :: h)). cbn in IH. unfold others in *. lia.
Qed.

Lemma others_tail : forall fs h, exists p, others fs h = p ++ h /\ List.length p = List.length fs.
Proof.
  induction fs as [|f fs IH]; intros h; [exists []; split; reflexivity|].
  destruct (IH (f (current h) :: h)) as [p [E L]]. exists (p ++ [f (current h)]). split.
  - unfold others in *. cbn [fold_left]. rewrite E. rewrite <- app_assoc. reflexivity.
  - rewrite app_length. cbn. lia.
Qed.

Lemma before_length : forall i (h : Hist), List.length (before i h) = List.length h - i.
Proof. intros. apply skipn_length. Qed.

(* A state read earlier whose version is the newest one is the newest state. *)
Lemma version : forall i fs (h : Hist) o, current (before i h) = Some o ->
  List.length (before i h) = List.length (others fs h) ->
  current (others fs h) = Some o.
Proof.
  intros i fs h o C L. destruct (others_tail fs h) as [p [E P]]. rewrite E in *.
  rewrite before_length, app_length in L.
  assert (H0 : h <> []) by (intros ->; destruct i; discriminate).
  destruct h as [|x h]; [congruence|]. cbn [List.length] in L.
  assert (I : i = 0 /\ List.length p = 0) by lia. destruct I as [-> P0].
  destruct p; [|discriminate]. exact C.
Qed.

(* ---- a single attempt is all there is ---- *)

Lemma wrapped_conflict : forall r h, wrapped r <> (h, Some Conflict).
Proof. intros [h' [e|]] h; cbn; discriminate. Qed.

Lemma tryAnn_conflict : forall edit first r h h', tryAnn edit first r h <> (h', Some Conflict).
Proof.
  intros edit first r h h'. unfold tryAnn. destruct (getNode first r h) as [[v o]|[]]; try discriminate.
  destruct (edit (nAnn o)) as [a []]; [apply wrapped_conflict|discriminate].
Qed.

Lemma tryCond_conflict : forall c first r h h', tryCond c first r h <> (h', Some Conflict).
Proof.
  intros c first r h h'. unfold tryCond. destruct (getNode first r h) as [[v o]|[]]; try discriminate.
  apply wrapped_conflict.
Qed.

Lemma retry_once : forall try, (forall first r h h', try first r h <> (h', Some Conflict)) ->
  forall r rounds h, retry try true (r :: rounds) h = try true r h.
Proof.
  intros try N r rounds h. cbn. destruct (try true r h) as [h' [[]|]] eqn:E; try reflexivity.
  exfalso. exact (N _ _ _ _ E).
Qed.

(* ---- what an update does ---- *)

Lemma put_spec : forall fail v o h h' e, putNode fail v o h = (h', e) ->
  (e = None /\ fail = None /\ v = List.length h /\ (exists x, current h = Some x) /\ h' = Some o :: h) \/
  (e <> None /\ h' = h).
Proof.
  intros fail v o h h' e. unfold putNode. destruct fail as [x|]; [intros E; injection E as <- <-; right; split; [discriminate|reflexivity]|].
  destruct (current h) as [x|] eqn:C; [|intros E; injection E as <- <-; right; split; [discriminate|reflexivity]].
  destruct (Nat.eqb_spec v (List.length h)) as [->|].
  - intros E. injection E as <- <-. left. repeat split. exists x. reflexivity.
  - intros E. injection E as <- <-. right. split; [discriminate|reflexivity].
Qed.

Lemma wrapped_spec : forall fail v o h h' e, wrapped (putNode fail v o h) = (h', e) ->
  (e = None /\ fail = None /\ v = List.length h /\ (exists x, current h = Some x) /\ h' = Some o :: h) \/
  (e = Some Other /\ h' = h).
Proof.
  intros fail v o h h' e. destruct (putNode fail v o h) as [h0 [x|]] eqn:P; cbn; intros E; injection E as <- <-.
  - apply put_spec in P. destruct P as [[P _]|[_ ->]]; [discriminate|]. right. auto.
  - apply put_spec in P. destruct P as [P|[P _]]; [left; exact P|congruence].
Qed.

Lemma get_seen : forall first r h v o, getNode first r h = inl (v, o) ->
  exists i, current (before i h) = Some o /\ v = List.length (before i h).
Proof.
  intros first r h v o. unfold getNode. destruct (rdRead r) as [i|]; [|discriminate].
  destruct (current (before (if first then i else 0) h)) as [x|] eqn:C; [|discriminate].
  intros E. injection E as <- <-. eexists. split; [exact C|reflexivity].
Qed.

Lemma tryAnn_spec : forall edit r h h' e, tryAnn edit true r h = (h', e) ->
  let h1 := others (rdOthers r) h in
  (e <> None -> h' = h1) /\
  (h' = h1 \/ wrote (fun o o' => nConds o' = nConds o /\ nRest o' = nRest o /\
                        edit (nAnn o) = (nAnn o', true)) h1 h') /\
  (e = None -> h' = h1 ->
     rdRead r = inr Absent \/ seen h None \/ exists o, seen h (Some o) /\ snd (edit (nAnn o)) = false).
Proof.
  intros edit r h h' e. cbv zeta. unfold tryAnn. destruct (getNode true r h) as [[v o]|x] eqn:G.
  - apply get_seen in G. destruct G as [i [C V]]. destruct (edit (nAnn o)) as [a u] eqn:D. destruct u.
    + intros W. apply wrapped_spec in W.
      destruct W as [(-> & F & L & [x X] & ->)|[-> ->]].
      * assert (E : current (others (rdOthers r) h) = Some o) by (eapply version; [exact C|congruence]).
        split; [congruence|]. split.
        -- right. exists o, (mkNObj a (nConds o) (nRest o)). cbn [nAnn nConds nRest]. auto.
        -- intros _ H. exfalso. apply (f_equal (@List.length _)) in H. cbn in H. lia.
      * split; [reflexivity|]. split; [left; reflexivity|discriminate].
    + intros W. injection W as <- <-. split; [congruence|]. split; [left; reflexivity|].
      intros _ _. right. right. exists o. split; [exists i; congruence|]. rewrite D. reflexivity.
  - destruct x; intros W; injection W as <- <-; (split; [congruence|]); (split; [left; reflexivity|]).
    + intros _ _. unfold getNode in G. destruct (rdRead r) as [i|[]]; [|left; reflexivity|discriminate].
      destruct (current (before i h)) eqn:C; [discriminate|]. right. left. exists i. congruence.
    + discriminate.
Qed.

(* ---- what the edits do ---- *)

Lemma add_get : forall n a r u k, isMap a -> AddOrUpdateAnnotation n a = (r, u) ->
  get k (entries r) = match get k a with Some v => Some v | None => get k (entries n) end.
Proof.
  intros n a r u k A E. rewrite add_fst in E. injection E as <- _. cbn [entries].
  rewrite putAll_get by exact A. reflexivity.
Qed.

Lemma add_unchanged : forall n a, snd (AddOrUpdateAnnotation n a) = false ->
  forall k v, In (k, v) a -> get k (entries n) = Some v.
Proof.
  intros n a E k v I. rewrite add_fst in E. cbn [snd] in E. apply putAll_false in E.
  destruct E as [_ [E _]]. apply E. exact I.
Qed.

Lemma delete_get_any : forall n anns k,
  get k (fst (DeleteAnnotation n anns)) = match get k anns with Some _ => None | None => get k n end.
Proof.
  induction n as [|[k0 v0] n IH]; intros anns k; cbn [DeleteAnnotation fst get]; [destruct (get k anns); reflexivity|].
  specialize (IH anns k). destruct (DeleteAnnotation n anns) as [r d]. cbn [fst] in IH.
  destruct (get k0 anns) eqn:G; cbn [fst get].
  - rewrite IH. destruct (String.eqb_spec k k0) as [->|]; [rewrite G; reflexivity|reflexivity].
  - destruct (String.eqb_spec k k0) as [->|]; [rewrite G; reflexivity|exact IH].
Qed.

Lemma remove_get : forall n a r u k, RemoveAnnotation n (Some a) = (r, u) ->
  get k (entries r) = match get k a with Some _ => None | None => get k (entries n) end.
Proof.
  intros n a r u k E. destruct n as [m|]; cbn in E.
  - pose proof (delete_get_any m a k) as D. destruct (DeleteAnnotation m a) as [x d]. injection E as <- _. exact D.
  - injection E as <- _. cbn. destruct (get k a); reflexivity.
Qed.

Lemma remove_unchanged : forall n a, snd (RemoveAnnotation n (Some a)) = false ->
  forall k, In k (map fst a) -> get k (entries n) = None.
Proof.
  intros n a E k I. destruct n as [m|]; [|reflexivity]. cbn in E.
  pose proof (delete_get m a) as [_ [D _]].
  destruct (DeleteAnnotation m a) as [x d]. cbn [snd] in *. subst d.
  cbn [entries]. apply get_None. intros H. assert (false = true); [|discriminate].
  apply D. exists k. split; assumption.
Qed.

(* ---- the calls ---- *)

Lemma annotate_lemma : forall a r rest h h' e, isMap a ->
  AddOrUpdateAnnotationOnNode (Some a) (r :: rest) h = (h', e) ->
  let h1 := others (rdOthers r) h in
  (h' = h1 \/ wrote (annotated a) h1 h') /\
  (e <> None -> h' = h1) /\
  (e = None -> wrote (annotated a) h1 h' \/ rdRead r = inr Absent \/ seen h None \/
     exists o, seen h (Some o) /\ carries a o).
Proof.
  intros a r rest h h' e A. unfold AddOrUpdateAnnotationOnNode.
  rewrite retry_once by (intros; apply tryAnn_conflict). intros T. apply tryAnn_spec in T. cbv zeta in *.
  destruct T as [X [Y Z]].
  assert (W : h' = others (rdOthers r) h \/ wrote (annotated a) (others (rdOthers r) h) h').
  { destruct Y as [Y|Y]; [left; exact Y|right]. destruct Y as (o & o' & C & E & P & Q & R).
    exists o, o'. split; [exact C|]. split; [exact E|]. split; [exact P|]. split; [exact Q|].
    intros k. eapply add_get; [exact A|exact R]. }
  split; [exact W|]. split; [exact X|]. intros E. destruct W as [W|W]; [|left; exact W]. right.
  destruct (Z E W) as [Z'|[Z'|[o [S U]]]]; [left; exact Z'|right; left; exact Z'|right; right].
  exists o. split; [exact S|]. intros k v I. eapply add_unchanged; eassumption.
Qed.

Lemma deannotate_lemma : forall name a r rest h h' e, name <> "" ->
  RemoveAnnotationsOffNode name (Some a) (r :: rest) h = (h', e) ->
  let h1 := others (rdOthers r) h in
  (h' = h1 \/ wrote (deannotated a) h1 h') /\
  (e <> None -> h' = h1) /\
  (e = None -> wrote (deannotated a) h1 h' \/ rdRead r = inr Absent \/ seen h None \/
     exists o, seen h (Some o) /\ lacks a o).
Proof.
  intros name a r rest h h' e N. unfold RemoveAnnotationsOffNode.
  destruct (String.eqb_spec name ""); [contradiction|].
  rewrite retry_once by (intros; apply tryAnn_conflict). intros T. apply tryAnn_spec in T. cbv zeta in *.
  destruct T as [X [Y Z]].
  assert (W : h' = others (rdOthers r) h \/ wrote (deannotated a) (others (rdOthers r) h) h').
  { destruct Y as [Y|Y]; [left; exact Y|right]. destruct Y as (o & o' & C & E & P & Q & R).
    exists o, o'. split; [exact C|]. split; [exact E|]. split; [exact P|]. split; [exact Q|].
    intros k. eapply remove_get; exact R. }
  split; [exact W|]. split; [exact X|]. intros E. destruct W as [W|W]; [|left; exact W]. right.
  destruct (Z E W) as [Z'|[Z'|[o [S U]]]]; [left; exact Z'|right; left; exact Z'|right; right].
  exists o. split; [exact S|]. intros k I. eapply remove_unchanged; eassumption.
Qed.

Lemma condLoop_last : forall l c, exists t, condLoop l c =
  (filter (fun x => negb (String.eqb (cType x) (cType c))) l, withTransition c t).
Proof.
  induction l as [|x l IH]; intros c; cbn [condLoop filter].
  - exists (cTransition c). destruct c; reflexivity.
  - destruct (negb (String.eqb (cType x) (cType c))) eqn:T.
    + destruct (IH c) as [t ->]. exists t. reflexivity.
    + destruct (String.eqb (cStatus x) (cStatus c) && String.eqb (cReason x) (cReason c)).
      * destruct (IH (withTransition c (cTransition x))) as [t E]. rewrite E. exists t. reflexivity.
      * apply IH.
Qed.

Lemma clone_conditioned : forall o c, cType c <> "" -> cStatus c <> "" ->
  conditioned c o (mkNObj (nAnn o) (CloneAndAddCondition (nConds o) c) (nRest o)).
Proof.
  intros o c T S. split; [reflexivity|]. split; [reflexivity|]. cbn [nConds]. unfold CloneAndAddCondition.
  destruct (String.eqb_spec (cType c) ""); [contradiction|]. destruct (String.eqb_spec (cStatus c) ""); [contradiction|].
  cbn [orb]. destruct (condLoop_last (nConds o) c) as [t ->]. exists (withTransition c t). split; [reflexivity|].
  repeat split.
Qed.

Lemma condition_lemma : forall c r rest h h' e, cType c <> "" -> cStatus c <> "" ->
  AddOrUpdateConditionsOnNode c (r :: rest) h = (h', e) ->
  let h1 := others (rdOthers r) h in
  (e = None -> wrote (conditioned c) h1 h') /\
  (e <> None -> h' = h1) /\
  (e = Some NotFound -> rdRead r = inr Absent \/ seen h None).
Proof.
  intros c r rest h h' e T S. unfold AddOrUpdateConditionsOnNode.
  rewrite retry_once by (intros; apply tryCond_conflict). cbv zeta. unfold tryCond.
  destruct (getNode true r h) as [[v o]|x] eqn:G.
  - apply get_seen in G. destruct G as [i [C V]]. intros W. apply wrapped_spec in W.
    destruct W as [(-> & F & L & [x X] & ->)|[-> ->]].
    + assert (E : current (others (rdOthers r) h) = Some o) by (eapply version; [exact C|congruence]).
      split; [|split; [congruence|discriminate]]. intros _.
      exists o. eexists. split; [exact E|]. split; [reflexivity|]. apply clone_conditioned; assumption.
    + split; [discriminate|]. split; [reflexivity|discriminate].
  - destruct x; intros W; injection W as <- <-; (split; [discriminate|]); (split; [reflexivity|]).
    + intros _. unfold getNode in G. destruct (rdRead r) as [i|[]]; [|left; reflexivity|discriminate].
      destruct (current (before i h)) eqn:C; [discriminate|]. right. exists i. congruence.
    + discriminate.
Qed.

(* ---- undisturbed ---- *)

Lemma quiet_get : forall h o, current h = Some o ->
  getNode true (mkRound (inl 0) [] None) h = inl (List.length h, o).
Proof. intros h o C. unfold getNode, before. cbn [rdRead skipn]. rewrite C. reflexivity. Qed.

Lemma quiet_put : forall h o x, current h = Some o -> putNode None (List.length h) x h = (Some x :: h, None).
Proof. intros h o x C. unfold putNode. rewrite C, Nat.eqb_refl. reflexivity. Qed.

Lemma quiet_annotate : forall a rounds h o, isMap a -> quiet rounds -> current h = Some o ->
  exists h' o', AddOrUpdateAnnotationOnNode (Some a) rounds h = (h', None) /\
    current h' = Some o' /\ annotated a o o'.
Proof.
  intros a rounds h o A [rest ->] C. unfold AddOrUpdateAnnotationOnNode.
  rewrite retry_once by (intros; apply tryAnn_conflict). unfold tryAnn. rewrite (quiet_get h o C).
  cbn [rdOthers rdFail]. change (others [] h) with h.
  destruct (AddOrUpdateAnnotation (nAnn o) a) as [x u] eqn:D. destruct u.
  - rewrite (quiet_put h o _ C). cbn [wrapped]. eexists. eexists. split; [reflexivity|]. split; [reflexivity|].
    split; [reflexivity|]. split; [reflexivity|]. intros k. cbn [nAnn]. eapply add_get; eassumption.
  - exists h, o. split; [reflexivity|]. split; [exact C|]. split; [reflexivity|]. split; [reflexivity|].
    intros k. destruct (get k a) eqn:G; [|reflexivity]. apply get_In in G.
    eapply add_unchanged; [|exact G]. rewrite D. reflexivity.
Qed.

Lemma quiet_deannotate : forall name a rounds h o, name <> "" -> quiet rounds -> current h = Some o ->
  exists h' o', RemoveAnnotationsOffNode name (Some a) rounds h = (h', None) /\
    current h' = Some o' /\ deannotated a o o'.
Proof.
  intros name a rounds h o N [rest ->] C. unfold RemoveAnnotationsOffNode.
  destruct (String.eqb_spec name ""); [contradiction|].
  rewrite retry_once by (intros; apply tryAnn_conflict). unfold tryAnn. rewrite (quiet_get h o C).
  cbn [rdOthers rdFail]. change (others [] h) with h.
  destruct (RemoveAnnotation (nAnn o) (Some a)) as [x u] eqn:D. destruct u.
  - rewrite (quiet_put h o _ C). cbn [wrapped]. eexists. eexists. split; [reflexivity|]. split; [reflexivity|].
    split; [reflexivity|]. split; [reflexivity|]. intros k. cbn [nAnn]. eapply remove_get; eassumption.
  - exists h, o. split; [reflexivity|]. split; [exact C|]. split; [reflexivity|]. split; [reflexivity|].
    intros k. destruct (get k a) eqn:G; [|reflexivity]. apply get_In in G.
    eapply remove_unchanged; [rewrite D; reflexivity|]. apply in_map_iff. exists (k, s). auto.
Qed.

Lemma quiet_condition : forall c rounds h o, cType c <> "" -> cStatus c <> "" -> quiet rounds -> current h = Some o ->
  exists h' o', AddOrUpdateConditionsOnNode c rounds h = (h', None) /\
    current h' = Some o' /\ conditioned c o o'.
Proof.
  intros c rounds h o T S [rest ->] C. unfold AddOrUpdateConditionsOnNode.
  rewrite retry_once by (intros; apply tryCond_conflict). unfold tryCond. rewrite (quiet_get h o C).
  cbn [rdOthers rdFail]. change (others [] h) with h.
  rewrite (quiet_put h o _ C). cbn [wrapped]. eexists. eexists. split; [reflexivity|]. split; [reflexivity|].
  apply clone_conditioned; assumption.
Qed.

(* ---- the annotations of a rollout ---- *)

Lemma scaleDown_map : isMap scaleDownAnnotations.
Proof. repeat constructor; cbn; intuition discriminate. Qed.

Lemma annotated_trans : forall a o o1 o2, annotated a o o1 -> annotated a o1 o2 -> annotated a o o2.
Proof.
  intros a o o1 o2 (A & B & C) (A' & B' & C'). split; [congruence|]. split; [congruence|].
  intros k. rewrite C'. destruct (get k a) eqn:G; [reflexivity|]. rewrite C, G. reflexivity.
Qed.

Lemma annotateMachines_spec : forall env l ns n,
  (~ In n l -> annotateMachines env l ns n = ns n) /\
  (forall o, n <> "" -> quiet (env n) -> current (ns n) = Some o ->
     exists o', current (annotateMachines env l ns n) = Some o' /\
       (In n l -> annotated scaleDownAnnotations o o') /\ (~ In n l -> o' = o)).
Proof.
  intros env l. induction l as [|x l IH]; intros ns n.
  - cbn. split; [reflexivity|]. intros o _ _ C. exists o. split; [exact C|]. split; [intros []|reflexivity].
  - cbn [annotateMachines]. destruct (String.eqb_spec x "") as [->|X].
    + destruct (IH ns n) as [P Q]. split; [intros H; apply P; intros I; apply H; right; exact I|].
      intros o N U C. destruct (Q o N U C) as (o' & C' & A & B). exists o'. split; [exact C'|]. split.
      * intros [H|H]; [congruence|exact (A H)].
      * intros H. apply B. intros I. apply H. right. exact I.
    + remember (setHist x (fst (AddOrUpdateAnnotationOnNode (Some scaleDownAnnotations) (env x) (ns x))) ns) as ns1 eqn:E1.
      destruct (IH ns1 n) as [P Q]. split.
      * intros H. rewrite P by (intros I; apply H; right; exact I). subst ns1. unfold setHist.
        destruct (String.eqb_spec n x) as [->|]; [exfalso; apply H; left; reflexivity|reflexivity].
      * intros o N U C. destruct (String.eqb_spec n x) as [->|D].
        -- destruct (quiet_annotate scaleDownAnnotations (env x) (ns x) o scaleDown_map U C) as (h1 & o1 & E & C1 & A1).
           assert (C2 : current (ns1 x) = Some o1).
           { subst ns1. unfold setHist. rewrite String.eqb_refl, E. exact C1. }
           destruct (Q o1 N U C2) as (o' & C' & A & B). exists o'. split; [exact C'|]. split.
           ++ intros _. destruct (in_dec string_dec x l) as [I|I].
              ** eapply annotated_trans; [exact A1|exact (A I)].
              ** rewrite (B I). exact A1.
           ++ intros H. exfalso. apply H. left. reflexivity.
        -- assert (C2 : current (ns1 n) = Some o).
           { subst ns1. unfold setHist. destruct (String.eqb_spec n x); [contradiction|exact C]. }
           destruct (Q o N U C2) as (o' & C' & A & B). exists o'. split; [exact C'|]. split.
           ++ intros [H|H]; [congruence|exact (A H)].
           ++ intros H. apply B. intros I. apply H. right. exact I.
Qed.

Lemma annotateNodes_spec : forall env sets ns ns' err n, annotateNodes env sets ns = (ns', err) ->
  (err = true <-> In (Some None) sets) /\
  (~ In n (names sets) -> ns' n = ns n) /\
  (forall o, n <> "" -> quiet (env n) -> current (ns n) = Some o ->
     exists o', current (ns' n) = Some o' /\
       (err = false -> In n (names sets) -> annotated scaleDownAnnotations o o') /\
       (o' = o \/ annotated scaleDownAnnotations o o')).
Proof.
  intros env sets. induction sets as [|s sets IH]; intros ns ns' err n E; cbn in E.
  - injection E as <- <-. split; [split; [discriminate|intros []]|]. split; [reflexivity|].
    intros o _ _ C. exists o. split; [exact C|]. split; [intros _ []|left; reflexivity].
  - destruct s as [[l|]|].
    + destruct (IH _ _ _ n E) as (A & B & C). destruct (annotateMachines_spec env l ns n) as [P Q].
      split; [rewrite A; cbn; split; [auto|intros [H|H]; [discriminate|exact H]]|].
      unfold names in *. cbn [map List.concat].
      split; [intros H; rewrite B, P; [reflexivity| |]; intros I; apply H; apply in_or_app; auto|].
      intros o N U K. destruct (Q o N U K) as (o1 & K1 & A1 & B1). destruct (C o1 N U K1) as (o' & K' & A' & B').
      assert (T : o1 = o \/ annotated scaleDownAnnotations o o1).
      { destruct (in_dec string_dec n l) as [I|I]; [right; exact (A1 I)|left; exact (B1 I)]. }
      exists o'. split; [exact K'|]. split.
      * intros Er I. apply in_app_or in I. destruct I as [I|I].
        -- destruct B' as [-> | B']; [exact (A1 I)|]. eapply annotated_trans; [exact (A1 I)|exact B'].
        -- destruct T as [-> | T]; [exact (A' Er I)|]. eapply annotated_trans; [exact T|exact (A' Er I)].
      * destruct T as [-> | T]; [exact B'|]. right. destruct B' as [-> | B']; [exact T|].
        eapply annotated_trans; eassumption.
    + injection E as <- <-. split; [split; [intros _; left; reflexivity|reflexivity]|]. split; [reflexivity|].
      intros o _ _ C. exists o. split; [exact C|]. split; [discriminate|left; reflexivity].
    + destruct (IH _ _ _ n E) as (A & B & C).
      split; [rewrite A; cbn; split; [auto|intros [H|H]; [discriminate|exact H]]|]. split; [exact B|exact C].
Qed.

Lemma deannotated_gone : forall o o', deannotated scaleDownAnnotations o o' -> get ByMCM (entries (nAnn o')) = None.
Proof. intros o o' (_ & _ & D). rewrite D. reflexivity. Qed.

Lemma GetAnn_quiet : forall n h o, n <> "" -> current h = Some o -> GetAnnotationsFromNode n None h = inl (nAnn o).
Proof. intros n h o N C. unfold GetAnnotationsFromNode. destruct (String.eqb_spec n ""); [contradiction|]. rewrite C. reflexivity. Qed.

Lemma unannotateMachines_spec : forall gf env l ns ns' err n, unannotateMachines gf env l ns = (ns', err) ->
  (~ In n l -> ns' n = ns n) /\
  (n <> "" -> gf n = None -> forall o, current (ns n) = Some o ->
     (get ByMCM (entries (nAnn o)) = None -> ns' n = ns n) /\
     (quiet (env n) -> get ByMCM (entries (nAnn o)) <> None ->
        ns' n = ns n /\ ~ (err = false /\ In n l) \/
        exists o', current (ns' n) = Some o' /\ deannotated scaleDownAnnotations o o')).
Proof.
  intros gf env l. induction l as [|x l IH]; intros ns ns' err n E; cbn [unannotateMachines] in E.
  - injection E as <- <-. split; [reflexivity|]. intros _ _ o C. split; [reflexivity|].
    intros _ _. left. split; [reflexivity|]. intros [_ []].
  - destruct (String.eqb_spec x "") as [->|X].
    + destruct (IH _ _ _ n E) as [P Q]. split; [intros H; apply P; intros I; apply H; right; exact I|].
      intros N G o C. destruct (Q N G o C) as [Q1 Q2]. split; [exact Q1|]. intros U B.
      destruct (Q2 U B) as [[R S]|R]; [left|right; exact R]. split; [exact R|].
      intros [Er [I|I]]; [congruence|]. apply S. auto.
    + destruct (GetAnnotationsFromNode x (gf x) (ns x)) as [a|] eqn:GA.
      2:{ injection E as <- <-. split; [reflexivity|]. intros _ _ o C. split; [reflexivity|].
          intros _ _. left. split; [reflexivity|]. intros [H _]. discriminate. }
      change (match a with None => [] | Some m => m end) with (entries a) in E.
      destruct (get ByMCM (entries a)) eqn:GB.
      * destruct (RemoveAnnotationsOffNode x (Some scaleDownAnnotations) (env x) (ns x)) as [h e] eqn:R.
        destruct (String.eqb_spec n x) as [->|D].
        -- (* the node itself *)
           split; [intros H; exfalso; apply H; left; reflexivity|].
           intros N G o C. rewrite G, (GetAnn_quiet x (ns x) o N C) in GA. injection GA as <-.
           split; [congruence|]. intros U _. right.
           destruct (quiet_deannotate x scaleDownAnnotations (env x) (ns x) o N U C) as (h' & o' & R' & C' & A').
           rewrite R in R'. injection R' as -> ->.
           destruct (IH _ _ _ x E) as [P Q].
           assert (C1 : current (setHist x h' ns x) = Some o').
           { unfold setHist. rewrite String.eqb_refl. exact C'. }
           destruct (Q N G o' C1) as [Q1 _]. rewrite (Q1 (deannotated_gone _ _ A')). exists o'. auto.
        -- assert (S : setHist x h ns n = ns n).
           { unfold setHist. destruct (String.eqb_spec n x); [contradiction|reflexivity]. }
           destruct e as [e|].
           ++ injection E as <- <-. rewrite S. split; [reflexivity|]. intros _ _ o C. split; [reflexivity|].
              intros _ _. left. split; [reflexivity|]. intros [H _]. discriminate.
           ++ destruct (IH _ _ _ n E) as [P Q]. rewrite S in P, Q.
              split; [intros H; apply P; intros I; apply H; right; exact I|].
              intros N G o C. destruct (Q N G o C) as [Q1 Q2]. split; [exact Q1|]. intros U B.
              destruct (Q2 U B) as [[R1 S1]|R1]; [left|right; exact R1]. split; [exact R1|].
              intros [Er [I|I]]; [congruence|]. apply S1. auto.
      * destruct (IH _ _ _ n E) as [P Q]. split; [intros H; apply P; intros I; apply H; right; exact I|].
        intros N G o C. destruct (Q N G o C) as [Q1 Q2]. split; [exact Q1|]. intros U B.
        destruct (Q2 U B) as [[R1 S1]|R1]; [left|right; exact R1]. split; [exact R1|].
        intros [Er [I|I]]; [|apply S1; auto]. subst x. rewrite G, (GetAnn_quiet n (ns n) o N C) in GA.
        injection GA as <-. contradiction.
Qed.

Lemma unannotateMachines_ok : forall gf env l ns,
  (forall n, In n l -> n <> "" -> gf n = None /\ quiet (env n)) ->
  snd (unannotateMachines gf env l ns) = false.
Proof.
  intros gf env l. induction l as [|x l IH]; intros ns H; cbn [unannotateMachines]; [reflexivity|].
  assert (T : forall n, In n l -> n <> "" -> gf n = None /\ quiet (env n)) by (intros n I; apply H; right; exact I).
  destruct (String.eqb_spec x "") as [->|X]; [apply IH; exact T|].
  destruct (H x (or_introl eq_refl) X) as [G U]. rewrite G.
  destruct (current (ns x)) as [o|] eqn:C.
  - rewrite (GetAnn_quiet x (ns x) o X C).
    destruct (get ByMCM _); [|apply IH; exact T].
    destruct (quiet_deannotate x scaleDownAnnotations (env x) (ns x) o X U C) as (h' & o' & -> & _).
    apply IH. exact T.
  - unfold GetAnnotationsFromNode. destruct (String.eqb_spec x ""); [contradiction|]. rewrite C. cbn [get]. apply IH. exact T.
Qed.

Lemma unannotateNodes_spec : forall gf env sets ns ns' err n, unannotateNodes gf env sets ns = (ns', err) ->
  (~ In n (names' sets) -> ns' n = ns n) /\
  (n <> "" -> gf n = None -> forall o, current (ns n) = Some o ->
     (get ByMCM (entries (nAnn o)) = None -> ns' n = ns n) /\
     (quiet (env n) -> get ByMCM (entries (nAnn o)) <> None ->
        ns' n = ns n /\ ~ (err = false /\ In n (names' sets)) \/
        exists o', current (ns' n) = Some o' /\ deannotated scaleDownAnnotations o o')).
Proof.
  intros gf env sets. induction sets as [|s sets IH]; intros ns ns' err n E; cbn [unannotateNodes] in E.
  - injection E as <- <-. split; [reflexivity|]. intros _ _ o C. split; [reflexivity|].
    intros _ _. left. split; [reflexivity|]. intros [_ []].
  - destruct s as [l|].
    + destruct (unannotateMachines gf env l ns) as [ns1 e1] eqn:M.
      destruct (unannotateMachines_spec _ _ _ _ _ _ n M) as [P Q].
      unfold names' in *. cbn [map List.concat]. destruct e1.
      * injection E as <- <-. split; [intros H; apply P; intros I; apply H; apply in_or_app; left; exact I|].
        intros N G o C. destruct (Q N G o C) as [Q1 Q2]. split; [exact Q1|]. intros U B.
        destruct (Q2 U B) as [[R S]|R]; [left|right; exact R]. split; [exact R|]. intros [H _]; discriminate.
      * destruct (IH _ _ _ n E) as [P' Q'].
        split; [intros H; rewrite P', P; [reflexivity| |]; intros I; apply H; apply in_or_app; auto|].
        intros N G o C. destruct (Q N G o C) as [Q1 Q2]. split.
        -- intros B. specialize (Q1 B). rewrite Q1 in Q'. rewrite <- Q1. destruct (Q' N G o C) as [Q1' _]. rewrite Q1. exact (Q1' B).
        -- intros U B. destruct (Q2 U B) as [[R S]|R].
           ++ rewrite R in Q'. destruct (Q' N G o C) as [_ Q2']. destruct (Q2' U B) as [[R' S']|R']; [left|right; exact R'].
              split; [congruence|]. intros [Er I]. apply in_app_or in I. destruct I as [I|I]; [apply S; auto|apply S'; auto].
           ++ right. destruct R as (o1 & C1 & A1). destruct (Q' N G o1 C1) as [Q1' _].
              rewrite (Q1' (deannotated_gone _ _ A1)). exists o1. auto.
    + injection E as <- <-. split; [reflexivity|]. intros _ _ o C. split; [reflexivity|].
      intros _ _. left. split; [reflexivity|]. intros [H _]; discriminate.
Qed.

Lemma unannotateNodes_ok : forall gf env sets ns, ~ In None sets ->
  (forall n, In n (names' sets) -> n <> "" -> gf n = None /\ quiet (env n)) ->
  snd (unannotateNodes gf env sets ns) = false.
Proof.
  intros gf env sets. induction sets as [|s sets IH]; intros ns N H; cbn [unannotateNodes]; [reflexivity|].
  destruct s as [l|]; [|exfalso; apply N; left; reflexivity].
  pose proof (unannotateMachines_ok gf env l ns) as M.
  destruct (unannotateMachines gf env l ns) as [ns1 e1]. cbn [snd] in M. rewrite M.
  - apply IH; [intros I; apply N; right; exact I|]. intros n I. apply H. unfold names'. cbn [map List.concat].
    apply in_or_app. right. exact I.
  - intros n I. apply H. unfold names'. cbn [map List.concat]. apply in_or_app. left. exact I.
Qed.

Lemma annotates_iff : forall sw old, annotates sw old = true <->
  sw = true /\ exists c, In c old /\ 0 < ctSpec c /\ 0 < ctAvailable c /\ 0 < ctLabelled c /\ 0 < ctReady c /\ 0 < ctReplicas c.
Proof.
  intros sw old. unfold annotates, machineSetsScaledToZero. rewrite negb_involutive, !andb_true_iff, existsb_exists. split.
  - intros [[A _] [c [I B]]]. split; [exact A|]. exists c. split; [exact I|].
    rewrite !andb_true_iff, !negb_true_iff, !Nat.eqb_neq in B. lia.
  - intros [A [c [I B]]]. split; [split; [exact A|destruct old; [destruct I|reflexivity]]|].
    exists c. split; [exact I|]. rewrite !andb_true_iff, !negb_true_iff, !Nat.eqb_neq. lia.
Qed.

(* ---- the termination condition ---- *)

Lemma termination_fields : forall phase now old, let c := terminationCondition phase now old in
  cType c = "Terminating" /\ cStatus c = "True".
Proof.
  intros phase now old. cbv zeta. unfold terminationCondition.
  destruct old as [c|]; [destruct (String.eqb phase "Terminating")|];
    try (split; reflexivity); destruct (terminationReason phase); split; reflexivity.
Qed.

Lemma termination_lemma : forall phase now fail between r rest h h' e,
  UpdateNodeTerminationCondition phase now fail between (r :: rest) h = (h', e) ->
  phase <> "" -> phase <> "CrashLoopBackOff" -> fail = None -> forall o, current h = Some o ->
  let h1 := others (rdOthers r) (others between h) in
  let c := terminationCondition phase now (getNodeCondition (nConds o) "Terminating") in
  (e = None -> wrote (conditioned c) h1 h' \/ h' = h1 /\ (rdRead r = inr Absent \/ seen (others between h) None)) /\
  (e <> None -> h' = h1).
Proof.
  intros phase now fail between r rest h h' e E P1 P2 -> o C. unfold UpdateNodeTerminationCondition in E.
  destruct (String.eqb_spec phase ""); [contradiction|]. destruct (String.eqb_spec phase "CrashLoopBackOff"); [contradiction|].
  cbn [orb] in E. rewrite C in E. cbv zeta. remember (terminationCondition phase now (getNodeCondition (nConds o) "Terminating")) as c eqn:K.
  destruct (termination_fields phase now (getNodeCondition (nConds o) "Terminating")) as [T S]. rewrite <- K in T, S.
  destruct (AddOrUpdateConditionsOnNode c (r :: rest) (others between h)) as [h0 e0] eqn:A.
  apply condition_lemma in A; [|rewrite T; discriminate|rewrite S; discriminate]. cbv zeta in A. destruct A as (A1 & A2 & A3).
  destruct e0 as [[]|]; injection E as <- <-.
  - split; [discriminate|]. intros _. apply A2. discriminate.
  - split; [|congruence]. intros _. right. split; [apply A2; discriminate|apply A3; reflexivity].
  - split; [discriminate|]. intros _. apply A2. discriminate.
  - split; [|congruence]. intros _. left. apply A1. reflexivity.
Qed.
