Require Import List String Ascii Bool Arith Permutation.
From Verif Require Import Sort MetaModel MetaSpec MetaProofs TaintModel TaintSpec TaintProofs AnnoModel AnnoSpec.
Import ListNotations.
Open Scope string_scope.
Open Scope list_scope.

(* ---- annotations ---- *)

Lemma add_fst : forall n anns,
  AddOrUpdateAnnotation n anns = (Some (fst (putAll anns (entries n) false)), snd (putAll anns (entries n) false)).
Proof.
  intros n anns. unfold AddOrUpdateAnnotation. fold (entries n).
  destruct (putAll anns (entries n) false). reflexivity.
Qed.

Lemma add_get : forall n anns k, isMap anns ->
  get k (entries (fst (AddOrUpdateAnnotation n anns))) =
  match get k anns with Some v => Some v | None => get k (entries n) end.
Proof. intros n anns k H. rewrite add_fst. cbn [fst entries]. apply putAll_get. exact H. Qed.

Lemma add_anno_spec : forall n anns, isMap anns -> isMap (entries n) ->
  let '(r, u) := AddOrUpdateAnnotation n anns in
  isMap (entries r) /\
  (forall k v, In (k, v) anns -> In (k, v) (entries r)) /\
  (forall k v, ~ In k (keys anns) -> (In (k, v) (entries r) <-> In (k, v) (entries n))) /\
  (u = false <-> forall k v, In (k, v) anns -> In (k, v) (entries n)) /\
  (u = false -> entries r = entries n).
Proof.
  intros n anns A N. rewrite add_fst. set (m := entries n) in *. cbn [entries].
  assert (M : isMap (fst (putAll anns m false))) by (apply putAll_isMap; exact N).
  split; [exact M|]. split; [|split; [|split]].
  - intros k v I. apply get_In. rewrite putAll_get by exact A. rewrite (In_get _ _ _ A I). reflexivity.
  - intros k v NI. apply get_None in NI.
    assert (E : get k (fst (putAll anns m false)) = get k m).
    { rewrite putAll_get by exact A. rewrite NI. reflexivity. }
    split; intros I; apply get_In.
    + rewrite <- E. apply In_get; assumption.
    + rewrite E. apply In_get; assumption.
  - split.
    + intros F k v I. apply putAll_false in F. destruct F as [_ [F _]]. apply get_In. apply F. exact I.
    + intros H. clear A. induction anns as [|[k v] anns IH]; cbn [putAll]; [reflexivity|].
      rewrite (In_get k v m N) by (apply H; left; reflexivity). rewrite String.eqb_refl. apply IH.
      * clear IH. intros. apply putAll_isMap. exact N.
      * intros k' v' I. apply H. right. exact I.
  - intros F. apply putAll_false in F. tauto.
Qed.

Lemma delete_get : forall n anns,
  (forall k v, In (k, v) (fst (DeleteAnnotation n anns)) <-> In (k, v) n /\ ~ In k (keys anns)) /\
  (snd (DeleteAnnotation n anns) = true <-> exists k, In k (keys n) /\ In k (keys anns)) /\
  (snd (DeleteAnnotation n anns) = false -> fst (DeleteAnnotation n anns) = n).
Proof.
  intros n anns. induction n as [|[k0 v0] n [IH1 [IH2 IH3]]]; cbn [DeleteAnnotation fst snd].
  - split; [intros k v; tauto|]. split; [|reflexivity]. split; [discriminate|]. intros [k [[] _]].
  - destruct (DeleteAnnotation n anns) as [r d]. cbn [fst snd] in *.
    destruct (get k0 anns) eqn:G; cbn [fst snd].
    + assert (K : In k0 (keys anns)) by (eapply In_keys; apply get_In; exact G).
      split; [|split; [|discriminate]].
      * intros k v. rewrite IH1. split; [intros [A B]; split; [right; exact A|exact B]|].
        intros [[A|A] B]; [|tauto]. injection A as <- <-. contradiction.
      * split; [|reflexivity]. intros _. exists k0. split; [left; reflexivity|exact K].
    + apply get_None in G. split; [|split].
      * intros k v. cbn [In]. rewrite IH1. split.
        -- intros [A|[A B]]; [|tauto]. injection A as <- <-. tauto.
        -- tauto.
      * rewrite IH2. split; intros [k [A B]]; exists k; (split; [|exact B]).
        -- right. exact A.
        -- destruct A as [A|A]; [|exact A]. cbn in A. subst. contradiction.
      * intros F. rewrite (IH3 F). reflexivity.
Qed.

Lemma delete_isMap : forall n anns, isMap n -> isMap (fst (DeleteAnnotation n anns)).
Proof.
  intros n anns. unfold isMap. induction n as [|[k v] n IH]; cbn [DeleteAnnotation fst]; intros H; [constructor|].
  inversion H as [|? ? NI ND]; subst.
  pose proof (delete_get n anns) as [D _].
  destruct (DeleteAnnotation n anns) as [r d]. cbn [fst] in *.
  destruct (get k anns); cbn [fst]; [auto|]. cbn [keys map]. constructor; [|auto].
  intros I. apply NI. apply in_map_iff in I. destruct I as [[k' v'] [E I]]. cbn in E. subst k'.
  apply D in I. cbn [fst]. eapply In_keys. apply I.
Qed.

Lemma delete_get_eq : forall n anns k, isMap n ->
  get k (fst (DeleteAnnotation n anns)) = match get k anns with Some _ => None | None => get k n end.
Proof.
  intros n anns k N. destruct (delete_get n anns) as [D _].
  destruct (get k anns) eqn:G.
  - apply get_None. intros I. apply in_map_iff in I. destruct I as [[k' v'] [E I]]. cbn in E. subst k'.
    apply D in I. destruct I as [_ I]. apply I. eapply In_keys. apply get_In. exact G.
  - apply get_None in G. destruct (get k n) eqn:E.
    + apply In_get; [apply delete_isMap; exact N|]. apply D. split; [apply get_In; exact E|exact G].
    + apply get_None. intros I. apply in_map_iff in I. destruct I as [[k' v'] [Q I]]. cbn in Q. subst k'.
      apply D in I. apply get_None in E. apply E. eapply In_keys. apply I.
Qed.

Lemma remove_anno_spec : forall n anns,
  let '(r, d) := RemoveAnnotation n anns in
  withoutKeys (entries anns) (entries n) (entries r) /\
  (d = true <-> exists k, In k (keys (entries n)) /\ In k (keys (entries anns))) /\
  (d = false -> r = n).
Proof.
  intros [n|] [anns|]; unfold RemoveAnnotation.
  2-4: cbn [entries keys map]; split; [|split; [split; [discriminate|intros (k & I & J); contradiction]|reflexivity]].
  - pose proof (delete_get n anns) as [A [B C]].
    destruct (DeleteAnnotation n anns) as [r d]. cbn [fst snd entries] in *.
    split; [exact A|]. split; [exact B|]. intros F. rewrite (C F). reflexivity.
  - intros k v. cbn. tauto.
  - intros k v. cbn. tauto.
  - intros k v. cbn. tauto.
Qed.

(* ---- conditions ---- *)

Lemma condLoop_kept : forall l c, fst (condLoop l c) = filter (fun x => negb (String.eqb (cType x) (cType c))) l.
Proof.
  induction l as [|x l IH]; intros c; cbn [condLoop filter]; [reflexivity|].
  destruct (String.eqb_spec (cType x) (cType c)) as [E|N]; cbn [negb].
  - destruct (String.eqb (cStatus x) (cStatus c) && String.eqb (cReason x) (cReason c)); rewrite IH; reflexivity.
  - pose proof (IH c) as H. destruct (condLoop l c) as [r c']. cbn [fst] in *. rewrite H. reflexivity.
Qed.

Definition sameSR (x c : NCond) : Prop := cType x = cType c /\ cStatus x = cStatus c /\ cReason x = cReason c.

Lemma condLoop_new : forall l c,
  exists t, snd (condLoop l c) = withTransition c t /\
  ((exists x, In x l /\ sameSR x c /\ t = cTransition x) \/
   (t = cTransition c /\ forall x, In x l -> ~ sameSR x c)).
Proof.
  induction l as [|x l IH]; intros c; cbn [condLoop].
  - exists (cTransition c). split; [destruct c; reflexivity|]. right. split; [reflexivity|intros x []].
  - destruct (String.eqb_spec (cType x) (cType c)) as [E|N]; cbn [negb].
    + destruct (String.eqb_spec (cStatus x) (cStatus c)) as [ES|NS];
      [destruct (String.eqb_spec (cReason x) (cReason c)) as [ER|NR]|]; cbn [andb].
      * destruct (IH (withTransition c (cTransition x))) as [t [S H]]. exists t. split; [exact S|].
        left. destruct H as [[y [I [SR T]]]|[T _]].
        -- exists y. split; [right; exact I|]. split; [exact SR|exact T].
        -- exists x. split; [left; reflexivity|]. split; [split; [exact E|split; assumption]|exact T].
      * destruct (IH c) as [t [S H]]. exists t. split; [exact S|]. destruct H as [[y [I [SR T]]]|[T H]].
        -- left. exists y. split; [right; exact I|]. split; assumption.
        -- right. split; [exact T|]. intros y [<-|I]; [intros [_ [_ R]]; congruence|auto].
      * destruct (IH c) as [t [S H]]. exists t. split; [exact S|]. destruct H as [[y [I [SR T]]]|[T H]].
        -- left. exists y. split; [right; exact I|]. split; assumption.
        -- right. split; [exact T|]. intros y [<-|I]; [intros [_ [R _]]; congruence|auto].
    + destruct (IH c) as [t [S H]]. destruct (condLoop l c) as [r c']. cbn [snd] in *.
      exists t. split; [exact S|]. destruct H as [[y [I [SR T]]]|[T H]].
      * left. exists y. split; [right; exact I|]. split; assumption.
      * right. split; [exact T|]. intros y [<-|I]; [intros [R _]; congruence|auto].
Qed.

Lemma cond_spec : forall l c, cType c <> "" -> cStatus c <> "" ->
  exists t,
    CloneAndAddCondition l c =
      filter (fun x => negb (String.eqb (cType x) (cType c))) l ++ [withTransition c t] /\
    ((exists x, In x l /\ sameSR x c /\ t = cTransition x) \/
     (t = cTransition c /\ forall x, In x l -> ~ sameSR x c)).
Proof.
  intros l c T S. destruct (condLoop_new l c) as [t [E H]]. exists t. split; [|exact H].
  unfold CloneAndAddCondition.
  destruct (String.eqb_spec (cType c) "") as [X|_]; [congruence|].
  destruct (String.eqb_spec (cStatus c) "") as [X|_]; [congruence|]. cbn [orb].
  pose proof (condLoop_kept l c) as K. destruct (condLoop l c) as [r c']. cbn [fst snd] in *. congruence.
Qed.

(* ---- the autoscaler ---- *)

Lemma sda_isMap : isMap scaleDownAnnotations.
Proof. repeat constructor; cbn; intuition discriminate. Qed.

Lemma sda_get : forall k, k <> ScaleDownDisabled -> k <> ByMCM -> get k scaleDownAnnotations = None.
Proof.
  intros k A B. cbn [scaleDownAnnotations get].
  destruct (String.eqb_spec k ScaleDownDisabled); [congruence|].
  destruct (String.eqb_spec k ByMCM); [congruence|reflexivity].
Qed.

Lemma sda_keys : forall k, get k scaleDownAnnotations <> None -> k = ScaleDownDisabled \/ k = ByMCM.
Proof.
  intros k. cbn [scaleDownAnnotations get].
  destruct (String.eqb_spec k ScaleDownDisabled); [auto|].
  destruct (String.eqb_spec k ByMCM); [auto|congruence].
Qed.

Lemma annotate_map : forall n, isMap (entries n) -> isMap (entries (annotateNode n)).
Proof. intros n H. unfold annotateNode. rewrite add_fst. cbn [fst entries]. apply putAll_isMap. exact H. Qed.

Lemma annotate_get : forall n k,
  get k (entries (annotateNode n)) =
  match get k scaleDownAnnotations with Some v => Some v | None => get k (entries n) end.
Proof. intros n k. apply add_get. exact sda_isMap. Qed.

Lemma unannotate_get : forall n k, isMap (entries n) ->
  get k (entries (unannotateNode n)) =
  match get ByMCM (entries n) with
  | None => get k (entries n)
  | Some _ => match get k scaleDownAnnotations with Some _ => None | None => get k (entries n) end
  end.
Proof.
  intros n k H. destruct n as [m|]; cbn [unannotateNode entries] in *; [|reflexivity].
  destruct (get ByMCM m) eqn:G; [|reflexivity].
  cbn [RemoveAnnotation].
  pose proof (delete_get_eq m scaleDownAnnotations k H) as D.
  destruct (DeleteAnnotation m scaleDownAnnotations) as [r d]. cbn [fst entries] in *. exact D.
Qed.

Lemma unannotate_map : forall n, isMap (entries n) -> isMap (entries (unannotateNode n)).
Proof.
  intros n H. destruct n as [m|]; cbn [unannotateNode entries] in *; [|exact H].
  destruct (get ByMCM m); [|exact H]. cbn [RemoveAnnotation].
  pose proof (delete_isMap m scaleDownAnnotations H) as D.
  destruct (DeleteAnnotation m scaleDownAnnotations) as [r d]. exact D.
Qed.

Lemma nstep_map : forall n e, isMap (entries n) -> isMap (entries (nstep n e)).
Proof.
  intros n [| |k v|k] H; cbn [nstep].
  - apply annotate_map. exact H.
  - apply unannotate_map. exact H.
  - cbn [entries]. apply isMap_put. exact H.
  - destruct n as [m|]; cbn [entries] in *; [apply isMap_del; exact H|exact H].
Qed.

Lemma nstep_user_get : forall n e k, byOthers e = true ->
  get k (entries (nstep n e)) =
  match e with
  | UserSets k' v => if String.eqb k k' then Some v else get k (entries n)
  | UserRemoves k' => if String.eqb k k' then None else get k (entries n)
  | _ => get k (entries n)
  end.
Proof.
  intros n e k B. destruct e as [| |k' v|k']; try discriminate; cbn [nstep].
  - cbn [entries]. apply get_put.
  - destruct n as [m|]; cbn [entries]; [apply get_del|]. destruct (String.eqb k k'); reflexivity.
Qed.

Definition sdKey (k : string) : Prop := k = ScaleDownDisabled \/ k = ByMCM.

(* other keys: our own events leave no trace *)
Lemma run_other : forall es n n' k, ~ sdKey k -> isMap (entries n) -> isMap (entries n') ->
  get k (entries n) = get k (entries n') ->
  get k (entries (nrun n es)) = get k (entries (nrun n' (filter byOthers es))).
Proof.
  induction es as [|e es IH]; intros n n' k NK M M' E; [exact E|].
  unfold nrun in *. cbn [fold_left filter].
  assert (KG : get k scaleDownAnnotations = None).
  { apply sda_get; intros ->; apply NK; [left|right]; reflexivity. }
  destruct (byOthers e) eqn:B.
  - cbn [fold_left]. apply IH; [exact NK|apply nstep_map; exact M|apply nstep_map; exact M'|].
    rewrite !nstep_user_get by exact B. destruct e as [| |k' v|k']; try discriminate; rewrite E; reflexivity.
  - apply IH; [exact NK|apply nstep_map; exact M|exact M'|].
    destruct e as [| |k' v|k']; try discriminate; cbn [nstep].
    + rewrite annotate_get, KG. exact E.
    + rewrite unannotate_get by exact M. rewrite KG. destruct (get ByMCM (entries n)); exact E.
Qed.

(* while others keep off the two keys, they are both there or both absent *)
Lemma run_both : forall es n, isMap (entries n) ->
  (forall e, In e es -> ~ touches ScaleDownDisabled e /\ ~ touches ByMCM e) ->
  (get ByMCM (entries n) = None -> get ScaleDownDisabled (entries n) = None) ->
  isMap (entries (nrun n es)) /\
  (get ByMCM (entries (nrun n es)) = None -> get ScaleDownDisabled (entries (nrun n es)) = None).
Proof.
  induction es as [|e es IH]; intros n M T H; [split; assumption|].
  unfold nrun in *. cbn [fold_left]. apply IH; [apply nstep_map; exact M|intros e' I; apply T; right; exact I|].
  destruct (T e (or_introl eq_refl)) as [T1 T2].
  destruct e as [| |k v|k]; cbn [touches] in *.
  - cbn [nstep]. rewrite !annotate_get. cbn [scaleDownAnnotations get]. rewrite String.eqb_refl.
    destruct (String.eqb_spec ByMCM ScaleDownDisabled) as [X|_]; [discriminate|]. rewrite String.eqb_refl. discriminate.
  - cbn [nstep]. rewrite !unannotate_get by exact M. destruct (get ByMCM (entries n)) eqn:G.
    + cbn [scaleDownAnnotations get]. rewrite !String.eqb_refl. reflexivity.
    + exact (fun _ => H eq_refl).
  - rewrite !nstep_user_get by reflexivity.
    destruct (String.eqb_spec ByMCM k); [congruence|]. destruct (String.eqb_spec ScaleDownDisabled k); [congruence|]. exact H.
  - rewrite !nstep_user_get by reflexivity.
    destruct (String.eqb_spec ByMCM k); [congruence|]. destruct (String.eqb_spec ScaleDownDisabled k); [congruence|]. exact H.
Qed.

Lemma run_untouched : forall es n k, isMap (entries n) -> sdKey k ->
  (forall e, In e es -> ~ touches ScaleDownDisabled e /\ ~ touches ByMCM e) ->
  get k (entries (nrun n (filter byOthers es))) = get k (entries n).
Proof.
  induction es as [|e es IH]; intros n k M K T; [reflexivity|].
  unfold nrun in *. cbn [filter]. destruct (byOthers e) eqn:B.
  - cbn [fold_left]. rewrite IH; [|apply nstep_map; exact M|exact K|intros e' I; apply T; right; exact I].
    destruct (T e (or_introl eq_refl)) as [T1 T2]. rewrite nstep_user_get by exact B.
    destruct e as [| |k' v|k']; try discriminate; cbn [touches] in *;
      destruct (String.eqb_spec k k') as [E|N]; try reflexivity; exfalso; subst k'; destruct K; auto.
  - apply IH; [exact M|exact K|intros e' I; apply T; right; exact I].
Qed.

Lemma run_roundtrip : forall es n k, isMap (entries n) ->
  (forall e, In e es -> ~ touches ScaleDownDisabled e /\ ~ touches ByMCM e) ->
  get ByMCM (entries n) = None -> get ScaleDownDisabled (entries n) = None ->
  get k (entries (nrun n (es ++ [Unannotate]))) = get k (entries (nrun n (filter byOthers es))).
Proof.
  intros es n k M T B S. unfold nrun at 1. rewrite fold_left_app. cbn [fold_left nstep].
  change (fold_left nstep es n) with (nrun n es).
  destruct (run_both es n M T) as [M' H]; [auto|].
  rewrite unannotate_get by exact M'.
  destruct (get k scaleDownAnnotations) eqn:G.
  - assert (K : sdKey k) by (apply sda_keys; congruence).
    rewrite (run_untouched es n k M K T).
    assert (N0 : get k (entries n) = None) by (destruct K; subst k; assumption). rewrite N0.
    destruct (get ByMCM (entries (nrun n es))) eqn:G2; [reflexivity|].
    destruct K; subst k; [apply H; reflexivity|exact G2].
  - assert (NK : ~ sdKey k).
    { intros [K|K]; subst k; vm_compute in G; discriminate. }
    rewrite (run_other es n n k NK M M eq_refl).
    destruct (get ByMCM (entries (nrun n es))); reflexivity.
Qed.

Lemma run_not_ours : forall es n, isMap (entries n) ->
  get ByMCM (entries n) = None ->
  (forall e, In e es -> e <> Annotate /\ (forall v, e <> UserSets ByMCM v)) ->
  nrun n es = nrun n (filter byOthers es).
Proof.
  induction es as [|e es IH]; intros n M B T; [reflexivity|].
  unfold nrun in *. cbn [fold_left filter].
  destruct (T e (or_introl eq_refl)) as [T1 T2].
  destruct e as [| |k v|k]; cbn [byOthers].
  - congruence.
  - assert (E : nstep n Unannotate = n).
    { cbn [nstep]. destruct n as [m|]; cbn [unannotateNode entries] in *; [rewrite B|]; reflexivity. }
    rewrite E. apply IH; [exact M|exact B|intros e I; apply T; right; exact I].
  - cbn [fold_left]. apply IH; [apply nstep_map; exact M| |intros e I; apply T; right; exact I].
    rewrite nstep_user_get by reflexivity. destruct (String.eqb_spec ByMCM k) as [E|N]; [|exact B].
    subst. exfalso. apply (T2 v). reflexivity.
  - cbn [fold_left]. apply IH; [apply nstep_map; exact M| |intros e I; apply T; right; exact I].
    rewrite nstep_user_get by reflexivity. destruct (String.eqb ByMCM k); [reflexivity|exact B].
Qed.

(* ---- machines named for deletion ---- *)

Lemma mark_spec : forall n ms x,
  mark n ms x = if String.eqb x n then option_map (fun m => mkTMachine (tmOwner m) (tmGoing m) "1") (ms x) else ms x.
Proof. intros. unfold mark. destruct (String.eqb x n); [destruct (ms x)|]; reflexivity. Qed.

Lemma markLoop_spec : forall fails names ms,
  let '(ms', skip, e) := markLoop fails names ms in
  onlyMarked names ms ms' /\
  (e = false -> allMarked names ms ms' /\
     forall x, In x skip <-> In x names /\ ~ markable ms x) /\
  ((forall n, fails n = false) -> e = false).
Proof.
  intros fails. induction names as [|n names IH]; intros ms; cbn [markLoop].
  - split; [intros x; left; reflexivity|]. split; [|reflexivity]. intros _. split; [intros x m []|].
    intros x. cbn. tauto.
  - assert (SKIP : (ms n = None \/ exists m, ms n = Some m /\ tmGoing m = true) ->
      let '(ms', skip, e) := (let '(r, sk, e) := markLoop fails names ms in (r, n :: sk, e)) in
      onlyMarked (n :: names) ms ms' /\
      (e = false -> allMarked (n :: names) ms ms' /\
         forall x, In x skip <-> In x (n :: names) /\ ~ markable ms x) /\
      ((forall k, fails k = false) -> e = false)).
    { intros NM. specialize (IH ms). destruct (markLoop fails names ms) as [[ms' sk] e].
      destruct IH as [A [B C]]. split; [|split; [|exact C]].
      - intros x. destruct (A x) as [E|[I R]]; [left; exact E|right; split; [right; exact I|exact R]].
      - intros E. destruct (B E) as [B1 B2]. split.
        + intros x m [<-|I] G F; [|eapply B1; eassumption].
          destruct NM as [NM|[m0 [NM NG]]]; congruence.
        + assert (NN : ~ markable ms n).
          { intros [m [G F]]. destruct NM as [NM|[m0 [NM NG]]]; congruence. }
          intros x. cbn [In]. rewrite B2. split.
          * intros [<-|[I N]]; [split; [left; reflexivity|exact NN]|tauto].
          * tauto. }
    destruct (ms n) as [m|] eqn:G.
    2: { apply SKIP. left. reflexivity. }
    destruct (tmGoing m) eqn:GO.
    { apply SKIP. right. exists m. auto. }
    destruct (String.eqb_spec (tmPriority m) "1") as [P|P].
    + specialize (IH ms). destruct (markLoop fails names ms) as [[ms' sk] e]. destruct IH as [A [B C]].
      split; [|split; [|exact C]].
      * intros x. destruct (A x) as [E|[I R]]; [left; exact E|right; split; [right; exact I|exact R]].
      * intros E. destruct (B E) as [B1 B2]. split.
        -- intros x m' [<-|I] G' F; [|eapply B1; eassumption].
           assert (m' = m) by congruence. subst m'.
           destruct (A n) as [EN|[_ [m2 [G2 [_ R]]]]].
           ++ rewrite EN, G. f_equal. destruct m as [o g p]. cbn in *. subst. reflexivity.
           ++ assert (m2 = m) by congruence. subst. exact R.
        -- intros x. rewrite B2. cbn [In]. split; [tauto|]. intros [[<-|I] N]; [|tauto].
           exfalso. apply N. exists m. auto.
    + destruct (fails n) eqn:FN.
      * split; [intros x; left; reflexivity|]. split; [discriminate|]. intros H. rewrite H in FN. discriminate.
      * specialize (IH (mark n ms)). destruct (markLoop fails names (mark n ms)) as [[ms' sk] e].
        destruct IH as [A [B C]]. 
        assert (MK : forall x, markable (mark n ms) x <-> markable ms x).
        { intros x. unfold markable. split; intros [m' [G' F']].
          - rewrite mark_spec in G'. destruct (String.eqb x n); [|eauto].
            destruct (ms x) as [m2|]; [|discriminate]. cbn in G'. injection G' as <-. cbn in F'. eauto.
          - rewrite mark_spec. destruct (String.eqb x n); [|eauto]. rewrite G'. cbn. eexists. split; [reflexivity|]. exact F'. }
        split; [|split; [|exact C]].
        -- intros x. destruct (A x) as [E|[I [m2 [G2 [F2 R]]]]].
           ++ rewrite E, mark_spec. destruct (String.eqb_spec x n) as [EQ|NE]; [|left; reflexivity].
              subst x. right. split; [left; reflexivity|]. exists m. rewrite G. cbn. auto.
           ++ rewrite mark_spec in G2. destruct (String.eqb_spec x n) as [EQ|NE].
              ** subst x. right. split; [left; reflexivity|]. exists m. rewrite G in G2. cbn in G2.
                 injection G2 as <-. cbn in *. auto.
              ** right. split; [right; exact I|]. exists m2. auto.
        -- intros E. destruct (B E) as [B1 B2]. split.
           ++ intros x m' I G' F.
              assert (MX : exists m2, mark n ms x = Some m2 /\ tmGoing m2 = false /\ tmOwner m2 = tmOwner m' /\ tmGoing m2 = tmGoing m').
              { rewrite mark_spec, G'. destruct (String.eqb x n); cbn; eexists; (split; [reflexivity|]); cbn; auto. }
              destruct MX as [m2 [G2 [F2 [O2 O3]]]].
              destruct I as [<-|I].
              ** destruct (A n) as [EN|[_ [m3 [G3 [_ R]]]]].
                 --- rewrite EN, mark_spec, String.eqb_refl, G'. reflexivity.
                 --- rewrite R. assert (m3 = m2) by congruence. subst. congruence.
              ** rewrite (B1 x m2 I G2 F2). congruence.
           ++ intros x. rewrite B2, MK. cbn [In]. split; [tauto|]. intros [[<-|I] N]; [|tauto].
              exfalso. apply N. exists m. auto.
Qed.

Lemma names_no_comma : forall v x, In x (namesTriggered v) -> contains "," x = false.
Proof.
  intros v x. unfold namesTriggered. destruct (String.eqb v ""); [intros []|]. apply split_parts.
Qed.

Lemma join_empty : forall l, join "," l = "" -> l = [] \/ l = [""].
Proof.
  intros [|s [|q l]] H; [auto| |].
  - cbn in H. subst. auto.
  - exfalso. change (join "," (s :: q :: l)) with (s ++ "," ++ join "," (q :: l))%string in H.
    destruct s; discriminate.
Qed.

Lemma triggered_names : forall l, (forall x, In x l -> contains "," x = false /\ x <> "") ->
  forall x, In x (namesTriggered (triggeredValue l)) <-> In x l.
Proof.
  intros l H x. unfold namesTriggered, triggeredValue.
  assert (P : forall y, In y (isort String.leb l) <-> In y l) by (intros y; apply isort_in).
  destruct (String.eqb_spec (join "," (isort String.leb l)) "") as [E|N].
  - apply join_empty in E. destruct E as [E|E].
    + rewrite <- P, E. tauto.
    + exfalso. assert (I : In "" l) by (apply P; rewrite E; left; reflexivity). apply H in I. tauto.
  - rewrite split_join.
    + apply P.
    + intros E. rewrite E in N. apply N. reflexivity.
    + intros p I. apply P in I. apply H in I. tauto.
Qed.

Lemma remaining_in : forall names skip x, In x (remaining names skip) <-> In x names /\ ~ In x skip.
Proof.
  intros names skip x. unfold remaining. rewrite nodup_In, filter_In, negb_true_iff.
  split; intros [A B]; (split; [exact A|]).
  - intros I. assert (existsb (String.eqb x) skip = true).
    { apply existsb_exists. exists x. split; [exact I|apply String.eqb_refl]. }
    congruence.
  - destruct (existsb (String.eqb x) skip) eqn:E; [|reflexivity]. apply existsb_exists in E.
    destruct E as [y [I E]]. apply String.eqb_eq in E. subst. contradiction.
Qed.

Lemma setPriorities_spec : forall fails mdFails v ms, ms "" = None ->
  let '(ms', v', err) := setPriorities fails mdFails v ms in
  onlyMarked (namesTriggered v) ms ms' /\
  (err = true -> v' = v) /\
  (err = false -> allMarked (namesTriggered v) ms ms' /\
     (forall x, In x (namesTriggered v') <-> In x (namesTriggered v) /\ markable ms x)) /\
  ((forall n, fails n = false) -> mdFails = false -> err = false).
Proof.
  intros fails mdFails v ms E0. unfold setPriorities.
  pose proof (names_no_comma v) as NC.
  destruct (namesTriggered v) as [|n0 names0] eqn:NV.
  { split; [intros x; left; reflexivity|]. split; [discriminate|]. split; [|reflexivity].
    intros _. split; [intros x m []|]. intros x. rewrite NV. cbn. tauto. }
  remember (n0 :: names0) as names.
  pose proof (markLoop_spec fails names ms) as L.
  destruct (markLoop fails names ms) as [[ms' skip] e]. destruct L as [A [B C]].
  destruct e.
  { split; [exact A|]. split; [reflexivity|]. split; [discriminate|]. intros H _. exact (C H). }
  destruct (B eq_refl) as [B1 B2].
  assert (DEC : forall x, {markable ms x} + {~ markable ms x}).
  { intros x. destruct (ms x) as [m|] eqn:G; [destruct (tmGoing m) eqn:GO|].
    - right. intros [m' [G' F]]. congruence.
    - left. exists m. auto.
    - right. intros [m' [G' F]]. congruence. }
  destruct skip as [|s0 skip].
  - split; [exact A|]. split; [discriminate|]. split; [|reflexivity]. intros _. split; [exact B1|].
    intros x. rewrite NV. split; [|tauto]. intros I. split; [exact I|].
    destruct (DEC x); [assumption|]. exfalso. apply (B2 x). auto.
  - destruct mdFails.
    + split; [exact A|]. split; [reflexivity|]. split; [discriminate|]. intros _ H. discriminate.
    + split; [exact A|]. split; [discriminate|]. split; [|reflexivity]. intros _. split; [exact B1|].
      assert (R : forall x, In x (remaining names (s0 :: skip)) <-> In x names /\ markable ms x).
      { intros x. rewrite remaining_in, B2. destruct (DEC x); tauto. }
      intros x. rewrite triggered_names; [apply R|].
      intros y I. apply R in I. destruct I as [I [m [G F]]]. split; [apply NC; exact I|].
      intros ->. congruence.
Qed.

Lemma reconcile_spec : forall on old complete n, isMap (entries n) ->
  let r := nrun n (rolloutEvents on old complete) in
  (on = false \/ (old = false /\ complete = false) -> r = n) /\
  (on = true -> old = true -> complete = false -> get ByMCM (entries r) = Some "true" /\ get ScaleDownDisabled (entries r) = Some "true") /\
  (on = true -> complete = true -> old = true \/ get ByMCM (entries n) <> None -> get ByMCM (entries r) = None /\ get ScaleDownDisabled (entries r) = None) /\
  (forall k, k <> ByMCM -> k <> ScaleDownDisabled -> get k (entries r) = get k (entries n)).
Proof.
  intros on old complete n M r.
  assert (D1 : get ByMCM scaleDownAnnotations = Some "true") by reflexivity.
  assert (D2 : get ScaleDownDisabled scaleDownAnnotations = Some "true") by reflexivity.
  assert (R : r = (let a := if on && old then annotateNode n else n in if complete && on then unannotateNode a else a)).
  { unfold r. destruct on, old, complete; reflexivity. }
  clearbody r. subst r.
  assert (MA : isMap (entries (annotateNode n))) by (apply annotate_map, M).
  split; [|split; [|split]].
  - intros [-> | (-> & ->)]; [rewrite andb_false_r; reflexivity | rewrite andb_false_r; reflexivity].
  - intros -> -> ->. cbn. rewrite !annotate_get, D1, D2. auto.
  - intros -> -> H. cbn [andb]. cbv zeta.
    destruct old; rewrite !unannotate_get by assumption.
    + rewrite !annotate_get, D1, D2. auto.
    + destruct H as [H|H]; [discriminate H|]. destruct (get ByMCM (entries n)); [|congruence]. rewrite D1, D2. auto.
  - intros k K1 K2. assert (K : get k scaleDownAnnotations = None) by (apply sda_get; assumption).
    cbv zeta. destruct (on && old), (complete && on); try rewrite unannotate_get by assumption; rewrite ?annotate_get, ?K; try reflexivity;
      match goal with |- match ?x with _ => _ end = _ => destruct x; reflexivity end.
Qed.
