Require Import List String Bool Arith.
From Verif Require Import MetaModel MetaSpec.
Import ListNotations.
Open Scope string_scope.
Open Scope list_scope.

(* ---- maps ---- *)

Lemma get_In : forall k v m, get k m = Some v -> In (k, v) m.
Proof.
  induction m as [|[k' v'] m IH]; cbn [get]; intros H; [discriminate|].
  destruct (String.eqb_spec k k') as [EQ|NE].
  - injection H as ->. subst. left. reflexivity.
  - right. auto.
Qed.

Lemma get_None : forall k m, get k m = None <-> ~ In k (keys m).
Proof.
  induction m as [|[k' v'] m IH]; cbn [get keys map fst]; [split; auto|].
  destruct (String.eqb_spec k k') as [EQ|NE].
  - split; intros H; [discriminate|]. exfalso. apply H. left. auto.
  - rewrite IH. unfold keys. split; intros H; [intros [E|I]; [congruence|auto]|].
    intros I. apply H. right. exact I.
Qed.

Lemma In_keys : forall k v (m : Map), In (k, v) m -> In k (keys m).
Proof. intros k v m H. apply in_map_iff. exists (k, v). auto. Qed.

Lemma In_get : forall k v m, isMap m -> In (k, v) m -> get k m = Some v.
Proof.
  unfold isMap. induction m as [|[k' v'] m IH]; cbn [get keys map fst In]; intros ND H; [contradiction|].
  inversion ND as [|? ? NI ND']; subst.
  destruct H as [H|H].
  - injection H as -> ->. rewrite String.eqb_refl. reflexivity.
  - destruct (String.eqb_spec k k') as [EQ|NE]; [|auto].
    subst. exfalso. apply NI. eapply In_keys. exact H.
Qed.

Lemma get_ext : forall a b, isMap a -> isMap b -> (forall k, get k a = get k b) ->
  forall k v, In (k, v) a <-> In (k, v) b.
Proof.
  intros a b A B E k v. split; intros H.
  - apply get_In. rewrite <- E. apply In_get; auto.
  - apply get_In. rewrite E. apply In_get; auto.
Qed.

Lemma get_del : forall k k' m, get k (del k' m) = if String.eqb k k' then None else get k m.
Proof.
  intros k k'. induction m as [|[k0 v0] m IH]; unfold del in *; cbn [filter fst get negb].
  - destruct (String.eqb k k'); reflexivity.
  - destruct (String.eqb_spec k' k0) as [EQ|NE]; cbn [negb].
    + subst. rewrite IH. destruct (String.eqb k k0); reflexivity.
    + cbn [get]. rewrite IH. destruct (String.eqb_spec k k0) as [E|N]; [|reflexivity].
      subst. destruct (String.eqb_spec k0 k'); congruence.
Qed.

Lemma get_put : forall k k' v m, get k (put k' v m) = if String.eqb k k' then Some v else get k m.
Proof.
  intros. unfold put. cbn [get]. destruct (String.eqb_spec k k') as [E|N]; [reflexivity|].
  rewrite get_del. destruct (String.eqb_spec k k'); congruence.
Qed.

Lemma keys_del_in : forall k k' m, In k (keys (del k' m)) -> In k (keys m).
Proof.
  intros k k' m H. unfold keys, del in *. apply in_map_iff in H. destruct H as [kv [E I]].
  apply filter_In in I. apply in_map_iff. exists kv. tauto.
Qed.

Lemma isMap_del : forall k m, isMap m -> isMap (del k m).
Proof.
  unfold isMap. intros k. induction m as [|[k0 v0] m IH]; cbn; intros ND; [constructor|].
  inversion ND as [|? ? NI ND']; subst.
  destruct (negb (String.eqb k k0)); cbn; [constructor|]; auto.
  intros I. apply NI. apply (keys_del_in k0 k m). exact I.
Qed.

Lemma isMap_put : forall k v m, isMap m -> isMap (put k v m).
Proof.
  intros k v m H. unfold put, isMap. cbn [keys map fst]. constructor.
  - intros I. change (In k (keys (del k m))) in I.
    assert (N : get k (del k m) = None) by (rewrite get_del, String.eqb_refl; reflexivity).
    apply get_None in N. contradiction.
  - apply isMap_del. exact H.
Qed.

Lemma dropStale_get : forall last m n c k,
  get k (fst (dropStale last m n c)) =
  match get k m with
  | Some _ => get k n
  | None => match get k last with Some _ => None | None => get k n end
  end.
Proof.
  induction last as [|[k0 v0] last IH]; intros m n c k; cbn [dropStale fst get].
  - destruct (get k m); reflexivity.
  - destruct (get k0 m) eqn:G.
    + rewrite IH. destruct (String.eqb_spec k k0) as [E|N]; [|reflexivity].
      subst. rewrite G. reflexivity.
    + rewrite IH, get_del. destruct (String.eqb_spec k k0) as [E|N]; [|reflexivity].
      subst. rewrite G. destruct (get k0 last); reflexivity.
Qed.

Lemma putAll_get : forall m n c k, isMap m ->
  get k (fst (putAll m n c)) = match get k m with Some v => Some v | None => get k n end.
Proof.
  induction m as [|[k0 v0] m IH]; intros n c k ND; cbn [putAll fst get]; [reflexivity|].
  inversion ND as [|? ? NI ND']; subst. cbn [fst] in NI. apply get_None in NI.
  assert (S : forall c', get k (fst (putAll m (put k0 v0 n) c')) =
     (if String.eqb k k0 then Some v0 else match get k m with Some v => Some v | None => get k n end)).
  { intros c'. rewrite IH by exact ND'. rewrite get_put.
    destruct (String.eqb_spec k k0) as [E|N]; [|reflexivity]. subst. rewrite NI. reflexivity. }
  destruct (get k0 n) as [v'|] eqn:G.
  - destruct (String.eqb_spec v0 v') as [E|N].
    + rewrite IH by exact ND'. destruct (String.eqb_spec k k0) as [E2|N2].
      * subst. rewrite NI, G. reflexivity.
      * destruct (get k m); reflexivity.
    + rewrite S. destruct (String.eqb k k0); reflexivity.
  - rewrite S. destruct (String.eqb k k0); reflexivity.
Qed.

Lemma dropStale_isMap : forall last m n c, isMap n -> isMap (fst (dropStale last m n c)).
Proof.
  induction last as [|[k0 v0] last IH]; intros m n c H; cbn [dropStale fst]; [exact H|].
  destruct (get k0 m); apply IH; [exact H|apply isMap_del; exact H].
Qed.

Lemma putAll_isMap : forall m n c, isMap n -> isMap (fst (putAll m n c)).
Proof.
  induction m as [|[k0 v0] m IH]; intros n c H; cbn [putAll fst]; [exact H|].
  destruct (get k0 n) as [v'|]; [destruct (String.eqb v0 v')|]; apply IH; try exact H; apply isMap_put; exact H.
Qed.

Lemma syncMap_unfold : forall m last n,
  syncMap m last n = putAll m (fst (dropStale last m n false)) (snd (dropStale last m n false)).
Proof. intros. unfold syncMap. destruct (dropStale last m n false); reflexivity. Qed.

Lemma syncMap_isMap : forall m last n, isMap n -> isMap (fst (syncMap m last n)).
Proof. intros. rewrite syncMap_unfold. apply putAll_isMap, dropStale_isMap. exact H. Qed.

Lemma syncMap_get : forall m last n k, isMap m ->
  get k (fst (syncMap m last n)) =
  match get k m with
  | Some v => Some v
  | None => match get k last with Some _ => None | None => get k n end
  end.
Proof.
  intros m last n k H. rewrite syncMap_unfold, putAll_get by exact H.
  rewrite dropStale_get. destruct (get k m); reflexivity.
Qed.

(* a get-characterisation gives the statement with membership *)
Lemma synced_of_get : forall skip m last n r,
  isMap m -> isMap n -> isMap r ->
  (forall k, Some k <> skip -> get k r =
     match get k m with
     | Some v => Some v
     | None => match get k last with Some _ => None | None => get k n end
     end) ->
  synced skip m last n r.
Proof.
  intros skip m last n r M N R G. split; [|split].
  - intros k v I S. apply get_In. rewrite G by exact S. rewrite (In_get _ _ _ M I). reflexivity.
  - intros k NM L S. apply get_None. rewrite G by exact S.
    apply get_None in NM. rewrite NM. destruct (get k last) eqn:E; [reflexivity|].
    apply get_None in E. contradiction.
  - intros k v NM NL S. apply get_None in NM. apply get_None in NL.
    assert (E : get k r = get k n) by (rewrite G by exact S; rewrite NM, NL; reflexivity).
    split; intros I; apply get_In.
    + rewrite <- E. apply In_get; assumption.
    + rewrite E. apply In_get; assumption.
Qed.

Lemma syncMap_synced : forall m last n, isMap m -> isMap n ->
  synced None m last n (fst (syncMap m last n)) /\ isMap (fst (syncMap m last n)).
Proof.
  intros m last n M N. split; [|apply syncMap_isMap; exact N].
  apply synced_of_get; auto. { apply syncMap_isMap; exact N. }
  intros k _. apply syncMap_get. exact M.
Qed.

Lemma dropStale_true : forall last m n, snd (dropStale last m n true) = true.
Proof.
  induction last as [|[k v] last IH]; intros; cbn [dropStale snd]; [reflexivity|].
  destruct (get k m); apply IH.
Qed.

Lemma putAll_true : forall m n, snd (putAll m n true) = true.
Proof.
  induction m as [|[k v] m IH]; intros; cbn [putAll snd]; [reflexivity|].
  destruct (get k n) as [v'|]; [destruct (String.eqb v v')|]; apply IH.
Qed.

Lemma dropStale_false : forall last m n c, snd (dropStale last m n c) = false ->
  fst (dropStale last m n c) = n /\ (forall k, In k (keys last) -> In k (keys m)) /\ c = false.
Proof.
  induction last as [|[k0 v0] last IH]; intros m n c H; cbn [dropStale fst snd] in *.
  - split; [reflexivity|]. split; [intros k []|exact H].
  - destruct (get k0 m) eqn:G.
    + destruct (IH _ _ _ H) as [A [B C]]. split; [exact A|]. split; [|exact C].
      intros k [E|I]; [|auto]. cbn [fst] in E. subst. eapply In_keys. apply get_In. exact G.
    + rewrite dropStale_true in H. discriminate.
Qed.

Lemma putAll_false : forall m n c, snd (putAll m n c) = false ->
  fst (putAll m n c) = n /\ (forall k v, In (k, v) m -> get k n = Some v) /\ c = false.
Proof.
  induction m as [|[k0 v0] m IH]; intros n c H; cbn [putAll fst snd] in *.
  - split; [reflexivity|]. split; [intros k v []|exact H].
  - destruct (get k0 n) as [v'|] eqn:G; [destruct (String.eqb_spec v0 v') as [E|N]|].
    + destruct (IH _ _ H) as [A [B C]]. split; [exact A|]. split; [|exact C].
      intros k v [E2|I]; [|auto]. injection E2 as -> ->. rewrite G, E. reflexivity.
    + rewrite putAll_true in H. discriminate.
    + rewrite putAll_true in H. discriminate.
Qed.

(* nothing reported: nothing done *)
Lemma syncMap_unchanged : forall m last n, snd (syncMap m last n) = false ->
  fst (syncMap m last n) = n.
Proof.
  intros m last n H. rewrite syncMap_unfold in *.
  apply putAll_false in H. destruct H as [A [_ C]].
  apply dropStale_false in C. destruct C as [B _]. congruence.
Qed.

(* and conversely, once everything is in place and no recorded key is stale *)
Lemma syncMap_quiet : forall m last n,
  (forall k, In k (keys last) -> In k (keys m)) ->
  (forall k v, In (k, v) m -> get k n = Some v) ->
  syncMap m last n = (n, false).
Proof.
  intros m last n L G. unfold syncMap.
  assert (D : dropStale last m n false = (n, false)).
  { clear G. induction last as [|[k v] last IH]; cbn [dropStale]; [reflexivity|].
    destruct (get k m) eqn:E.
    - apply IH. intros k' I. apply L. right. exact I.
    - exfalso. apply get_None in E. apply E. apply L. left. reflexivity. }
  rewrite D. clear D L last. induction m as [|[k v] m IH]; cbn [putAll]; [reflexivity|].
  rewrite (G k v) by (left; reflexivity). rewrite String.eqb_refl. apply IH.
  intros k' v' I. apply G. right. exact I.
Qed.

Lemma syncMap_twice : forall m last n, isMap m ->
  syncMap m m (fst (syncMap m last n)) = (fst (syncMap m last n), false).
Proof.
  intros m last n M. apply syncMap_quiet; [auto|].
  intros k v I. rewrite syncMap_get by exact M. rewrite (In_get _ _ _ M I). reflexivity.
Qed.

(* ---- taints ---- *)

Lemma sameKE_spec : forall a b, reflect (ke a = ke b) (sameKE a b).
Proof.
  intros a b. unfold sameKE, ke.
  destruct (String.eqb_spec (tKey a) (tKey b)), (String.eqb_spec (tEffect a) (tEffect b)); cbn [andb];
    constructor; congruence.
Qed.

Lemma structEq_eq : forall a b, structEq a b = true -> a = b.
Proof.
  intros [k v e t] [k' v' e' t']. unfold structEq. cbn [tKey tValue tEffect tTime]. intros H.
  repeat rewrite andb_true_iff in H. destruct H as [[[A B] C] D].
  apply String.eqb_eq in A. apply String.eqb_eq in B. apply String.eqb_eq in C.
  destruct t, t'; try discriminate. congruence.
Qed.

Lemma structEq_refl : forall a, tTime a = None -> structEq a a = true.
Proof.
  intros [k v e t]. cbn [tTime]. intros ->. unfold structEq. cbn [tKey tValue tEffect tTime].
  rewrite !String.eqb_refl. reflexivity.
Qed.

Lemma tget_In : forall t m x, tget t m = Some x -> In x m /\ ke x = ke t.
Proof.
  intros t m x H. apply find_some in H. destruct H as [I E]. split; [exact I|].
  destruct (sameKE_spec t x); congruence.
Qed.

Lemma tget_None : forall t m, tget t m = None <-> ~ In (ke t) (map ke m).
Proof.
  intros t m. split.
  - intros H I. apply in_map_iff in I. destruct I as [x [E I]].
    pose proof (find_none _ _ H x I) as N. destruct (sameKE_spec t x); congruence.
  - intros H. destruct (tget t m) eqn:G; [|reflexivity]. apply tget_In in G. destruct G as [I E].
    exfalso. apply H. rewrite <- E. apply in_map. exact I.
Qed.

Lemma In_tget : forall t x m, isTaintSet m -> In x m -> ke x = ke t -> tget t m = Some x.
Proof.
  unfold isTaintSet, tget. intros t x. induction m as [|y m IH]; cbn [map find In]; intros ND I E; [contradiction|].
  inversion ND as [|? ? NI ND']; subst.
  destruct (sameKE_spec t y) as [EY|NY].
  - destruct I as [->|I]; [reflexivity|]. exfalso. apply NI. rewrite <- EY, <- E. apply in_map. exact I.
  - destruct I as [->|I]; [congruence|]. apply IH; auto.
Qed.

Lemma tget_ke : forall t u m, ke t = ke u -> tget t m = tget u m.
Proof.
  intros t u m E. unfold tget. induction m as [|x m IH]; cbn [find]; [reflexivity|].
  destruct (sameKE_spec t x), (sameKE_spec u x); try congruence; auto.
Qed.

Definition dec_ke (a b : Taint) : {ke a = ke b} + {ke a <> ke b}.
Proof. destruct (sameKE_spec a b); [left|right]; assumption. Defined.

Lemma tget_tdel : forall t u m, tget t (tdel u m) = if dec_ke t u then None else tget t m.
Proof.
  intros t u m. unfold tget, tdel. induction m as [|x m IH]; cbn [filter find].
  - destruct (dec_ke t u); reflexivity.
  - destruct (sameKE_spec u x) as [EU|NU]; cbn [negb].
    + rewrite IH. destruct (dec_ke t u); [reflexivity|].
      destruct (sameKE_spec t x); [congruence|reflexivity].
    + cbn [find]. rewrite IH. destruct (sameKE_spec t x) as [ET|NT].
      * destruct (dec_ke t u); [congruence|reflexivity].
      * reflexivity.
Qed.

Lemma tget_tput : forall t u m, tget t (tput u m) = if dec_ke t u then Some u else tget t m.
Proof.
  intros t u m. unfold tput. change (tget t (u :: tdel u m)) with
    (if sameKE t u then Some u else tget t (tdel u m)).
  rewrite tget_tdel. destruct (sameKE_spec t u), (dec_ke t u); congruence.
Qed.

Lemma set_tdel : forall u m, isTaintSet m -> isTaintSet (tdel u m).
Proof.
  unfold isTaintSet, tdel. intros u. induction m as [|x m IH]; cbn [map filter]; intros ND; [constructor|].
  inversion ND as [|? ? NI ND']; subst.
  destruct (negb (sameKE u x)); cbn [map]; [constructor|]; auto.
  intros I. apply NI. apply in_map_iff in I. destruct I as [y [E I]]. apply filter_In in I.
  rewrite <- E. apply in_map. tauto.
Qed.

Lemma set_tput : forall u m, isTaintSet m -> isTaintSet (tput u m).
Proof.
  intros u m H. unfold tput, isTaintSet. cbn [map]. constructor.
  - intros I. assert (N : tget u (tdel u m) = None).
    { rewrite tget_tdel. destruct (dec_ke u u); congruence. }
    apply tget_None in N. contradiction.
  - apply set_tdel. exact H.
Qed.

Lemma toMap_set : forall l m, isTaintSet m -> isTaintSet (fold_left (fun m t => tput t m) l m).
Proof. induction l as [|t l IH]; intros m H; cbn [fold_left]; [exact H|]. apply IH, set_tput, H. Qed.

Lemma toMap_get_gen : forall l m t, isTaintSet l ->
  tget t (fold_left (fun m t => tput t m) l m) =
  match tget t l with Some x => Some x | None => tget t m end.
Proof.
  induction l as [|y l IH]; intros m t H; cbn [fold_left]; [reflexivity|].
  inversion H as [|? ? NI ND]; subst. rewrite (IH _ t ND).
  change (tget t (y :: l)) with (if sameKE t y then Some y else tget t l).
  rewrite tget_tput. destruct (sameKE_spec t y) as [E|N].
  - rewrite (tget_ke t y l E). apply tget_None in NI. rewrite NI.
    destruct (dec_ke t y); [reflexivity|congruence].
  - destruct (tget t l); [reflexivity|]. destruct (dec_ke t y); [congruence|reflexivity].
Qed.

Lemma toMap_get : forall l t, isTaintSet l -> tget t (toMap l) = tget t l.
Proof.
  intros l t H. unfold toMap. rewrite toMap_get_gen by exact H. destruct (tget t l); reflexivity.
Qed.

Lemma toMap_isSet : forall l, isTaintSet (toMap l).
Proof. intros l. apply toMap_set. constructor. Qed.

Lemma dropStaleTaints_get : forall last m n c t,
  tget t (fst (dropStaleTaints last m n c)) =
  match tget t m with
  | Some _ => tget t n
  | None => match tget t last with Some _ => None | None => tget t n end
  end.
Proof.
  induction last as [|u last IH]; intros m n c t; cbn [dropStaleTaints fst].
  - cbn. destruct (tget t m); reflexivity.
  - change (tget t (u :: last)) with (if sameKE t u then Some u else tget t last).
    destruct (tget u m) eqn:G.
    + rewrite IH. destruct (sameKE_spec t u) as [E|N]; [|reflexivity].
      rewrite (tget_ke t u m E), G. reflexivity.
    + rewrite IH, tget_tdel. destruct (sameKE_spec t u) as [E|N], (dec_ke t u) as [E'|N']; try congruence; try reflexivity.
      rewrite (tget_ke t u m E), G. destruct (tget t last); reflexivity.
Qed.

Lemma putTaints_get : forall m n c t, isTaintSet m ->
  tget t (fst (putTaints m n c)) = match tget t m with Some x => Some x | None => tget t n end.
Proof.
  induction m as [|u m IH]; intros n c t ND; cbn [putTaints fst]; [reflexivity|].
  inversion ND as [|? ? NI ND']; subst. apply tget_None in NI.
  change (tget t (u :: m)) with (if sameKE t u then Some u else tget t m).
  assert (S : forall c', tget t (fst (putTaints m (tput u n) c')) =
     match (if sameKE t u then Some u else tget t m) with Some x => Some x | None => tget t n end).
  { intros c'. rewrite IH by exact ND'. rewrite tget_tput.
    destruct (sameKE_spec t u) as [E|N], (dec_ke t u) as [E'|N']; try congruence; try reflexivity.
    rewrite (tget_ke t u m E), NI. reflexivity. }
  destruct (tget u n) as [x|] eqn:G; [|apply S].
  destruct (structEq x u) eqn:SE; [|apply S].
  apply structEq_eq in SE. subst x. rewrite IH by exact ND'.
  destruct (sameKE_spec t u) as [E|N]; [|reflexivity].
  rewrite (tget_ke t u m E), NI, (tget_ke t u n E), G. reflexivity.
Qed.

Lemma dropStaleTaints_set : forall last m n c, isTaintSet n -> isTaintSet (fst (dropStaleTaints last m n c)).
Proof.
  induction last as [|u last IH]; intros m n c H; cbn [dropStaleTaints fst]; [exact H|].
  destruct (tget u m); apply IH; [exact H|apply set_tdel; exact H].
Qed.

Lemma putTaints_set : forall m n c, isTaintSet n -> isTaintSet (fst (putTaints m n c)).
Proof.
  induction m as [|u m IH]; intros n c H; cbn [putTaints fst]; [exact H|].
  destruct (tget u n) as [x|]; [destruct (structEq x u)|]; apply IH; try exact H; apply set_tput; exact H.
Qed.

Lemma dropStaleTaints_true : forall last m n, snd (dropStaleTaints last m n true) = true.
Proof.
  induction last as [|u last IH]; intros; cbn [dropStaleTaints snd]; [reflexivity|].
  destruct (tget u m); apply IH.
Qed.

Lemma putTaints_true : forall m n, snd (putTaints m n true) = true.
Proof.
  induction m as [|u m IH]; intros; cbn [putTaints snd]; [reflexivity|].
  destruct (tget u n) as [x|]; [destruct (structEq x u)|]; apply IH.
Qed.

Lemma dropStaleTaints_false : forall last m n c, snd (dropStaleTaints last m n c) = false ->
  fst (dropStaleTaints last m n c) = n /\ c = false.
Proof.
  induction last as [|u last IH]; intros m n c H; cbn [dropStaleTaints fst snd] in *; [auto|].
  destruct (tget u m); [apply IH; exact H|]. rewrite dropStaleTaints_true in H. discriminate.
Qed.

Lemma putTaints_false : forall m n c, snd (putTaints m n c) = false ->
  fst (putTaints m n c) = n /\ c = false.
Proof.
  induction m as [|u m IH]; intros n c H; cbn [putTaints fst snd] in *; [auto|].
  destruct (tget u n) as [x|]; [destruct (structEq x u)|]; [apply IH; exact H| |];
    rewrite putTaints_true in H; discriminate.
Qed.

(* the map computed before the decision whether to write *)
Definition taintMap (m last n : list Taint) : TMap * bool :=
  let d := dropStaleTaints last (toMap m) (toMap n) false in
  putTaints (toMap m) (fst d) (snd d).

Lemma syncTaints_unfold : forall m last n,
  syncTaints m last n = if snd (taintMap m last n) then (fst (taintMap m last n), true) else (n, false).
Proof.
  intros. unfold syncTaints, taintMap.
  destruct (dropStaleTaints last (toMap m) (toMap n) false) as [n1 c1] eqn:D. cbn [fst snd].
  destruct (putTaints (toMap m) n1 c1) as [n2 c2]. cbn [fst snd]. reflexivity.
Qed.

Lemma syncTaints_get : forall m last n t, isTaintSet m -> isTaintSet n ->
  tget t (fst (syncTaints m last n)) =
  match tget t m with
  | Some x => Some x
  | None => match tget t last with Some _ => None | None => tget t n end
  end.
Proof.
  intros m last n t M N.
  assert (G : tget t (fst (taintMap m last n)) =
    match tget t m with
    | Some x => Some x
    | None => match tget t last with Some _ => None | None => tget t n end
    end).
  { unfold taintMap. rewrite putTaints_get by apply toMap_isSet.
    rewrite dropStaleTaints_get, !toMap_get by assumption. destruct (tget t m); reflexivity. }
  rewrite syncTaints_unfold. destruct (snd (taintMap m last n)) eqn:C; cbn [fst]; [exact G|].
  rewrite <- G. unfold taintMap in *. apply putTaints_false in C. destruct C as [A C].
  apply dropStaleTaints_false in C. destruct C as [B _]. rewrite A, B, toMap_get by exact N. reflexivity.
Qed.

Lemma syncTaints_set : forall m last n, isTaintSet n -> isTaintSet (fst (syncTaints m last n)).
Proof.
  intros m last n N. rewrite syncTaints_unfold. destruct (snd (taintMap m last n)); cbn [fst]; [|exact N].
  unfold taintMap. apply putTaints_set, dropStaleTaints_set, toMap_isSet.
Qed.

Lemma syncedTaints_of_get : forall m last n r,
  isTaintSet m -> isTaintSet n -> isTaintSet r ->
  (forall t, tget t r =
     match tget t m with
     | Some x => Some x
     | None => match tget t last with Some _ => None | None => tget t n end
     end) ->
  syncedTaints m last n r.
Proof.
  intros m last n r M N R G. split; [|split].
  - intros t I. specialize (G t). rewrite (In_tget t t m M I eq_refl) in G. apply tget_In in G. tauto.
  - intros t NM L. apply tget_None. rewrite G. apply tget_None in NM. rewrite NM.
    destruct (tget t last) eqn:E; [reflexivity|]. apply tget_None in E. contradiction.
  - intros t NM NL. apply tget_None in NM. apply tget_None in NL.
    specialize (G t). rewrite NM, NL in G. split; intros I.
    + rewrite (In_tget t t r R I eq_refl) in G. symmetry in G. apply tget_In in G. tauto.
    + rewrite (In_tget t t n N I eq_refl) in G. apply tget_In in G. tauto.
Qed.

Lemma syncTaints_synced : forall m last n, isTaintSet m -> isTaintSet n ->
  syncedTaints m last n (fst (syncTaints m last n)) /\ isTaintSet (fst (syncTaints m last n)).
Proof.
  intros m last n M N. split; [|apply syncTaints_set; exact N].
  apply syncedTaints_of_get; auto. { apply syncTaints_set; exact N. }
  intros t. apply syncTaints_get; assumption.
Qed.

Lemma syncTaints_unchanged : forall m last n, snd (syncTaints m last n) = false ->
  fst (syncTaints m last n) = n.
Proof.
  intros m last n. rewrite syncTaints_unfold. destruct (snd (taintMap m last n)); cbn [fst snd]; [discriminate|auto].
Qed.

Lemma toMap_In : forall l t, isTaintSet l -> In t (toMap l) -> In t l.
Proof.
  intros l t L I. pose proof (toMap_get l t L) as G.
  rewrite (In_tget t t _ (toMap_isSet l) I eq_refl) in G. symmetry in G. apply tget_In in G. tauto.
Qed.

Lemma syncTaints_quiet : forall m n, isTaintSet m -> isTaintSet n ->
  (forall t, In t m -> tTime t = None) -> (forall t, In t m -> In t n) ->
  syncTaints m m n = (n, false).
Proof.
  intros m n M N T I. rewrite syncTaints_unfold.
  assert (E : snd (taintMap m m n) = false).
  2: { rewrite E. reflexivity. }
  unfold taintMap.
  assert (D : forall last, (forall t, In t last -> In t m) ->
     dropStaleTaints last (toMap m) (toMap n) false = (toMap n, false)).
  { induction last as [|u last IH]; intros H; cbn [dropStaleTaints]; [reflexivity|].
    rewrite (toMap_get m u M). rewrite (In_tget u u m M (H u (or_introl eq_refl)) eq_refl).
    apply IH. intros t J. apply H. right. exact J. }
  rewrite D by auto. cbn [fst snd].
  assert (P : forall q, (forall t, In t q -> In t m) -> putTaints q (toMap n) false = (toMap n, false)).
  { induction q as [|u q IH]; intros H; cbn [putTaints]; [reflexivity|].
    pose proof (H u (or_introl eq_refl)) as U.
    rewrite (toMap_get n u N), (In_tget u u n N (I u U) eq_refl), structEq_refl by (apply T; exact U).
    apply IH. intros t J. apply H. right. exact J. }
  rewrite P; [reflexivity|]. intros t J. apply toMap_In in J; assumption.
Qed.

(* ---- the whole node ---- *)

Lemma syncNode_cases : forall enc dec tp n,
  let annos := annotationsOf n in
  forall last,
  (match get LastApplied annos with None => Some noTemplate | Some s => dec s end) = Some last ->
  let ra := syncMap (tpAnnotations tp) (tpAnnotations last) annos in
  let rl := syncMap (tpLabels tp) (tpLabels last) (nLabels n) in
  let rt := syncTaints (tpTaints tp) (tpTaints last) (nTaints n) in
  syncNode enc dec tp n =
  if match nAnnotations n with None => true | Some _ => false end || snd rl || snd ra || snd rt
  then Write (mkNode (Some (put LastApplied (enc tp) (fst ra))) (fst rl) (fst rt))
  else NoWrite.
Proof.
  intros enc dec tp n annos last L ra rl rt. unfold syncNode. fold (annotationsOf n). fold annos.
  rewrite L. fold ra rl rt. destruct ra, rl, rt. reflexivity.
Qed.

Lemma recorded_get : forall dec n last, isMap (annotationsOf n) ->
  (match get LastApplied (annotationsOf n) with None => Some noTemplate | Some s => dec s end) = Some last ->
  recorded dec n last.
Proof.
  intros dec n last M H. destruct (get LastApplied (annotationsOf n)) as [s|] eqn:G.
  - eapply RecSome; [apply get_In; exact G|exact H].
  - injection H as <-. apply RecNone. apply get_None. exact G.
Qed.

Lemma recorded_get_conv : forall dec n last, isMap (annotationsOf n) -> recorded dec n last ->
  (match get LastApplied (annotationsOf n) with None => Some noTemplate | Some s => dec s end) = Some last.
Proof.
  intros dec n last M H. destruct H as [NI|s t I D].
  - apply get_None in NI. rewrite NI. reflexivity.
  - rewrite (In_get _ _ _ M I). exact D.
Qed.

Lemma syncNode_inLine : forall enc dec tp n last,
  goodTemplate tp -> goodNode n -> recorded dec n last ->
  inLine tp last n (after (syncNode enc dec tp n) n) /\ goodNode (after (syncNode enc dec tp n) n).
Proof.
  intros enc dec tp n last [TA [TL [TT TR]]] [NA [NL NT]] R.
  pose proof (recorded_get_conv _ _ _ NA R) as L.
  pose proof (syncNode_cases enc dec tp n last L) as C. cbv zeta in C. rewrite C. clear C.
  set (ra := syncMap (tpAnnotations tp) (tpAnnotations last) (annotationsOf n)).
  set (rl := syncMap (tpLabels tp) (tpLabels last) (nLabels n)).
  set (rt := syncTaints (tpTaints tp) (tpTaints last) (nTaints n)).
  assert (MA : isMap (fst ra)) by (apply syncMap_isMap; exact NA).
  assert (ML : isMap (fst rl)) by (apply syncMap_isMap; exact NL).
  assert (MT : isTaintSet (fst rt)) by (apply syncTaints_set; exact NT).
  assert (GA : forall k, get k (fst ra) = match get k (tpAnnotations tp) with
     | Some v => Some v
     | None => match get k (tpAnnotations last) with Some _ => None | None => get k (annotationsOf n) end end)
    by (intros k; apply syncMap_get; exact TA).
  destruct (match nAnnotations n with None => true | Some _ => false end || snd rl || snd ra || snd rt) eqn:C;
    cbn [after].
  - split.
    + split; [|split]; cbn [annotationsOf nAnnotations nLabels nTaints].
      * apply synced_of_get; auto. { apply isMap_put; exact MA. }
        intros k S. rewrite get_put. destruct (String.eqb_spec k LastApplied); [congruence|]. apply GA.
      * apply syncMap_synced; assumption.
      * apply syncTaints_synced; assumption.
    + split; [|split]; cbn [annotationsOf nAnnotations nLabels nTaints]; auto. apply isMap_put; exact MA.
  - repeat rewrite orb_false_iff in C. destruct C as [[[_ CL] CA] CT].
    apply syncMap_unchanged in CL. apply syncMap_unchanged in CA. apply syncTaints_unchanged in CT.
    split; [|split; [|split]; assumption].
    split; [|split].
    + apply synced_of_get; auto. intros k _. specialize (GA k). unfold ra in GA. rewrite CA in GA. exact GA.
    + destruct (syncMap_synced (tpLabels tp) (tpLabels last) (nLabels n) TL NL) as [S _].
      rewrite CL in S. exact S.
    + destruct (syncTaints_synced (tpTaints tp) (tpTaints last) (nTaints n) TT NT) as [S _].
      rewrite CT in S. exact S.
Qed.

Lemma syncNode_twice : forall enc dec tp n last,
  dec (enc tp) = Some tp ->
  goodTemplate tp -> goodNode n -> recorded dec n last ->
  (forall t, In t (tpTaints tp) -> tTime t = None) ->
  syncNode enc dec tp (after (syncNode enc dec tp n) n) = NoWrite.
Proof.
  intros enc dec tp n last RT [TA [TL [TT TR]]] [NA [NL NT]] R T.
  pose proof (recorded_get_conv _ _ _ NA R) as L.
  pose proof (syncNode_cases enc dec tp n last L) as C. cbv zeta in C.
  remember (syncMap (tpAnnotations tp) (tpAnnotations last) (annotationsOf n)) as ra eqn:Ra.
  remember (syncMap (tpLabels tp) (tpLabels last) (nLabels n)) as rl eqn:Rl.
  remember (syncTaints (tpTaints tp) (tpTaints last) (nTaints n)) as rt eqn:Rt.
  destruct (match nAnnotations n with None => true | Some _ => false end || snd rl || snd ra || snd rt) eqn:B.
  2: { rewrite C. cbn [after]. exact C. }
  rewrite C. cbn [after].
  set (n' := mkNode (Some (put LastApplied (enc tp) (fst ra))) (fst rl) (fst rt)).
  assert (L' : (match get LastApplied (annotationsOf n') with None => Some noTemplate | Some s => dec s end) = Some tp).
  { unfold n'. cbn [annotationsOf nAnnotations]. rewrite get_put, String.eqb_refl. exact RT. }
  pose proof (syncNode_cases enc dec tp n' tp L') as C'. cbv zeta in C'. rewrite C'. clear C'.
  unfold n' at 1 2 3 4. cbn [annotationsOf nAnnotations nLabels nTaints].
  rewrite (syncMap_quiet (tpAnnotations tp) (tpAnnotations tp) (put LastApplied (enc tp) (fst ra))); auto.
  2: { intros k v I. rewrite get_put. destruct (String.eqb_spec k LastApplied) as [E|N].
       - exfalso. subst k. apply TR. eapply In_keys. exact I.
       - subst ra. rewrite syncMap_get by exact TA. rewrite (In_get _ _ _ TA I). reflexivity. }
  assert (QL : syncMap (tpLabels tp) (tpLabels tp) (fst rl) = (fst rl, false))
    by (subst rl; apply syncMap_twice; exact TL).
  rewrite QL.
  assert (QT : syncTaints (tpTaints tp) (tpTaints tp) (fst rt) = (fst rt, false)).
  { subst rt. pose proof (syncTaints_synced (tpTaints tp) (tpTaints last) (nTaints n) TT NT) as [[S _] U].
    apply syncTaints_quiet; auto. }
  rewrite QT. cbn [orb snd]. reflexivity.
Qed.
