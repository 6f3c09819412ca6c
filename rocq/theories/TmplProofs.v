(* Proofs about template identity. *)
Require Import Coq.ZArith.ZArith Coq.NArith.NArith Coq.Lists.List Coq.Strings.String Coq.Strings.Ascii Coq.Bool.Bool Coq.Arith.Arith Coq.micromega.Lia Coq.Sorting.Permutation Coq.Sorting.Sorted.
Require Import Coq.micromega.ZifyBool Coq.Numbers.DecimalString.
From Verif Require Import Sort ScaleProofs MetaModel MetaSpec MetaProofs TmplModel TmplSpec.
Import ListNotations.
Open Scope string_scope.
Open Scope list_scope.
Open Scope nat_scope.

Lemma sameMap_spec : forall a b, isMap a -> isMap b -> sameMap a b = true <-> (forall k, get k a = get k b).
Proof.
  intros a b A B. unfold sameMap. rewrite andb_true_iff, Nat.eqb_eq, forallb_forall. split.
  - intros [L F] k.
    assert (I : forall k v, In (k, v) a -> get k b = Some v).
    { intros k' v I. specialize (F _ I). cbn in F. destruct (get k' b); [|discriminate]. apply String.eqb_eq in F. now subst. }
    destruct (get k a) as [v|] eqn:G; [symmetry; apply I; now apply get_In|].
    symmetry. apply get_None. intro K. apply get_None in G. apply G.
    assert (incl (keys b) (keys a)).
    { apply NoDup_length_incl; [exact A|unfold keys; rewrite !map_length; lia|].
      intros x X. apply in_map_iff in X. destruct X as [[x' v] [<- X]]. apply I, get_In in X. now apply In_keys with v. }
    now apply H.
  - intro E. split.
    + assert (incl (keys a) (keys b) /\ incl (keys b) (keys a)) as [X Y].
      { split; intros x X; destruct (get x a) as [v|] eqn:G.
        - rewrite E in G. apply get_In in G. now apply In_keys with v.
        - now apply get_None in G.
        - apply get_In in G. now apply In_keys with v.
        - rewrite E in G. now apply get_None in G. }
      apply NoDup_incl_length in X; [|exact A]. apply NoDup_incl_length in Y; [|exact B]. unfold keys in X, Y. rewrite !map_length in X, Y. lia.
    + intros [k v] I. rewrite <- E. rewrite (In_get _ _ _ A I). apply String.eqb_refl.
Qed.

Lemma covers_spec : forall l1 l2, covers l1 l2 = true <-> (forall k v, In (k, v) l2 -> k <> hashKey -> read k l1 = v).
Proof.
  intros l1 l2. unfold covers. rewrite forallb_forall. split.
  - intros H k v I N. specialize (H _ I). cbn beta iota in H. apply orb_true_iff in H. destruct H as [H|H]; apply String.eqb_eq in H; [assumption|contradiction].
  - intros H [k v] I. destruct (String.eqb_spec k hashKey) as [e|N]; [apply orb_true_r|]. rewrite (H _ _ I N), String.eqb_refl. reflexivity.
Qed.

Lemma sames_covers : forall a b, isMap b -> (forall k, k <> hashKey -> get k a = get k b) -> covers a b = true.
Proof.
  intros a b B E. apply covers_spec. intros k v I N. unfold read. rewrite (E k N), (In_get _ _ _ B I). reflexivity.
Qed.

Lemma equal_complete : forall a b, wfT a -> wfT b -> SameTemplate a b -> EqualIgnoreHash a b = true.
Proof.
  intros a b [LA AA] [LB AB] [L [A [M [G [C P]]]]]. unfold EqualIgnoreHash.
  assert (S : sameMap (t_annotations a) (t_annotations b) = true) by now apply sameMap_spec.
  rewrite S, M, G, C, P, !String.eqb_refl.
  destruct (Nat.ltb _ _); cbn [andb]; rewrite andb_true_r; apply sames_covers; try assumption.
  intros k N. symmetry. now apply L.
Qed.

Lemma length_del : forall k m, isMap m -> List.length m = List.length (del k m) + (if in_dec string_dec k (keys m) then 1 else 0).
Proof.
  intros k m. induction m as [|[k' v] m IH]; intro M; [reflexivity|]. inversion M as [|? ? N M']; subst.
  specialize (IH M'). cbn [del filter fst]. unfold del in *. destruct (String.eqb_spec k k') as [e|Ne]; cbn [negb].
  - subst k'. destruct (in_dec string_dec k (keys ((k, v) :: m))) as [I|I]; [|exfalso; apply I; now left].
    destruct (in_dec string_dec k (keys m)) as [J|J]; [contradiction|]. cbn [List.length]. lia.
  - cbn [List.length]. destruct (in_dec string_dec k (keys ((k', v) :: m))) as [I|I]; destruct (in_dec string_dec k (keys m)) as [J|J]; try lia.
    + exfalso. destruct I as [I|I]; [cbn in I; congruence|contradiction].
    + exfalso. apply I. now right.
Qed.

(* Coverage by all entries with no fewer entries is equality. *)
Lemma cover_same : forall a b, isMap a -> isMap b -> (forall k v, In (k, v) b -> k <> hashKey -> get k a = Some v) ->
  List.length (del hashKey a) <= List.length (del hashKey b) -> forall k, k <> hashKey -> get k a = get k b.
Proof.
  intros a b A B C L k N.
  assert (I : incl (keys (del hashKey a)) (keys (del hashKey b))).
  { apply NoDup_length_incl; [now apply isMap_del|unfold keys; now rewrite !map_length|].
    intros x X. assert (x <> hashKey /\ In x (keys b)) as [Y Z].
    { split; [|now apply keys_del_in with hashKey]. intros ->. apply get_None in X; [assumption|]. rewrite get_del, String.eqb_refl. reflexivity. }
    apply in_map_iff in Z. destruct Z as [[x' v] [<- Z]]. cbn [fst] in *. pose proof (C _ _ Z Y) as G.
    assert (D : get x' (del hashKey a) = Some v) by (rewrite get_del; destruct (String.eqb_spec x' hashKey); [contradiction|assumption]).
    apply get_In in D. now apply In_keys with v. }
  destruct (get k b) as [v|] eqn:G.
  - apply C; [now apply get_In|assumption].
  - destruct (get k a) as [v|] eqn:F; [|reflexivity]. exfalso. apply get_None in G. apply G.
    apply keys_del_in with hashKey. apply I.
    assert (D : get k (del hashKey a) = Some v) by (rewrite get_del; destruct (String.eqb_spec k hashKey); [contradiction|assumption]).
    apply get_In in D. now apply In_keys with v.
Qed.

Lemma read_get : forall k v m, read k m = v -> v <> "" -> get k m = Some v.
Proof. intros k v m H N. unfold read in H. destruct (get k m); congruence. Qed.

Lemma cover_length : forall a b, isMap b -> (forall k v, In (k, v) b -> k <> hashKey -> get k a = Some v) ->
  List.length (del hashKey b) <= List.length (del hashKey a).
Proof.
  intros a b B C. assert (I : incl (keys (del hashKey b)) (keys (del hashKey a))).
  { intros x X. assert (x <> hashKey /\ In x (keys b)) as [Y Z].
    { split; [|now apply keys_del_in with hashKey]. intros ->. apply get_None in X; [assumption|]. rewrite get_del, String.eqb_refl. reflexivity. }
    apply in_map_iff in Z. destruct Z as [[x' v] [<- Z]]. cbn [fst] in *. pose proof (C _ _ Z Y) as G.
    assert (D : get x' (del hashKey a) = Some v) by (rewrite get_del; destruct (String.eqb_spec x' hashKey); [contradiction|assumption]).
    apply get_In in D. now apply In_keys with v. }
  apply NoDup_incl_length in I; [|now apply isMap_del]. unfold keys in I. now rewrite !map_length in I.
Qed.

Lemma equal_sound : forall a b, wfT a -> wfT b -> noEmpty a -> noEmpty b -> (hasHash b -> hasHash a) ->
  EqualIgnoreHash a b = true -> SameTemplate a b.
Proof.
  intros a b [LA AA] [LB AB] NA NB H E. unfold EqualIgnoreHash in E.
  assert (X : (if Nat.ltb (List.length (t_labels b)) (List.length (t_labels a)) then covers (t_labels b) (t_labels a) else covers (t_labels a) (t_labels b)) = true /\
    (sameMap (t_annotations a) (t_annotations b) && String.eqb (t_meta a) (t_meta b) &&
     String.eqb (t_group a) (t_group b) && String.eqb (t_class a) (t_class b) && String.eqb (t_provider a) (t_provider b)) = true)
    by (destruct (Nat.ltb _ _); apply andb_true_iff; exact E).
  clear E. destruct X as [C R]. rewrite !andb_true_iff in R. destruct R as [[[[R R1] R2] R3] R4].
  split; [|split; [now apply sameMap_spec|]].
  - pose proof (length_del hashKey _ LA) as DA. pose proof (length_del hashKey _ LB) as DB.
    unfold hasHash in H.
    destruct (Nat.ltb_spec (List.length (t_labels b)) (List.length (t_labels a))) as [L|L].
    + assert (C' : forall k v, In (k, v) (t_labels a) -> k <> hashKey -> get k (t_labels b) = Some v).
      { intros k v I N. apply read_get; [|now apply (NA _ _ I)]. now apply (proj1 (covers_spec _ _) C). }
      pose proof (cover_length _ _ LA C') as CL. intros k N. symmetry. apply (cover_same _ _ LB LA C'); [|assumption].
      destruct (in_dec string_dec hashKey (keys (t_labels a))); destruct (in_dec string_dec hashKey (keys (t_labels b))); lia.
    + assert (C' : forall k v, In (k, v) (t_labels b) -> k <> hashKey -> get k (t_labels a) = Some v).
      { intros k v I N. apply read_get; [|now apply (NB _ _ I)]. now apply (proj1 (covers_spec _ _) C). }
      pose proof (cover_length _ _ LB C') as CL. intros k N. apply (cover_same _ _ LA LB C'); [|assumption].
      destruct (in_dec string_dec hashKey (keys (t_labels a))) as [i|i]; destruct (in_dec string_dec hashKey (keys (t_labels b))) as [j|j]; try lia.
      exfalso. apply i, H, j.
  - repeat match goal with X : String.eqb _ _ = true |- _ => apply String.eqb_eq in X end. tauto.
Qed.

(** Order. *)

Lemma byAge_spec : forall a b, byAge a b = true <-> Older a b.
Proof. intros a b. unfold byAge, Older. rewrite orb_true_iff, andb_true_iff, Z.ltb_lt, Z.eqb_eq. tauto. Qed.

Lemma byAge_total : total byAge.
Proof.
  intros a b. rewrite !byAge_spec. unfold Older.
  destruct (Z.lt_trichotomy (s_ctime a) (s_ctime b)) as [H|[H|H]]; [left; now left| |right; now left].
  destruct (String.leb_total (s_name a) (s_name b)) as [E|E]; [left|right]; right; split; congruence.
Qed.

Lemma byAge_trans : transitive byAge.
Proof.
  intros a b c. rewrite !byAge_spec. unfold Older. intros [A|[A A']] [B|[B B']]; try (left; lia).
  right. split; [lia|]. eapply sleb_trans; eassumption.
Qed.

Lemma byAge_anti : forall a b, byAge a b = true -> byAge b a = true -> s_name a = s_name b.
Proof.
  intros a b. rewrite !byAge_spec. unfold Older. intros [A|[A A']] [B|[B B']]; try lia. now apply String.leb_antisym.
Qed.

(* Sorted lists with the same members and distinct names are equal. *)
Lemma sorted_unique : forall l l', StronglySorted (fun a b => byAge a b = true) l -> StronglySorted (fun a b => byAge a b = true) l' ->
  Permutation l l' -> NoDup (map s_name l) -> l = l'.
Proof.
  induction l as [|a l IH]; intros l' S S' P N.
  - apply Permutation_nil in P. now subst.
  - destruct l' as [|b l']; [apply Permutation_sym, Permutation_nil in P; discriminate|].
    inversion S as [|? ? S1 F1]; subst. inversion S' as [|? ? S2 F2]; subst. rewrite Forall_forall in F1, F2.
    assert (a = b).
    { assert (Ib : In b (a :: l)) by (eapply Permutation_in; [symmetry; exact P|now left]).
      assert (Ia : In a (b :: l')) by (eapply Permutation_in; [exact P|now left]).
      destruct Ib as [e|Ib]; [assumption|]. destruct Ia as [e|Ia]; [now symmetry|].
      exfalso. cbn in N. inversion N as [|? ? N1 N2]; subst. apply N1.
      rewrite (byAge_anti a b (F1 _ Ib) (F2 _ Ia)). now apply in_map. }
    subst b. f_equal. apply IH; try assumption; [now apply Permutation_cons_inv with a|]. cbn in N. now inversion N.
Qed.

Lemma isort_byAge_any : forall l l', Permutation l l' -> StronglySorted (fun a b => byAge a b = true) l' -> NoDup (map s_name l) -> isort byAge l = l'.
Proof.
  intros l l' P S N. apply sorted_unique; [apply isort_sorted; [exact byAge_total|exact byAge_trans]|exact S| |].
  - rewrite <- P. symmetry. apply isort_perm.
  - eapply Permutation_NoDup; [apply Permutation_map, isort_perm|exact N].
Qed.

Lemma find_first : forall (f : TSet -> bool) l s, StronglySorted (fun a b => byAge a b = true) l -> find f l = Some s ->
  forall x, In x l -> f x = true -> x = s \/ byAge s x = true.
Proof.
  intros f l s. induction l as [|a l IH]; intros S F x I T; [destruct I|].
  inversion S as [|? ? S1 F1]; subst. rewrite Forall_forall in F1. cbn in F. destruct (f a) eqn:E.
  - injection F as ->. destruct I as [<-|I]; [now left|]. right. now apply F1.
  - destruct I as [<-|I]; [congruence|]. now apply IH.
Qed.

Lemma findNew_some : forall t l s, FindNewMachineSet t l = Some s ->
  In s l /\ EqualIgnoreHash (s_template s) t = true /\
  forall x, In x l -> EqualIgnoreHash (s_template x) t = true -> Older s x.
Proof.
  intros t l s H. unfold FindNewMachineSet in H. pose proof (find_some _ _ H) as [I E]. apply isort_in in I.
  split; [assumption|]. split; [assumption|]. intros x Ix Ex. apply byAge_spec.
  assert (X : In x (isort byAge l)) by now apply isort_in.
  pose proof (isort_sorted byAge byAge_total byAge_trans l) as S.
  destruct (find_first _ _ _ S H x X Ex) as [->|B]; [|assumption].
  destruct (byAge_total s s); assumption.
Qed.

Lemma findNew_none : forall t l, FindNewMachineSet t l = None <-> (forall x, In x l -> EqualIgnoreHash (s_template x) t = false).
Proof.
  intros t l. unfold FindNewMachineSet. split.
  - intros H x I. apply (find_none _ _ H). now apply isort_in.
  - intro H. destruct (find _ _) as [s|] eqn:F; [|reflexivity]. apply find_some in F. destruct F as [I E].
    apply isort_in in I. rewrite (H _ I) in E. discriminate.
Qed.

Lemma findNew_perm : forall t l l', Permutation l l' -> NoDup (map s_name l) -> FindNewMachineSet t l = FindNewMachineSet t l'.
Proof.
  intros t l l' P N. unfold FindNewMachineSet. f_equal. apply isort_byAge_any; [|apply isort_sorted; [exact byAge_total|exact byAge_trans]|exact N].
  rewrite P. apply isort_perm.
Qed.

(** Creation. *)

Lemma isMap_withLabel : forall m k v, isMap m -> isMap (withLabel m k v).
Proof. intros. now apply isMap_put. Qed.

Lemma newSet_same : forall hash d n uid now, SameTemplate (s_template (newSet hash d n uid now)) (d_template d).
Proof.
  intros. unfold newSet, SameTemplate. cbn [s_template t_labels t_annotations t_meta t_group t_class t_provider]. split; [|tauto].
  intros k N. unfold withLabel. rewrite get_put. destruct (String.eqb_spec k hashKey); [contradiction|reflexivity].
Qed.

Lemma newSet_wf : forall hash d n uid now, wfT (d_template d) -> wfT (s_template (newSet hash d n uid now)).
Proof. intros hash d n uid now [A B]. split; cbn; [now apply isMap_put|assumption]. Qed.

Lemma newSet_selects : forall hash d n uid now, isMap (d_selector d) -> Matches (d_selector d) (t_labels (d_template d)) ->
  ~ In hashKey (keys (d_selector d)) ->
  let s := newSet hash d n uid now in
  Matches (s_selector s) (t_labels (s_template s)) /\ Matches (d_selector d) (s_labels s) /\ s_labels s = t_labels (s_template s).
Proof.
  intros hash d n uid now M S N s. unfold s, newSet, withLabel. cbn [s_selector s_labels s_template t_labels].
  split; [|split; [|reflexivity]].
  - intros k v I. pose proof (In_get k v _ (isMap_put hashKey (decimal (hash (d_template d) (d_collisions d))) _ M) I) as G.
    rewrite get_put in G. rewrite get_put. destruct (String.eqb_spec k hashKey); [assumption|]. apply S. now apply get_In.
  - intros k v I. rewrite get_put. destruct (String.eqb_spec k hashKey) as [e|Ne]; [|now apply S].
    subst k. exfalso. apply N. now apply In_keys with v.
Qed.

Lemma rollback_spec : forall d is, wfT d -> wfT is -> fst (rollbackToTemplate d is) = true ->
  SameTemplate (snd (rollbackToTemplate d is)) is /\ ~ hasHash (snd (rollbackToTemplate d is)) /\
  EqualIgnoreHash is (snd (rollbackToTemplate d is)) = true.
Proof.
  intros d is Wd Wi H. unfold rollbackToTemplate in *. destruct (EqualIgnoreHash d is); [discriminate|]. cbn [snd].
  assert (S : SameTemplate (SetFromMachineSetTemplate is) is).
  { unfold SetFromMachineSetTemplate, SameTemplate. cbn [s_template t_labels t_annotations t_meta t_group t_class t_provider]. split; [|tauto].
    intros k N. rewrite get_del. destruct (String.eqb_spec k hashKey); [contradiction|reflexivity]. }
  split; [assumption|]. split.
  - unfold hasHash. cbn. intro I. apply get_None in I; [assumption|]. rewrite get_del, String.eqb_refl. reflexivity.
  - apply equal_complete; [assumption| |].
    + destruct Wi as [A B]. split; cbn; [now apply isMap_del|assumption].
    + destruct S as [A [B C]]. split; [|split].
      * intros k N. symmetry. now apply A.
      * intro k. symmetry. apply B.
      * intuition.
Qed.

(** Names. *)

Lemma safeChar_digit : forall a b, 48 <= nat_of_ascii a <= 57 -> 48 <= nat_of_ascii b <= 57 -> safeChar a = safeChar b -> a = b.
Proof.
  assert (H : forallb (fun i => forallb (fun j => negb (Ascii.eqb (safeChar (ascii_of_nat i)) (safeChar (ascii_of_nat j))) || Nat.eqb i j) (seq 48 10)) (seq 48 10) = true)
    by (vm_compute; reflexivity).
  intros a b A B E. rewrite forallb_forall in H. specialize (H (nat_of_ascii a)). rewrite in_seq in H. specialize (H ltac:(lia)).
  rewrite forallb_forall in H. specialize (H (nat_of_ascii b)). rewrite in_seq in H. specialize (H ltac:(lia)).
  rewrite !ascii_nat_embedding, E, Ascii.eqb_refl in H. cbn in H. apply Nat.eqb_eq in H.
  rewrite <- (ascii_nat_embedding a), <- (ascii_nat_embedding b), H. reflexivity.
Qed.

Fixpoint digitsOnly (s : string) : Prop :=
  match s with EmptyString => True | String a r => 48 <= nat_of_ascii a <= 57 /\ digitsOnly r end.

Lemma digitsOnly_uint : forall u, digitsOnly (NilEmpty.string_of_uint u).
Proof. induction u; cbn -[Nat.le]; try exact I; (split; [vm_compute; split; repeat constructor|assumption]). Qed.

Lemma digitsOnly_decimal : forall n, digitsOnly (decimal n).
Proof.
  intro n. unfold decimal, NilZero.string_of_uint. destruct (N.to_uint n) eqn:E; rewrite <- ?E; try apply digitsOnly_uint.
  cbn. split; [vm_compute; split; repeat constructor|exact I].
Qed.

Lemma safeEncode_cut : forall n a b, digitsOnly a -> digitsOnly b ->
  substring 0 n (safeEncode a) = substring 0 n (safeEncode b) <-> substring 0 n a = substring 0 n b.
Proof.
  induction n as [|n IH]; intros a b A B.
  - destruct a, b; cbn; tauto.
  - destruct a as [|x a], b as [|y b]; cbn [safeEncode substring]; try tauto; try (split; discriminate).
    destruct A as [Ax A], B as [By B]. split; intro H; injection H as E F.
    + apply safeChar_digit in E; [|assumption|assumption]. apply (IH a b A B) in F. congruence.
    + subst y. f_equal. now apply (IH a b A B).
Qed.

Lemma append_inj : forall a b c, (a ++ b = a ++ c)%string <-> b = c.
Proof. induction a as [|x a IH]; intros b c; cbn; [tauto|]. split; [intro H; injection H as H; now apply IH|intros ->; reflexivity]. Qed.

Lemma setName_spec : forall d h h', setName d h = setName d h' <-> substring 0 5 (decimal h) = substring 0 5 (decimal h').
Proof.
  intros d h h'. unfold setName. rewrite append_inj. cbn [String.append].
  rewrite <- safeEncode_cut by apply digitsOnly_decimal. split; [intro H; injection H as H; exact H|intros ->; reflexivity].
Qed.

(** Attempts. *)

Definition count (c : option N) : N := match c with Some n => n | None => 0%N end.
Definition bumped (d : Deploy) : Deploy :=
  mkD (d_uid d) (d_name d) (d_selector d) (d_template d) (Some (N.succ (count (d_collisions d)))).
Definition nameOf (hash : Template -> option N -> N) (d : Deploy) : string := setName (d_name d) (hash (d_template d) (d_collisions d)).
Fixpoint after (k : nat) (d : Deploy) : Deploy := match k with O => d | S k => after k (bumped d) end.

Lemma attempt_passed : forall hash e d n uid now s d', attempt hash e d n uid now = (CPassed s, d') ->
  d' = d /\ c_lister e = Some s /\ s_owner s = Some (d_uid d) /\ EqualIgnoreHash (d_template d) (s_template s) = true.
Proof.
  intros hash e d n uid now s d' H. unfold attempt in H. destruct (c_exists e); [|destruct (c_fails e); discriminate].
  destruct (c_lister e) as [is|]; [|discriminate].
  destruct (match s_owner is with Some u => String.eqb u (d_uid d) | None => false end && EqualIgnoreHash (d_template d) (s_template is)) eqn:E; [|discriminate].
  injection H as <- <-. apply andb_true_iff in E. destruct E as [O E]. destruct (s_owner is) as [u|] eqn:Ow; [|discriminate].
  apply String.eqb_eq in O. subst u. tauto.
Qed.

Lemma attempt_created : forall hash e d n uid now s d', attempt hash e d n uid now = (CCreated s, d') ->
  d' = d /\ c_exists e = false /\ s = newSet hash d n uid now.
Proof.
  intros hash e d n uid now s d' H. unfold attempt in H. destruct (c_exists e).
  - destruct (c_lister e); [|discriminate]. destruct (_ && _); discriminate.
  - destruct (c_fails e); [discriminate|]. injection H as <- <-. tauto.
Qed.

Definition mine (d : Deploy) (s : TSet) : Prop := s_owner s = Some (d_uid d) /\ EqualIgnoreHash (d_template d) (s_template s) = true.

Lemma attempts_spec : forall k hash store d n uid now,
  (forall j, j < k -> exists s, find (fun s => String.eqb (s_name s) (nameOf hash (after j d))) store = Some s /\ ~ mine d s) ->
  (forall s, In s store -> s_name s <> nameOf hash (after k d)) ->
  forall fuel, k < fuel -> attempts fuel hash store d n uid now = (CCreated (newSet hash (after k d) n uid now), after k d).
Proof.
  induction k as [|k IH]; intros hash store d n uid now T F fuel L; (destruct fuel as [|fuel]; [lia|]); cbn [attempts].
  - fold (nameOf hash d). destruct (find _ store) as [s|] eqn:E.
    + apply find_some in E. destruct E as [I E]. apply String.eqb_eq in E. exfalso. now apply (F s I).
    + cbn. reflexivity.
  - destruct (T 0 ltac:(lia)) as [s [E N]]. cbn [after] in E. fold (nameOf hash d). rewrite E. unfold attempt. cbn [c_exists c_lister c_status].
    destruct (match s_owner s with Some u => String.eqb u (d_uid d) | None => false end && EqualIgnoreHash (d_template d) (s_template s)) eqn:X.
    + exfalso. apply N. apply andb_true_iff in X. destruct X as [O X]. split; [|assumption].
      destruct (s_owner s); [|discriminate]. apply String.eqb_eq in O. now subst.
    + fold (count (d_collisions d)). fold (bumped d). cbn [after]. apply IH; [|assumption|lia].
      intros j J. destruct (T (S j) ltac:(lia)) as [s' [E' N']]. exists s'. split; [exact E'|exact N'].
Qed.
