(** Lemmas for the ownership properties. *)
Require Import Coq.Lists.List Coq.Strings.String Coq.Bool.Bool Coq.Arith.PeanoNat Coq.micromega.Lia.
From Verif Require Import StatusModel OwnModel OwnSpec.
Import ListNotations.
Open Scope string_scope.
Open Scope list_scope.

Lemma ctrl_owned : forall o u, GetControllerOf o = Some u <-> owned o u.
Proof.
  intros [n i ow lb d] u. unfold GetControllerOf, owned. cbn [o_owners]. induction ow as [|[x c] r IH]; simpl.
  - split; [discriminate|]. intro H; inversion H.
  - destruct c; simpl.
    + split; [intro H; injection H as <-; constructor|]. intro H; inversion H; subst; reflexivity.
    + rewrite IH. split; [constructor; assumption|]. intro H; inversion H; subst; assumption.
Qed.
Lemma ctrl_orphan : forall o, GetControllerOf o = None <-> orphan o.
Proof.
  intros [n i ow lb d]. unfold GetControllerOf, orphan. cbn [o_owners]. induction ow as [|[x c] r IH]; simpl.
  - split; auto.
  - destruct c; simpl.
    + split; [discriminate|]. intro H; inversion H; discriminate.
    + rewrite IH. split; [intro H; constructor; auto|]. intro H; inversion H; auto.
Qed.

Lemma lookup_label : forall l k v, lookup k l = Some v <-> has_label l k v.
Proof.
  induction l as [|[a b] r IH]; intros k v; simpl.
  - split; [discriminate|]. intro H; inversion H.
  - destruct (String.eqb a k) eqn:E.
    + apply String.eqb_eq in E. subst. split; [intro H; injection H as <-; constructor|]. intro H; inversion H; subst; congruence.
    + apply String.eqb_neq in E. rewrite IH. split; [intro H; constructor; auto|]. intro H; inversion H; subst; congruence.
Qed.
Lemma selector_matches : forall sel l, selectorMatches sel l = true <-> matches sel l.
Proof.
  intros sel l. unfold selectorMatches, matches. rewrite forallb_forall. split.
  - intros H k v Hin. specialize (H (k, v) Hin). cbn in H. destruct (lookup k l) as [x|] eqn:E; [|discriminate].
    apply String.eqb_eq in H. subst. apply lookup_label. exact E.
  - intros H [k v] Hin. specialize (H k v Hin). apply lookup_label in H. rewrite H. apply String.eqb_refl.
Qed.
Lemma selector_not : forall sel l, selectorMatches sel l = false <-> ~ matches sel l.
Proof. intros. rewrite <- selector_matches. destruct (selectorMatches sel l); split; congruence. Qed.

Lemma can_adopt : forall me l, CanAdopt me l = true <-> l = LFound me false.
Proof.
  intros me [|u d]; simpl; [split; discriminate|]. rewrite andb_true_iff, negb_true_iff, Nat.eqb_eq. split; [intros (-> & ->); reflexivity|].
  intro H; injection H as -> ->; auto.
Qed.

Lemma matches_dec : forall sel l, matches sel l \/ ~ matches sel l.
Proof. intros. destruct (selectorMatches sel l) eqn:E; [left; apply selector_matches; exact E|right; apply selector_not; exact E]. Qed.

(** Effect of a patch. *)
Definition setOwners (ow : list Owner) (s : Obj) := mkObj (o_name s) (o_uid s) ow (o_labels s) (o_deleting s).

Lemma patch_cases : forall f store n u ow r s', patchOwners f store n u ow = (r, s') ->
  (s' = store /\ r <> PDone) \/
  (f <> FBefore /\ s' = map (fun s => if Nat.eqb (o_name s) n then setOwners ow s else s) store /\
   (exists s, find (fun s => Nat.eqb (o_name s) n) store = Some s /\ o_uid s = u) /\ (r = PDone \/ r = PError)).
Proof.
  intros f store n u ow r s' H. unfold patchOwners in H. destruct f.
  - destruct (find _ store) as [s|] eqn:E; [|injection H as <- <-; left; split; congruence].
    destruct (Nat.eqb (o_uid s) u) eqn:EU; injection H as <- <-; [|left; split; congruence].
    right. repeat split; try discriminate. exists s. apply Nat.eqb_eq in EU. auto. left; reflexivity.
  - injection H as <- <-. left. split; congruence.
  - destruct (find _ store) as [s|] eqn:E; [|injection H as <- <-; left; split; congruence].
    destruct (Nat.eqb (o_uid s) u) eqn:EU; injection H as <- <-; [|left; split; congruence].
    right. repeat split; try discriminate. exists s. apply Nat.eqb_eq in EU. auto. right; reflexivity.
Qed.

Definition may_touch (me : nat) (deleting : bool) (l : Live) (sel : list (string * string)) (o : Obj) : Prop :=
  deleting = false /\
  ((orphan o /\ matches sel (o_labels o) /\ o_deleting o = false /\ l = LFound me false) \/ (owned o me /\ ~ matches sel (o_labels o))).

Lemma claim_object : forall me deleting l f sel store o ok err store', ClaimObject me deleting l f sel store o = (ok, err, store') ->
  (store' = store \/ (may_touch me deleting l sel o /\
     store' = map (fun s => if Nat.eqb (o_name s) (o_name o) then setOwners [mkOwner me true] s else s) store /\
     exists s, find (fun s => Nat.eqb (o_name s) (o_name o)) store = Some s /\ o_uid s = o_uid o)) /\
  (ok = true -> matches sel (o_labels o) /\ err = false /\
     (owned o me \/ (may_touch me deleting l sel o /\ orphan o /\
       store' = map (fun s => if Nat.eqb (o_name s) (o_name o) then setOwners [mkOwner me true] s else s) store /\
       exists s, find (fun s => Nat.eqb (o_name s) (o_name o)) store = Some s /\ o_uid s = o_uid o))) /\
  (owned o me -> matches sel (o_labels o) -> ok = true) /\
  (err = false -> orphan o -> matches sel (o_labels o) -> o_deleting o = false -> deleting = false -> ok = true \/ ~ In (o_name o) (map o_name store)).
Proof.
  intros me deleting l f sel store o ok err store' H. unfold ClaimObject in H.
  destruct (GetControllerOf o) as [u|] eqn:EC.
  - assert (~ orphan o) as HO by (rewrite <- ctrl_orphan; congruence).
    destruct (negb (Nat.eqb u me)) eqn:EU.
    { injection H as <- <- <-. split; [left; reflexivity|]. split; [discriminate|]. split; [|contradiction].
      intros Hown _. apply ctrl_owned in Hown. rewrite EC in Hown. injection Hown as ->. rewrite Nat.eqb_refl in EU. discriminate. }
    apply negb_false_iff, Nat.eqb_eq in EU. subst u. apply ctrl_owned in EC.
    destruct (selectorMatches sel (o_labels o)) eqn:ES.
    { injection H as <- <- <-. apply selector_matches in ES. split; [left; reflexivity|]. split; [auto|]. split; [auto|contradiction]. }
    apply selector_not in ES. destruct deleting.
    { injection H as <- <- <-. split; [left; reflexivity|]. split; [discriminate|]. split; [contradiction|contradiction]. }
    unfold Release in H. destruct (patchOwners f store (o_name o) (o_uid o) [mkOwner me true]) as [r s'] eqn:EP.
    assert (ok = false /\ store' = s') as (-> & ->) by (destruct r; injection H as <- <- <-; auto).
    apply patch_cases in EP. split; [|split; [discriminate|split; [contradiction|contradiction]]].
    destruct EP as [(-> & _)|(_ & -> & Hf & _)]; [left; reflexivity|right]. split; [split; [reflexivity|right; auto]|]. auto.
  - assert (~ owned o me) as HN by (rewrite <- ctrl_owned; congruence). apply ctrl_orphan in EC.
    destruct (selectorMatches sel (o_labels o)) eqn:ES; [apply selector_matches in ES|apply selector_not in ES];
      (destruct deleting; cbn in H; [injection H as <- <- <-; split; [left; reflexivity|split; [discriminate|split; [contradiction|intros; discriminate]]]|]).
    2:{ injection H as <- <- <-. split; [left; reflexivity|]. split; [discriminate|]. split; [contradiction|contradiction]. }
    destruct (o_deleting o) eqn:ED.
    { injection H as <- <- <-. split; [left; reflexivity|]. split; [discriminate|]. split; [contradiction|]. intros; discriminate. }
    unfold Adopt in H. destruct (CanAdopt me l) eqn:EA.
    2:{ injection H as <- <- <-. split; [left; reflexivity|]. split; [discriminate|]. split; [contradiction|]. discriminate. }
    apply can_adopt in EA.
    assert (may_touch me false l sel o) as HM by (split; [reflexivity|left; auto]).
    destruct (patchOwners f store (o_name o) (o_uid o) [mkOwner me true]) as [r s'] eqn:EP.
    assert (store' = s') as -> by (destruct r; injection H as <- <- <-; auto).
    assert ((r = PNotFound /\ ~ In (o_name o) (map o_name store)) \/ r <> PNotFound) as HNF.
    { destruct r; try (right; discriminate). left. split; [reflexivity|]. unfold patchOwners in EP. destruct f; try discriminate.
      - destruct (find _ store) as [s|] eqn:E; [destruct (Nat.eqb _ _); discriminate|].
        intro X. apply in_map_iff in X. destruct X as (s & Es & Hs). pose proof (find_none _ _ E s Hs) as Y. cbn in Y. rewrite Es, Nat.eqb_refl in Y. discriminate.
      - destruct (find _ store) as [s|] eqn:E; [destruct (Nat.eqb _ _); discriminate|].
        intro X. apply in_map_iff in X. destruct X as (s & Es & Hs). pose proof (find_none _ _ E s Hs) as Y. cbn in Y. rewrite Es, Nat.eqb_refl in Y. discriminate. }
    apply patch_cases in EP. split; [|split; [|split; [contradiction|]]].
    + destruct EP as [(-> & _)|(_ & -> & Hf & _)]; [left; reflexivity|right; auto].
    + intro Hok. subst ok. destruct EP as [(-> & Hr)|(_ & -> & Hf & Hr)].
      * exfalso. destruct r; congruence.
      * split; [exact ES|]. split; [destruct r; congruence|]. right. auto.
    + intros He _ _ _ _. destruct HNF as [(_ & X)|X]; [right; exact X|]. destruct r; injection H as <- <-; try discriminate; [left; reflexivity|congruence].
Qed.

(** Effect of a pass on the store. *)
Definition touched (me : nat) (deleting : bool) (l : Live) (sel : list (string * string)) (cache : list Obj) (s s' : Obj) : Prop :=
  s' = s \/ (s' = setOwners [mkOwner me true] s /\ exists o, In o cache /\ o_name o = o_name s /\ may_touch me deleting l sel o).

Lemma touched_refl : forall me d l sel c st, Forall2 (touched me d l sel c) st st.
Proof. intros. induction st; constructor; auto. left; reflexivity. Qed.

Lemma touched_map : forall me d l sel c o st, In o c -> may_touch me d l sel o ->
  Forall2 (touched me d l sel c) st (map (fun s => if Nat.eqb (o_name s) (o_name o) then setOwners [mkOwner me true] s else s) st).
Proof.
  intros me d l sel c o st Hin HM. induction st as [|s st IH]; simpl; constructor; auto.
  destruct (Nat.eqb (o_name s) (o_name o)) eqn:E; [|left; reflexivity]. apply Nat.eqb_eq in E. right. split; [reflexivity|]. exists o. auto.
Qed.

Lemma touched_mono : forall me d l sel c c' st st', incl c c' -> Forall2 (touched me d l sel c) st st' -> Forall2 (touched me d l sel c') st st'.
Proof.
  intros me d l sel c c' st st' Hi H. induction H; constructor; auto. destruct H as [->|(-> & o & A & B & C)]; [left; reflexivity|].
  right. split; [reflexivity|]. exists o. auto.
Qed.

Lemma touched_trans : forall me d l sel c a b e, Forall2 (touched me d l sel c) a b -> Forall2 (touched me d l sel c) b e -> Forall2 (touched me d l sel c) a e.
Proof.
  intros me d l sel c a b e H. revert e. induction H as [|x y a b H1 H2 IH]; intros e H3; inversion H3 as [|? z ? e' H4 H5]; subst; constructor; auto.
  destruct H1 as [->|(-> & o & A & B & C)]; [exact H4|].
  destruct H4 as [->|(-> & o2 & A2 & B2 & C2)]; right; (split; [reflexivity|]); exists o; auto.
Qed.

Lemma touched_names : forall me d l sel c a b, Forall2 (touched me d l sel c) a b -> map o_name b = map o_name a.
Proof. intros me d l sel c a b H. induction H as [|x y a b H1 H2 IH]; simpl; [reflexivity|]. rewrite IH. destruct H1 as [->|(-> & _)]; reflexivity. Qed.

Lemma claim_store : forall cache me d l faults sel store cl err store', Claim me d l faults sel store cache = (cl, err, store') ->
  Forall2 (touched me d l sel cache) store store'.
Proof.
  induction cache as [|o r IH]; intros me d l faults sel store cl err store' H; cbn [Claim] in H.
  - injection H as <- <- <-. apply touched_refl.
  - destruct (ClaimObject me d l (faults (o_name o)) sel store o) as [[ok e1] s1] eqn:E1.
    destruct (Claim me d l faults sel s1 r) as [[c2 e2] s2] eqn:E2. injection H as <- <- <-.
    apply claim_object in E1. destruct E1 as (A & _). apply IH in E2.
    eapply touched_trans; [|eapply touched_mono; [|exact E2]; intros x Hx; right; exact Hx].
    destruct A as [->|(HM & -> & _)]; [apply touched_refl|]. apply touched_map; [left; reflexivity|exact HM].
Qed.

Lemma claim_sound : forall cache me d l faults sel store cl err store', Claim me d l faults sel store cache = (cl, err, store') ->
  forall o, In o cl -> In o cache /\ matches sel (o_labels o) /\
    (owned o me \/ (orphan o /\ o_deleting o = false /\ d = false /\ l = LFound me false)).
Proof.
  induction cache as [|o r IH]; intros me d l faults sel store cl err store' H x Hx; cbn [Claim] in H.
  - injection H as <- <- <-. destruct Hx.
  - destruct (ClaimObject me d l (faults (o_name o)) sel store o) as [[ok e1] s1] eqn:E1.
    destruct (Claim me d l faults sel s1 r) as [[c2 e2] s2] eqn:E2. injection H as <- <- <-.
    apply claim_object in E1. destruct E1 as (_ & A & _). 
    assert (x = o /\ ok = true \/ In x c2) as [(-> & Hok)|Hc].
    { destruct ok; [destruct Hx as [<-|Hx]; auto|auto]. }
    + split; [left; reflexivity|]. destruct (A Hok) as (B & _ & C). split; [exact B|]. destruct C as [C|(HM & HO & _)]; [left; exact C|right].
      destruct HM as (D & [(_ & _ & E & F)|(E & _)]); [auto|]. exfalso. apply ctrl_owned in E. apply ctrl_orphan in HO. congruence.
    + destruct (IH _ _ _ _ _ _ _ _ _ E2 x Hc) as (B & C & D). split; [right; exact B|]. auto.
Qed.

Lemma claim_complete : forall cache me d l faults sel store cl err store', Claim me d l faults sel store cache = (cl, err, store') ->
  forall o, In o cache -> matches sel (o_labels o) ->
    (owned o me -> In o cl) /\
    (err = false -> orphan o -> o_deleting o = false -> d = false -> In o cl \/ ~ In (o_name o) (map o_name store)).
Proof.
  induction cache as [|o r IH]; intros me d l faults sel store cl err store' H x Hx HM; cbn [Claim] in H.
  - destruct Hx.
  - destruct (ClaimObject me d l (faults (o_name o)) sel store o) as [[ok e1] s1] eqn:E1.
    destruct (Claim me d l faults sel s1 r) as [[c2 e2] s2] eqn:E2. injection H as <- <- <-.
    pose proof E1 as E1'. apply claim_object in E1. destruct E1 as (T & _ & A & B). destruct Hx as [<-|Hx].
    + split.
      * intro Ho. rewrite (A Ho HM). left; reflexivity.
      * intros He Ho Hd Hdd. apply orb_false_elim in He. destruct He as (-> & _).
        destruct (B eq_refl Ho HM Hd Hdd) as [->|X]; [left; left; reflexivity|right; exact X].
    + destruct (IH _ _ _ _ _ _ _ _ _ E2 x Hx HM) as (C & D). split.
      * intro Ho. specialize (C Ho). destruct ok; [right|]; exact C.
      * intros He Ho Hd Hdd. apply orb_false_elim in He. destruct He as (_ & ->). destruct (D eq_refl Ho Hd Hdd) as [X|X].
        -- left. destruct ok; [right|]; exact X.
        -- right. intro Y. apply X. destruct T as [->|(_ & -> & _)]; [exact Y|]. rewrite map_map. erewrite map_ext; [exact Y|]. intro a. destruct (Nat.eqb _ _); reflexivity.
Qed.

Lemma claim_adopted : forall cache me d l faults sel store cl err store', Claim me d l faults sel store cache = (cl, err, store') ->
  forall o, In o cl -> orphan o -> exists s', In s' store' /\ o_name s' = o_name o /\ o_owners s' = [mkOwner me true].
Proof.
  induction cache as [|o r IH]; intros me d l faults sel store cl err store' H x Hx HO; cbn [Claim] in H.
  - injection H as <- <- <-. destruct Hx.
  - destruct (ClaimObject me d l (faults (o_name o)) sel store o) as [[ok e1] s1] eqn:E1.
    destruct (Claim me d l faults sel s1 r) as [[c2 e2] s2] eqn:E2. injection H as <- <- <-.
    apply claim_object in E1. destruct E1 as (_ & A & _).
    assert (x = o /\ ok = true \/ In x c2) as [(-> & Hok)|Hc].
    { destruct ok; [destruct Hx as [<-|Hx]; auto|auto]. }
    + destruct (A Hok) as (_ & _ & C). destruct C as [C|(_ & _ & -> & s & Hs & _)].
      { exfalso. apply ctrl_owned in C. apply ctrl_orphan in HO. congruence. }
      apply claim_store in E2. apply find_some in Hs. destruct Hs as (Hs1 & Hs2). apply Nat.eqb_eq in Hs2.
      assert (In (setOwners [mkOwner me true] s) (map (fun s => if Nat.eqb (o_name s) (o_name o) then setOwners [mkOwner me true] s else s) store)) as Hin.
      { apply in_map_iff. exists s. rewrite Hs2, Nat.eqb_refl. auto. }
      assert (exists s', In s' s2 /\ touched me d l sel r (setOwners [mkOwner me true] s) s') as (s' & Hs' & Ht).
      { clear - E2 Hin. induction E2 as [|a b a' b' H1 H2 IH]; [destruct Hin|]. destruct Hin as [<-|Hin]; [exists b; split; [left; reflexivity|exact H1]|].
        destruct (IH Hin) as (s' & X & Y). exists s'. split; [right; exact X|exact Y]. }
      exists s'. split; [exact Hs'|]. destruct Ht as [->|(-> & _)]; auto.
    + eapply IH; eauto.
Qed.

(** Others are not touched when the view is current. *)
Lemma controlled_fun : forall l a b, controlled l a -> controlled l b -> a = b.
Proof. intros l a b H. induction H; intro H2; inversion H2; subst; auto. Qed.
Lemma distinct_eq : forall l a b, distinct l -> In a l -> In b l -> o_name a = o_name b -> a = b.
Proof.
  intros l a b HN Ha Hb E. unfold distinct in HN. induction l as [|x l IH]; [destruct Ha|]. simpl in HN. inversion HN as [|? ? N1 N2]; subst.
  destruct Ha as [->|Ha], Hb as [->|Hb]; auto.
  - exfalso. apply N1. rewrite E. apply in_map; exact Hb.
  - exfalso. apply N1. rewrite <- E. apply in_map; exact Ha.
Qed.

Lemma others_untouched : forall me d l faults sel store cl err store' u s, distinct store ->
  Claim me d l faults sel store store = (cl, err, store') -> In s store -> owned s u -> u <> me -> In s store'.
Proof.
  intros me d l faults sel store cl err store' u s HD HC Hs Hu Hn. apply claim_store in HC.
  assert (forall st st', Forall2 (touched me d l sel store) st st' -> In s st -> In s st') as HH; [|eauto].
  intros st st' H Hin. induction H as [|a b a' b' H1 H2 IH]; [destruct Hin|]. destruct Hin as [->|Hin]; [|right; auto].
  destruct H1 as [->|(-> & o & A & B & C)]; [left; reflexivity|]. exfalso.
  assert (o = s) as -> by (eapply distinct_eq; eauto). destruct C as (_ & [(C & _)|(C & _)]).
  - apply ctrl_owned in Hu. apply ctrl_orphan in C. congruence.
  - apply Hn. unfold owned in *. eapply controlled_fun; eauto.
Qed.

(** Release does nothing. *)
Lemma never_released : forall me d l faults sel store cache cl err store' s, Claim me d l faults sel store cache = (cl, err, store') ->
  In s store -> owned s me -> exists s', In s' store' /\ o_name s' = o_name s /\ owned s' me.
Proof.
  intros me d l faults sel store cache cl err store' s HC Hs Ho. apply claim_store in HC.
  induction HC as [|a b a' b' H1 H2 IH]; [destruct Hs|]. destruct Hs as [->|Hs].
  - exists b. split; [left; reflexivity|]. destruct H1 as [->|(-> & _)]; [auto|]. split; [reflexivity|constructor].
  - destruct (IH Hs) as (s' & X & Y). exists s'. split; [right; exact X|exact Y].
Qed.

(** The parent outlives its children. *)
Lemma has_in : forall x l, has x l = true <-> In x l.
Proof.
  intros x l. unfold has. rewrite existsb_exists. split; [intros (y & Hy & E); apply String.eqb_eq in E; subst; exact Hy|].
  intro H. exists x. split; [exact H|apply String.eqb_refl].
Qed.
Lemma del_in : forall x y l, In y (del x l) <-> In y l /\ x <> y.
Proof. intros. unfold del. rewrite filter_In, negb_true_iff, String.eqb_neq. tauto. Qed.

Definition inv (me : nat) (sel : list (string * string)) (w : World) : Prop :=
  distinct (w_store w) /\
  (forall p, w_parent w = Some p -> p_uid p = me /\ p_sel p = sel) /\
  (forall s, In s (w_store w) -> owned s me -> matches sel (o_labels s)) /\
  ((exists s, In s (w_store w) /\ owned s me) -> exists p, w_parent w = Some p /\ In DeleteFinalizerName (p_finalizers p)).

Lemma settle_some : forall p, In DeleteFinalizerName (p_finalizers p) -> settleParent p = Some p.
Proof. intros [u d f s] H. unfold settleParent. simpl in *. destruct d; auto. destruct f; [destruct H|reflexivity]. Qed.
Lemma settle_is : forall p p', settleParent p = Some p' -> p' = p.
Proof. intros [u d f s] p' H. unfold settleParent in H. simpl in H. destruct d; [destruct f|]; congruence. Qed.

Lemma terminate_same : forall e t st, map (fun s => (o_name s, o_owners s, o_labels s)) (terminateAll e t st) = map (fun s => (o_name s, o_owners s, o_labels s)) st.
Proof. intros. unfold terminateAll. rewrite map_map. apply map_ext. intro a. destruct (_ && _); reflexivity. Qed.

Lemma claim_inv : forall me d l faults sel store cl err store', distinct store ->
  (forall s, In s store -> owned s me -> matches sel (o_labels s)) ->
  Claim me d l faults sel store store = (cl, err, store') ->
  distinct store' /\ (forall s, In s store' -> owned s me -> matches sel (o_labels s)) /\
  (d = true -> store' = store /\ (forall s, In s store -> owned s me -> In s cl)).
Proof.
  intros me d l faults sel store cl err store' HD HM HC. pose proof (claim_store _ _ _ _ _ _ _ _ _ _ HC) as HF.
  split; [unfold distinct; rewrite (touched_names _ _ _ _ _ _ _ HF); exact HD|]. split.
  - assert (forall st st', Forall2 (touched me d l sel store) st st' -> incl st store -> forall s, In s st' -> owned s me -> matches sel (o_labels s)) as HH.
    { intros st st' H. induction H as [|a b a' b' H1 H2 IH]; intros Hi s Hs Ho; [destruct Hs|]. destruct Hs as [->|Hs].
      - destruct H1 as [->|(-> & o & A & B & C)]; [apply HM; [apply Hi; left; reflexivity|exact Ho]|].
        assert (o = a) as -> by (eapply distinct_eq; eauto; apply Hi; left; reflexivity). destruct C as (_ & [(_ & C & _)|(C & D)]); [exact C|].
        exfalso. apply D. apply HM; auto.
      - apply IH; auto. intros x Hx; apply Hi; right; exact Hx. }
    intros s Hs Ho. eapply HH; eauto. apply incl_refl.
  - intros ->. split.
    + assert (forall st st', Forall2 (touched me true l sel store) st st' -> st' = st) as HH; [|auto].
      intros st st' H. induction H as [|a b a' b' H1 H2 IH]; [reflexivity|]. rewrite IH. destruct H1 as [->|(_ & o & _ & _ & C & _)]; [reflexivity|discriminate].
    + intros s Hs Ho. eapply (proj1 (claim_complete _ _ _ _ _ _ _ _ _ _ HC s Hs (HM s Hs Ho))). exact Ho.
Qed.

Lemma inv_step : forall me tmpl sel w o, matches sel tmpl -> inv me sel w -> in_sync me w o ->
  (forall e v c news, o = OReconcile e v c news -> NoDup news /\ forall n, In n news -> ~ In n (map o_name (w_store w))) ->
  (forall c, o = OForeign c -> ~ In (o_name c) (map o_name (w_store w)) /\ ~ owned c me) ->
  inv me sel (step tmpl w o).
Proof.
  intros me tmpl sel w o HT HI0 HS HN HF. pose proof HI0 as (I1 & I2 & I3 & I4). destruct o as [e valid cache news| |fl|x|c|n|n]; cbn [step].
  - destruct (w_parent w) as [p|] eqn:EP; [|exact HI0].
    destruct (I2 p eq_refl) as (Eu & Es). cbn [in_sync] in HS. destruct HS as (HS & _). subst cache.
    destruct (HN _ _ _ _ eq_refl) as (HN1 & HN2). clear HN HF.
    assert (forall q s, distinct s -> (forall x, In x s -> owned x me -> matches sel (o_labels x)) -> ((exists x, In x s /\ owned x me) -> In DeleteFinalizerName q) ->
      inv me sel (mkWorld (settleParent (mkParent (p_uid p) (p_deleting p) q (p_sel p))) s)) as HI.
    { intros q s A B C. split; [exact A|]. split; [|split; [exact B|]].
      - cbn [w_parent]. intros p' Hp'. apply settle_is in Hp'. subst p'. auto.
      - cbn [w_store w_parent]. intro Hx. exists (mkParent (p_uid p) (p_deleting p) q (p_sel p)). split; [apply settle_some; apply C; exact Hx|apply C; exact Hx]. }
    assert ((exists x, In x (w_store w) /\ owned x me) -> In DeleteFinalizerName (p_finalizers p)) as I4'.
    { intro X. destruct (I4 X) as (p' & Hp' & Hf). injection Hp' as ->. exact Hf. }
    unfold reconcileSet. rewrite Eu, Es in *. destruct valid; cbn [negb]; [|apply HI; auto].
    destruct (p_deleting p) eqn:ED.
    + cbn [negb]. destruct (Claim me true (e_live e) (e_fault e) sel (w_store w) (w_store w)) as [[cl err] s1] eqn:EC.
      destruct (claim_inv _ _ _ _ _ _ _ _ _ I1 I3 EC) as (C1 & C2 & C3). destruct (C3 eq_refl) as (-> & C4).
      destruct err; [apply HI; auto|]. destruct cl as [|c0 cl].
      * apply HI; auto. intros (x & Hx & Ho). destruct (C4 x Hx Ho).
      * destruct (has DeleteFinalizerName (p_finalizers p)); [|apply HI; auto]. 
        pose proof (terminate_same e (c0 :: cl) (w_store w)) as HT2.
        assert (forall x, In x (terminateAll e (c0 :: cl) (w_store w)) -> exists y, In y (w_store w) /\ o_name y = o_name x /\ o_owners y = o_owners x /\ o_labels y = o_labels x) as HX.
        { intros x Hx. apply in_map_iff in Hx. destruct Hx as (y & <- & Hy). exists y. destruct (_ && _); auto. }
        apply HI.
        -- unfold distinct. replace (map o_name (terminateAll e (c0 :: cl) (w_store w))) with (map (fun '(a, _, _) => a) (map (fun s => (o_name s, o_owners s, o_labels s)) (terminateAll e (c0 :: cl) (w_store w)))) by (rewrite map_map; reflexivity).
           rewrite HT2, map_map. exact I1.
        -- intros x Hx Ho. destruct (HX x Hx) as (y & A & B & C & D). rewrite <- D. apply I3; auto. unfold owned. rewrite C. exact Ho.
        -- intros (x & Hx & Ho). apply I4'. destruct (HX x Hx) as (y & A & B & C & D). exists y. split; [exact A|]. unfold owned. rewrite C. exact Ho.
    + cbn [negb]. destruct (updateFinalizers (p_finalizers p) (addFinalizer (p_finalizers p)) (e_final e)) as [q1 ok] eqn:EF.
      assert (q1 = p_finalizers p \/ In DeleteFinalizerName q1) as HQ1.
      { unfold updateFinalizers, addFinalizer in EF. destruct (has _ _); [injection EF as <- <-; auto|]. destruct (e_final e); injection EF as <- <-; [right; left; reflexivity|auto]. }
      assert (ok = true -> In DeleteFinalizerName q1) as HQ2.
      { intros ->. unfold updateFinalizers, addFinalizer in EF. destruct (has _ _) eqn:EH; [injection EF as <-; apply has_in; exact EH|]. destruct (e_final e); [injection EF as <-; left; reflexivity|discriminate]. }
      destruct ok; cbn [negb].
      2:{ apply HI; auto. intro X. destruct HQ1 as [->|X2]; auto. }
      specialize (HQ2 eq_refl). destruct (Claim me false (e_live e) (e_fault e) sel (w_store w) (w_store w)) as [[cl err] s1] eqn:EC.
      destruct (claim_inv _ _ _ _ _ _ _ _ _ I1 I3 EC) as (C1 & C2 & _). destruct err; [apply HI; auto|].
      pose proof (claim_store _ _ _ _ _ _ _ _ _ _ EC) as HCS. pose proof (touched_names _ _ _ _ _ _ _ HCS) as HNm.
      apply HI; auto.
      * unfold distinct. rewrite map_app, map_map. cbn [adoptive o_name]. rewrite map_id, HNm.
        clear - I1 HN1 HN2. unfold distinct in I1. induction (map o_name (w_store w)) as [|a r IH]; [exact HN1|]. simpl. inversion I1; subst. constructor.
        -- intro X. apply in_app_or in X. destruct X as [X|X]; [contradiction|]. apply (HN2 a X). left; reflexivity.
        -- apply IH; auto. intros n Hn Hr. apply (HN2 n Hn). right; exact Hr.
      * intros x Hx Ho. apply in_app_or in Hx. destruct Hx as [Hx|Hx]; [auto|]. apply in_map_iff in Hx. destruct Hx as (n & <- & _). exact HT.
  - destruct (w_parent w) as [p|] eqn:EP; [|exact HI0].
    destruct (I2 p eq_refl) as (Eu & Es). split; [exact I1|]. split; [|split; [exact I3|]].
    + cbn [w_parent]. intros p' Hp'. apply settle_is in Hp'. subst p'. auto.
    + cbn [w_parent w_store]. intro X. destruct (I4 X) as (p' & Hp' & Hf). injection Hp' as <-. exists (mkParent (p_uid p) true (p_finalizers p) (p_sel p)). split; [apply settle_some; exact Hf|exact Hf].
  - destruct (w_parent w) as [p|] eqn:EP; [|exact HI0].
    destruct (I2 p eq_refl) as (Eu & Es). split; [exact I1|]. split; [|split; [exact I3|]].
    + cbn [w_parent]. intros p' Hp'. injection Hp' as <-. auto.
    + cbn [w_parent w_store]. intro X. destruct (I4 X) as (p' & Hp' & Hf). injection Hp' as <-. eexists; split; [reflexivity|]. cbn. apply in_or_app. right; exact Hf.
  - destruct (w_parent w) as [p|] eqn:EP; [|exact HI0].
    destruct (I2 p eq_refl) as (Eu & Es). cbn [in_sync] in HS. split; [exact I1|]. split; [|split; [exact I3|]].
    + cbn [w_parent]. intros p' Hp'. apply settle_is in Hp'. subst p'. auto.
    + cbn [w_parent w_store]. intro X. destruct (I4 X) as (p' & Hp' & Hf). injection Hp' as <-.
      assert (In DeleteFinalizerName (del x (p_finalizers p))) as Hd by (apply del_in; split; auto).
      exists (mkParent (p_uid p) (p_deleting p) (del x (p_finalizers p)) (p_sel p)). split; [apply settle_some; exact Hd|exact Hd].
  - destruct (HF c eq_refl) as (F1 & F2). split; [|split; [exact I2|split]]; cbn [w_store w_parent].
    + unfold distinct in *. rewrite map_app. simpl. clear - I1 F1. induction (map o_name (w_store w)) as [|a r IH]; [constructor; [intros []|constructor]|].
      simpl. inversion I1; subst. constructor; [intro X; apply in_app_or in X; destruct X as [X|[X|[]]]; [contradiction|subst; apply F1; left; reflexivity]|].
      apply IH; auto. intro X; apply F1; right; exact X.
    + intros s Hs Ho. apply in_app_or in Hs. destruct Hs as [Hs|[<-|[]]]; [auto|contradiction].
    + intros (s & Hs & Ho). apply in_app_or in Hs. destruct Hs as [Hs|[<-|[]]]; [apply I4; eauto|contradiction].
  - split; [|split; [exact I2|split]]; cbn [w_store w_parent].
    + unfold distinct. rewrite map_map. erewrite map_ext; [exact I1|]. intro a. destruct (Nat.eqb _ _); reflexivity.
    + intros s Hs Ho. apply in_map_iff in Hs. destruct Hs as (y & <- & Hy). destruct (Nat.eqb _ _); apply (I3 y Hy); exact Ho.
    + intros (s & Hs & Ho). apply I4. apply in_map_iff in Hs. destruct Hs as (y & <- & Hy). exists y. split; [exact Hy|]. destruct (Nat.eqb _ _); exact Ho.
  - split; [|split; [exact I2|split]]; cbn [w_store w_parent].
    + unfold distinct in *. clear - I1. induction (w_store w) as [|a r IH]; [constructor|]. simpl in *. inversion I1; subst.
      destruct (negb (Nat.eqb (o_name a) n)); simpl; auto. constructor; auto. intro X. apply in_map_iff in X. destruct X as (y & E & Hy). apply filter_In in Hy. apply H1. rewrite <- E. apply in_map; tauto.
    + intros s Hs Ho. apply filter_In in Hs. apply I3; tauto.
    + intros (s & Hs & Ho). apply filter_In in Hs. apply I4. exists s. tauto.
Qed.

Lemma inv_run : forall tmpl sel me w l w', matches sel tmpl -> inv me sel w -> run me tmpl w l w' -> inv me sel w'.
Proof.
  intros tmpl sel me w l w' HT HI HR. induction HR as [w|w o l w' HS HR IH]; [exact HI|]. apply IH. apply inv_step; auto.
  - intros e v c news ->. cbn in HS. destruct HS as (_ & A & B). split; [exact A|]. intros n Hn. rewrite Forall_forall in B. apply B; exact Hn.
  - intros c ->. exact HS.
Qed.

Lemma outlives : forall me tmpl p store l w', p_uid p = me -> matches (p_sel p) tmpl -> distinct store -> (forall s, In s store -> ~ owned s me) ->
  run me tmpl (mkWorld (Some p) store) l w' -> (exists s, In s (w_store w') /\ owned s me) ->
  exists p', w_parent w' = Some p' /\ p_uid p' = me /\ In DeleteFinalizerName (p_finalizers p').
Proof.
  intros me tmpl p store l w' Eu HT HD HN HR HX.
  assert (inv me (p_sel p) (mkWorld (Some p) store)) as HI.
  { split; [exact HD|]. split; [|split]; cbn.
    - intros p' Hp'. injection Hp' as <-. auto.
    - intros s Hs Ho. destruct (HN s Hs Ho).
    - intros (s & Hs & Ho). destruct (HN s Hs Ho). }
  destruct (inv_run _ _ _ _ _ _ HT HI HR) as (_ & A & _ & B). destruct (B HX) as (p' & Hp' & Hf). exists p'. destruct (A p' Hp') as (E & _). auto.
Qed.

Lemma claim_deleting_err : forall c me l f sel st cl err st', Claim me true l f sel st c = (cl, err, st') -> err = false.
Proof.
  induction c as [|o c IH]; intros me l f sel st cl err st' EC; cbn [Claim] in EC; [injection EC as _ <- _; reflexivity|].
  destruct (ClaimObject me true l (f (o_name o)) sel st o) as [[ok e1] st1] eqn:E1.
  destruct (Claim me true l f sel st1 c) as [[c2 e2] st2] eqn:E2. injection EC as _ <- _.
  rewrite (IH _ _ _ _ _ _ _ _ E2). unfold ClaimObject in E1.
  destruct (GetControllerOf o); [destruct (negb _); [injection E1 as _ <- _; auto|]; destruct (selectorMatches _ _); injection E1 as _ <- _; auto|].
  cbn in E1. injection E1 as _ <- _. auto.
Qed.

(** While children are left. *)
Lemma all_asked : forall e p store tmpl news s, p_deleting p = true -> In DeleteFinalizerName (p_finalizers p) -> distinct store ->
  In s store -> owned s (p_uid p) -> matches (p_sel p) (o_labels s) -> p_sel p <> [] ->
  (exists q, reconcileSet e true p (p_finalizers p) store store tmpl news = (p_finalizers p, q) /\
     exists s', In s' q /\ o_name s' = o_name s /\ o_owners s' = o_owners s /\ o_deleting s' = o_deleting s || e_delete e (o_name s)) /\
  (exists q, reconcileDeployment e true p (p_finalizers p) store store tmpl news = (p_finalizers p, q) /\
     exists s', In s' q /\ o_name s' = o_name s /\ o_owners s' = o_owners s /\ o_deleting s' = o_deleting s || e_delete e (o_name s)).
Proof.
  intros e p store tmpl news s HD HF HDi Hs Ho HM HE. apply has_in in HF.
  destruct (Claim (p_uid p) true (e_live e) (e_fault e) (p_sel p) store store) as [[cl err] s1] eqn:EC.
  pose proof (claim_store _ _ _ _ _ _ _ _ _ _ EC) as HCS.
  assert (s1 = store) as ->.
  { assert (forall st st', Forall2 (touched (p_uid p) true (e_live e) (p_sel p) store) st st' -> st' = st) as HH; [|auto].
    intros st st' H. induction H as [|a b a' b' H1 H2 IH]; [reflexivity|]. rewrite IH. destruct H1 as [->|(_ & o & _ & _ & C & _)]; [reflexivity|discriminate]. }
  assert (err = false) as ->.
  { exact (claim_deleting_err _ _ _ _ _ _ _ _ _ EC). }
  pose proof (proj1 (claim_complete _ _ _ _ _ _ _ _ _ _ EC s Hs HM) Ho) as Hcl.
  assert (exists s', In s' (terminateAll e cl store) /\ o_name s' = o_name s /\ o_owners s' = o_owners s /\ o_deleting s' = o_deleting s || e_delete e (o_name s)) as HT.
  { exists (if existsb (fun t => Nat.eqb (o_name t) (o_name s) && negb (o_deleting t)) cl && e_delete e (o_name s)
                then mkObj (o_name s) (o_uid s) (o_owners s) (o_labels s) true else s).
    split; [unfold terminateAll; apply in_map_iff; exists s; auto|].
    destruct (o_deleting s) eqn:ES.
    - destruct (_ && _); auto.
    - assert (existsb (fun t => Nat.eqb (o_name t) (o_name s) && negb (o_deleting t)) cl = true) as ->.
      { apply existsb_exists. exists s. split; [exact Hcl|]. rewrite Nat.eqb_refl, ES. reflexivity. }
      cbn. destruct (e_delete e (o_name s)); auto. }
  unfold reconcileSet, reconcileDeployment. rewrite HD, HF. cbn [negb]. rewrite EC. destruct cl as [|c0 cl]; [destruct Hcl|].
  split; [eauto|]. destruct (p_sel p) as [|kv r]; [congruence|]. eauto.
Qed.

(** Deletable. *)
Lemma claim_deleting : forall c me l f sel st, (forall o, In o c -> ~ (owned o me /\ matches sel (o_labels o))) ->
  Claim me true l f sel st c = ([], false, st).
Proof.
  induction c as [|o c IH]; intros me l f sel st H; [reflexivity|]. cbn [Claim].
  assert (ClaimObject me true l (f (o_name o)) sel st o = (false, false, st)) as ->.
  { unfold ClaimObject. destruct (GetControllerOf o) as [u|] eqn:E; [|reflexivity]. destruct (Nat.eqb u me) eqn:EU; [|reflexivity]. cbn.
    apply Nat.eqb_eq in EU. subst u. destruct (selectorMatches sel (o_labels o)) eqn:ES; [|reflexivity].
    exfalso. apply (H o (or_introl eq_refl)). split; [apply ctrl_owned; exact E|apply selector_matches; exact ES]. }
  rewrite IH; [reflexivity|]. intros x Hx. apply H. right; exact Hx.
Qed.

Lemma deletable : forall e p store cache tmpl news, p_deleting p = true -> e_final e = true ->
  (forall o, In o cache -> ~ owned o (p_uid p)) ->
  fst (reconcileSet e true p (p_finalizers p) store cache tmpl news) = del DeleteFinalizerName (p_finalizers p) /\
  (p_sel p <> [] -> fst (reconcileDeployment e true p (p_finalizers p) store cache tmpl news) = del DeleteFinalizerName (p_finalizers p)).
Proof.
  intros e p store cache tmpl news HD HE HC.
  assert (has DeleteFinalizerName (p_finalizers p) = false -> p_finalizers p = del DeleteFinalizerName (p_finalizers p)) as HN.
  { intro H. unfold del. symmetry. assert (forall l, has DeleteFinalizerName l = false -> filter (fun y => negb (String.eqb DeleteFinalizerName y)) l = l) as HH; [|auto].
    induction l as [|a l IH]; [reflexivity|]. intro Hl. cbn [has existsb] in Hl. apply orb_false_elim in Hl. destruct Hl as (A & B). cbn [filter]. rewrite A. cbn [negb]. f_equal. apply IH. exact B. }
  unfold reconcileSet, reconcileDeployment. rewrite HD. cbn [negb].
  rewrite claim_deleting by (intros o Ho (A & _); exact (HC o Ho A)).
  unfold removeFinalizer. destruct (has DeleteFinalizerName (p_finalizers p)) eqn:EH; cbn [negb]; unfold updateFinalizers; rewrite ?HE; cbn [fst].
  - split; [reflexivity|]. intro H. destruct (p_sel p); [congruence|reflexivity].
  - split; [auto|]. intro H. destruct (p_sel p); [congruence|auto].
Qed.

(** Other finalizers. *)
Lemma finalizers_cases : forall (x : string) q w ok, x <> DeleteFinalizerName ->
  (w = addFinalizer q \/ w = removeFinalizer q) -> (In x (fst (updateFinalizers q w ok)) <-> In x q).
Proof.
  intros x q w ok Hx [->| ->]; unfold addFinalizer, removeFinalizer, updateFinalizers; destruct (has _ q); try reflexivity; destruct ok; try reflexivity; cbn [fst].
  - split; [intros [E|H]; [congruence|exact H]|right; assumption].
  - rewrite del_in. split; [tauto|]. intro H. split; [exact H|congruence].
Qed.

Lemma other_finalizers : forall e valid p store cache tmpl news x, x <> DeleteFinalizerName ->
  (In x (fst (reconcileSet e valid p (p_finalizers p) store cache tmpl news)) <-> In x (p_finalizers p)) /\
  (In x (fst (reconcileDeployment e valid p (p_finalizers p) store cache tmpl news)) <-> In x (p_finalizers p)).
Proof.
  intros e valid p store cache tmpl news x Hx. unfold reconcileSet, reconcileDeployment. destruct valid; cbn [negb]; [|split; reflexivity].
  pose proof (finalizers_cases x (p_finalizers p) (addFinalizer (p_finalizers p)) (e_final e) Hx (or_introl eq_refl)) as HA.
  pose proof (finalizers_cases x (p_finalizers p) (removeFinalizer (p_finalizers p)) (e_final e) Hx (or_intror eq_refl)) as HR.
  destruct (Claim (p_uid p) (p_deleting p) (e_live e) (e_fault e) (p_sel p) store cache) as [[cl err] s1].
  destruct (p_deleting p); cbn [negb].
  - split.
    + destruct err; [reflexivity|]. destruct cl; [exact HR|]. destruct (has _ _); reflexivity.
    + destruct (p_sel p); [reflexivity|]. destruct err; [reflexivity|]. destruct (has _ _); [|reflexivity]. cbn [negb]. destruct cl; [exact HR|reflexivity].
  - destruct (updateFinalizers (p_finalizers p) (addFinalizer (p_finalizers p)) (e_final e)) as [q1 ok]. cbn [fst] in *. split.
    + destruct ok; cbn [negb]; [|exact HA]. destruct err; exact HA.
    + destruct (p_sel p); [exact HA|]. destruct err; exact HA.
Qed.

(** Accepted selectors. *)
Lemma valid_selector : forall sel tmpl, (forall k v, In (k, v) sel -> v <> "") -> validSelector sel tmpl = true -> matches sel tmpl.
Proof.
  intros sel tmpl HN H k v Hin. unfold validSelector in H. rewrite forallb_forall in H. specialize (H (k, v) Hin). cbn in H. apply String.eqb_eq in H.
  apply lookup_label. destruct (lookup k tmpl); [congruence|]. exfalso. apply (HN k v Hin). congruence.
Qed.

Lemma runaway : exists sel tmpl, validSelector sel tmpl = true /\
  forall e p names store, p_sel p = sel -> exists store',
    Claim (p_uid p) true (e_live e) (e_fault e) sel store (map (adoptive (p_uid p) tmpl) names) = ([], false, store') /\
    fst (fst (Claim (p_uid p) false (e_live e) (e_fault e) sel store (map (adoptive (p_uid p) tmpl) names))) = [].
Proof.
  exists [("env", "")], [("role", "worker")]. split; [reflexivity|]. intros e p names store _.
  assert (forall n, selectorMatches [("env", "")] (o_labels (adoptive (p_uid p) [("role", "worker")] n)) = false) as HS by reflexivity.
  exists store. split.
  - apply claim_deleting. intros o Ho (_ & B). apply in_map_iff in Ho. destruct Ho as (n & <- & _). apply selector_matches in B. rewrite HS in B. discriminate.
  - destruct (Claim (p_uid p) false (e_live e) (e_fault e) [("env", "")] store (map (adoptive (p_uid p) [("role", "worker")]) names)) as [[cl err] st'] eqn:E.
    cbn. destruct cl as [|o cl]; [reflexivity|]. exfalso. destruct (claim_sound _ _ _ _ _ _ _ _ _ _ E o (or_introl eq_refl)) as (A & B & _).
    apply in_map_iff in A. destruct A as (n & <- & _). apply selector_matches in B. rewrite HS in B. discriminate.
Qed.

(** Others are left alone by a parent being deleted. *)
Lemma claim_deleting_store : forall c me l f sel st cl err st', Claim me true l f sel st c = (cl, err, st') -> st' = st.
Proof.
  intros c me l f sel st cl err st' EC. pose proof (claim_store _ _ _ _ _ _ _ _ _ _ EC) as H. clear EC.
  assert (forall a b, Forall2 (touched me true l sel c) a b -> b = a) as HH; [|auto].
  intros a b X. induction X as [|x y x' y' H1 H2 IH]; [reflexivity|]. rewrite IH. destruct H1 as [->|(_ & o & _ & _ & C & _)]; [reflexivity|discriminate].
Qed.

Lemma unharmed : forall e valid p q store tmpl news s, p_deleting p = true -> distinct store -> In s store -> ~ owned s (p_uid p) ->
  In s (snd (reconcileSet e valid p q store store tmpl news)) /\ In s (snd (reconcileDeployment e valid p q store store tmpl news)).
Proof.
  intros e valid p q store tmpl news s HD HDi Hs Ho. unfold reconcileSet, reconcileDeployment. destruct valid; cbn [negb]; [|auto]. rewrite HD. cbn [negb].
  destruct (Claim (p_uid p) true (e_live e) (e_fault e) (p_sel p) store store) as [[cl err] s1] eqn:EC.
  pose proof (claim_deleting_store _ _ _ _ _ _ _ _ _ EC) as ->.
  assert (In s (terminateAll e cl store)) as HT.
  { unfold terminateAll. apply in_map_iff. exists s. split; [|exact Hs].
    destruct (existsb _ cl) eqn:E; [|reflexivity]. exfalso. apply existsb_exists in E. destruct E as (t & Ht & Et). apply andb_prop in Et. destruct Et as (Et & _). apply Nat.eqb_eq in Et.
    destruct (claim_sound _ _ _ _ _ _ _ _ _ _ EC t Ht) as (A & _ & [B|(_ & _ & B & _)]); [|discriminate].
    apply Ho. assert (t = s) as <- by (eapply distinct_eq; eauto). exact B. }
  split.
  - destruct err; [exact Hs|]. destruct cl; [exact Hs|]. destruct (has _ _); [exact HT|exact Hs].
  - destruct (p_sel p); [exact Hs|]. destruct err; [exact Hs|]. destruct (has _ _); cbn [negb]; [|exact Hs]. destruct cl; [exact Hs|exact HT].
Qed.

(** When claiming fails. *)
Lemma find_stored : forall store o, distinct store ->
  match find (fun s => Nat.eqb (o_name s) (o_name o)) store with
  | None => ~ In (o_name o) (map o_name store)
  | Some s => In (o_name o) (map o_name store) /\ (stored store o <-> o_uid s = o_uid o)
  end.
Proof.
  intros store o D. destruct (find _ store) as [s|] eqn:E.
  - apply find_some in E. destruct E as (I0 & N). apply Nat.eqb_eq in N. split; [rewrite <- N; apply in_map, I0|]. unfold stored. split.
    + intros (s' & I1 & N1 & U1). assert (s' = s) as -> by (apply (distinct_eq store); auto; congruence). exact U1.
    + intros U. exists s. auto.
  - intros I0. apply in_map_iff in I0. destruct I0 as (s & N & I1). assert (Q := find_none _ _ E s I1). cbn in Q. rewrite N, Nat.eqb_refl in Q. discriminate.
Qed.

Lemma patch_result : forall f store o ow r s', distinct store -> patchOwners f store (o_name o) (o_uid o) ow = (r, s') ->
  (r = PError <-> lost f store o) /\
  (r = PInvalid <-> f <> FBefore /\ In (o_name o) (map o_name store) /\ ~ stored store o) /\
  (r = PNotFound <-> f <> FBefore /\ ~ In (o_name o) (map o_name store)).
Proof.
  intros f store o ow r s' D H. pose proof (find_stored store o D) as F. unfold patchOwners in H. unfold lost.
  destruct f.
  - destruct (find _ store) as [s|].
    + destruct F as (I0 & U). destruct (Nat.eqb_spec (o_uid s) (o_uid o)) as [E | E]; injection H as <- <-; rewrite U; intuition (try discriminate; try congruence).
    + injection H as <- <-. intuition (try discriminate; try congruence).
  - injection H as <- <-. intuition (try discriminate; try congruence).
  - destruct (find _ store) as [s|].
    + destruct F as (I0 & U). destruct (Nat.eqb_spec (o_uid s) (o_uid o)) as [E | E]; injection H as <- <-; rewrite U; intuition (try discriminate; try congruence).
    + assert (NS : ~ stored store o) by (intros (s & I0 & N & _); apply F; rewrite <- N; apply in_map, I0).
      injection H as <- <-. intuition (try discriminate; try congruence).
Qed.

Lemma claim_object_error : forall me deleting l f sel store o ok err store', distinct store ->
  ClaimObject me deleting l f sel store o = (ok, err, store') -> (err = true <-> claim_fails me deleting l f sel store o).
Proof.
  intros me deleting l f sel store o ok err store' D H. unfold ClaimObject in H. unfold claim_fails.
  destruct (GetControllerOf o) as [u|] eqn:EC.
  - apply ctrl_owned in EC. assert (NO : ~ orphan o). { intro Q. apply ctrl_orphan in Q. apply ctrl_owned in EC. congruence. }
    destruct (Nat.eqb_spec u me) as [-> | NE]; cbn [negb] in H.
    2: { injection H as _ <- _. split; [discriminate|]. intros (_ & [(O & _) | (O & _)]); [|contradiction].
         exfalso. apply NE. exact (controlled_fun _ _ _ EC O). }
    destruct (selectorMatches sel (o_labels o)) eqn:ES.
    { apply selector_matches in ES. injection H as _ <- _. split; [discriminate|]. intros (_ & [(_ & M & _) | (O & _)]); contradiction. }
    apply selector_not in ES. destruct deleting; [injection H as _ <- _; split; [discriminate|intros (Q & _); discriminate]|].
    unfold Release in H. destruct (patchOwners f store (o_name o) (o_uid o) [mkOwner me true]) as [r s'] eqn:EP.
    destruct (patch_result _ _ _ _ _ _ D EP) as (P1 & P2 & P3).
    destruct r; injection H as _ <- _.
    1,2,3: split; [discriminate|]; intros (_ & [(_ & _ & L) | (O & _)]); [apply P1 in L; discriminate|contradiction].
    split; [|reflexivity]. intros _. split; [reflexivity|]. left. split; [exact EC|]. split; [exact ES|]. apply P1. reflexivity.
  - apply ctrl_orphan in EC. assert (NO : ~ owned o me). { intro Q. apply ctrl_owned in Q. apply ctrl_orphan in EC. congruence. }
    destruct deleting; [injection H as _ <- _; split; [discriminate|intros (Q & _); discriminate]|]. cbn [orb] in H.
    destruct (selectorMatches sel (o_labels o)) eqn:ES; cbn [negb] in H.
    2: { apply selector_not in ES. injection H as _ <- _. split; [discriminate|]. intros (_ & [(O & _) | (_ & M & _)]); contradiction. }
    apply selector_matches in ES. destruct (o_deleting o) eqn:ED.
    { injection H as _ <- _. split; [discriminate|]. intros (_ & [(O & _) | (_ & _ & Q & _)]); [contradiction|discriminate]. }
    unfold Adopt in H. destruct (CanAdopt me l) eqn:EA.
    2: { injection H as _ <- _. split; [|reflexivity]. intros _. split; [reflexivity|]. right. repeat (split; [assumption || reflexivity|]). left.
         intro Q. apply can_adopt in Q. congruence. }
    apply can_adopt in EA. destruct (patchOwners f store (o_name o) (o_uid o) [mkOwner me true]) as [r s'] eqn:EP.
    destruct (patch_result _ _ _ _ _ _ D EP) as (P1 & P2 & P3).
    destruct r; injection H as _ <- _.
    1,2: split; [discriminate|]; intros (_ & [(O & _) | (_ & _ & _ & [Q | [Q | Q]])]); try contradiction; [apply P1 in Q; discriminate | ..].
    + destruct f; (assert (X : PDone = PInvalid) by (apply P2; split; [discriminate|exact Q]); discriminate).
    + destruct f; (assert (X : PNotFound = PInvalid) by (apply P2; split; [discriminate|exact Q]); discriminate).
    + split; [|reflexivity]. intros _. split; [reflexivity|]. right. repeat (split; [assumption || reflexivity|]). right. right. apply (proj1 P2 eq_refl).
    + split; [|reflexivity]. intros _. split; [reflexivity|]. right. repeat (split; [assumption || reflexivity|]). right. left. apply P1. reflexivity.
Qed.

Lemma claim_object_ids : forall me deleting l f sel store o ok err store', ClaimObject me deleting l f sel store o = (ok, err, store') ->
  map (fun s => (o_name s, o_uid s)) store' = map (fun s => (o_name s, o_uid s)) store.
Proof.
  assert (P : forall f store n u ow r s', patchOwners f store n u ow = (r, s') -> map (fun s => (o_name s, o_uid s)) s' = map (fun s => (o_name s, o_uid s)) store).
  { intros f store n u ow r s' H. unfold patchOwners in H.
    assert (M : map (fun s => (o_name s, o_uid s)) (map (fun s => if Nat.eqb (o_name s) n then mkObj (o_name s) (o_uid s) ow (o_labels s) (o_deleting s) else s) store)
                = map (fun s => (o_name s, o_uid s)) store).
    { rewrite map_map. apply map_ext. intros a. destruct (Nat.eqb _ _); reflexivity. }
    destruct f; try (injection H as _ <-; reflexivity); destruct (find _ store) as [s|]; try (injection H as _ <-; reflexivity);
      destruct (Nat.eqb (o_uid s) u); injection H as _ <-; auto. }
  intros me deleting l f sel store o ok err store' H. unfold ClaimObject, Release, Adopt in H.
  destruct (GetControllerOf o) as [u|].
  - destruct (negb _); [injection H as _ _ <-; reflexivity|]. destruct (selectorMatches _ _); [injection H as _ _ <-; reflexivity|].
    destruct deleting; [injection H as _ _ <-; reflexivity|]. destruct (patchOwners _ _ _ _ _) as [r s'] eqn:E. apply P in E. destruct r; injection H as _ _ <-; exact E.
  - destruct (_ || _); [injection H as _ _ <-; reflexivity|]. destruct (o_deleting o); [injection H as _ _ <-; reflexivity|].
    destruct (CanAdopt me l); [|injection H as _ _ <-; reflexivity]. destruct (patchOwners _ _ _ _ _) as [r s'] eqn:E. apply P in E. destruct r; injection H as _ _ <-; exact E.
Qed.

Lemma ids_stored : forall a b o, map (fun s => (o_name s, o_uid s)) a = map (fun s => (o_name s, o_uid s)) b -> stored a o -> stored b o.
Proof.
  intros a b o E (s & I0 & N & U). assert (Q : In (o_name o, o_uid o) (map (fun s => (o_name s, o_uid s)) b)).
  { rewrite <- E. apply in_map_iff. exists s. rewrite N, U. auto. }
  apply in_map_iff in Q. destruct Q as (s' & Q & I1). injection Q as Q1 Q2. exists s'. auto.
Qed.
Lemma ids_names : forall a b, map (fun s => (o_name s, o_uid s)) a = map (fun s => (o_name s, o_uid s)) b -> map o_name a = map o_name b.
Proof. intros a b E. apply (f_equal (map fst)) in E. rewrite !map_map in E. exact E. Qed.
Lemma fails_ids : forall me d l f sel a b o, map (fun s => (o_name s, o_uid s)) a = map (fun s => (o_name s, o_uid s)) b ->
  claim_fails me d l f sel a o -> claim_fails me d l f sel b o.
Proof.
  intros me d l f sel a b o E. pose proof (ids_stored a b o E) as S1. pose proof (ids_stored b a o (eq_sym E)) as S2. pose proof (ids_names _ _ E) as N.
  unfold claim_fails, lost. rewrite N. intuition.
Qed.

Lemma claim_error : forall cache me d l faults sel store cl err store', distinct store ->
  Claim me d l faults sel store cache = (cl, err, store') ->
  (err = true <-> exists o, In o cache /\ claim_fails me d l (faults (o_name o)) sel store o).
Proof.
  induction cache as [|o r IH]; intros me d l faults sel store cl err store' D H; cbn [Claim] in H.
  - injection H as _ <- _. split; [discriminate|]. intros (o & [] & _).
  - destruct (ClaimObject me d l (faults (o_name o)) sel store o) as [[ok e] s1] eqn:E1.
    destruct (Claim me d l faults sel s1 r) as [[c es] s2] eqn:E2. injection H as _ <- _.
    pose proof (claim_object_ids _ _ _ _ _ _ _ _ _ _ E1) as ID. assert (D1 : distinct s1) by (unfold distinct; rewrite (ids_names _ _ ID); exact D).
    pose proof (claim_object_error _ _ _ _ _ _ _ _ _ _ D E1) as Q1. pose proof (IH _ _ _ _ _ _ _ _ _ D1 E2) as Q2.
    rewrite orb_true_iff, Q1, Q2. split.
    + intros [A | (x & I0 & A)]; [exists o; split; [left; reflexivity|exact A] | exists x; split; [right; exact I0|exact (fails_ids _ _ _ _ _ _ _ _ ID A)]].
    + intros (x & [<- | I0] & A); [left; exact A|right; exists x; split; [exact I0|exact (fails_ids _ _ _ _ _ _ _ _ (eq_sym ID) A)]].
Qed.

Lemma goes_on : forall e p store cache tmpl news, p_deleting p = false -> distinct store ->
  (In DeleteFinalizerName (p_finalizers p) \/ e_final e = true) ->
  (forall o, In o cache -> ~ claim_fails (p_uid p) false (e_live e) (e_fault e (o_name o)) (p_sel p) store o) ->
  forall n, In n news ->
  (exists s, In s (snd (reconcileSet e true p (p_finalizers p) store cache tmpl news)) /\
     o_name s = n /\ owned s (p_uid p) /\ o_deleting s = false /\ o_labels s = tmpl) /\
  In DeleteFinalizerName (fst (reconcileSet e true p (p_finalizers p) store cache tmpl news)).
Proof.
  intros e p store cache tmpl news PD D FIN OK n Hn. unfold reconcileSet. cbn [negb]. rewrite PD.
  assert (U : exists q, updateFinalizers (p_finalizers p) (addFinalizer (p_finalizers p)) (e_final e) = (q, true) /\ In DeleteFinalizerName q).
  { unfold updateFinalizers, addFinalizer. destruct (has DeleteFinalizerName (p_finalizers p)) eqn:EH.
    - apply has_in in EH. eexists. split; [reflexivity|exact EH].
    - destruct FIN as [F | F]; [apply has_in in F; congruence|]. rewrite F. eexists. split; [reflexivity|left; reflexivity]. }
  destruct U as (q & -> & Q). cbn [negb]. destruct (Claim _ _ _ _ _ _ _) as [[cl err] s1] eqn:EC.
  destruct err.
  { exfalso. destruct (proj1 (claim_error _ _ _ _ _ _ _ _ _ _ D EC) eq_refl) as (o & I0 & A). exact (OK o I0 A). }
  cbn [fst snd]. split; [|exact Q]. exists (adoptive (p_uid p) tmpl n). split; [apply in_or_app; right; apply in_map, Hn|].
  repeat split. constructor.
Qed.
