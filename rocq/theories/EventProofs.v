Require Import Coq.Lists.List Coq.Strings.String Coq.Bool.Bool Coq.Arith.PeanoNat.
From Verif Require Import EventModel EventSpec.
Import ListNotations.
Open Scope string_scope.
Open Scope list_scope.

Lemma ref_eqb_eq : forall a b, ref_eqb a b = true -> a = b.
Proof.
  intros [a1 a2 a3 a4 a5] [b1 b2 b3 b4 b5]. unfold ref_eqb. cbn. rewrite !andb_true_iff, !String.eqb_eq, !Nat.eqb_eq, Bool.eqb_true_iff.
  intros ((((-> & ->) & ->) & ->) & ->). reflexivity.
Qed.
Lemma oref_eqb_eq : forall a b, oref_eqb a b = true -> a = b.
Proof. intros [a|] [b|]; cbn; try discriminate; [|reflexivity]. intros H. rewrite (ref_eqb_eq a b H). reflexivity. Qed.
Lemma labels_eqb_eq : forall a b, labels_eqb a b = true -> a = b.
Proof.
  intros a. induction a as [|[k v] a IH]; intros [|[k' v'] b]; cbn; try discriminate; [reflexivity|].
  rewrite !andb_true_iff, !String.eqb_eq. intros ((-> & ->) & H). rewrite (IH b H). reflexivity.
Qed.

Lemma find_first : forall A (f : A -> bool) l x, find f l = Some x <->
  exists l1 l2, l = l1 ++ x :: l2 /\ (forall y, In y l1 -> f y = false) /\ f x = true.
Proof.
  intros A f l. induction l as [|a l IH]; intros x; cbn [find].
  - split; [discriminate|]. intros ([|? ?] & l2 & H & _); discriminate.
  - destruct (f a) eqn:E.
    + split.
      * intros H. injection H as <-. exists [], l. split; [reflexivity|]. split; [intros y []|exact E].
      * intros ([|b l1] & l2 & H & H1 & H2); injection H as -> ->; [reflexivity|]. exfalso. specialize (H1 b (or_introl eq_refl)). congruence.
    + rewrite IH. split.
      * intros (l1 & l2 & -> & H1 & H2). exists (a :: l1), l2. split; [reflexivity|]. split; [|exact H2]. intros y [<-|I]; auto.
      * intros ([|b l1] & l2 & H & H1 & H2); injection H as -> ->; [congruence|]. exists l1, l2. split; [reflexivity|]. split; [|exact H2]. intros y I. apply H1. right. exact I.
Qed.
Lemma find_none : forall A (f : A -> bool) l, find f l = None <-> forall x, In x l -> f x = false.
Proof.
  intros A f l. split; [intros H x I; apply (find_none f l H x I)|].
  induction l as [|a l IH]; cbn; [reflexivity|]. intros H. rewrite (H a (or_introl eq_refl)). apply IH. intros x I. apply H. right. exact I.
Qed.

Lemma controls_ref : forall kind p o, Controls kind p o <->
  exists r, GetControllerOf o = Some r /\ rf_kind r = kind /\ rf_name r = pa_name p /\ rf_uid r = pa_uid p /\ pa_ns p = ob_ns o.
Proof.
  intros kind p o. unfold Controls, GetControllerOf. split.
  - intros (l1 & r & l2 & H & H1 & H2 & H3). exists r. split; [|exact H3]. apply find_first. exists l1, l2. auto.
  - intros (r & H & H3). apply find_first in H. destruct H as (l1 & l2 & H & H1 & H2). exists l1, r, l2. auto.
Qed.
Lemma orphan_none : forall o, Orphan o <-> GetControllerOf o = None.
Proof. intros o. unfold Orphan, GetControllerOf. rewrite find_none. reflexivity. Qed.

Lemma lookup_in : forall ps p, uniqueKeys ps -> In p ps -> lookup ps (pa_ns p) (pa_name p) = Some p.
Proof.
  intros ps p. unfold lookup, uniqueKeys. induction ps as [|q ps IH]; cbn [map find In]; [contradiction|].
  intros N I. inversion N as [|? ? N1 N2]; subst. destruct I as [->|I].
  - rewrite !String.eqb_refl. reflexivity.
  - destruct (String.eqb_spec (pa_ns q) (pa_ns p)) as [E|E]; cbn; [|apply IH; assumption].
    destruct (String.eqb_spec (pa_name q) (pa_name p)) as [F|F]; [|apply IH; assumption].
    exfalso. apply N1. rewrite E, F. apply in_map_iff. exists p. auto 10.
Qed.
Lemma lookup_some : forall ps ns name p, lookup ps ns name = Some p -> In p ps /\ pa_ns p = ns /\ pa_name p = name.
Proof.
  intros ps ns name p H. unfold lookup in H. destruct (find_some _ _ H) as (I & E). apply andb_true_iff in E. rewrite !String.eqb_eq in E. tauto.
Qed.

Lemma resolve_controls : forall kind get p o r, get (pa_ns p) (pa_name p) = Some p -> Controls kind p o -> GetControllerOf o = Some r ->
  resolve kind get (ob_ns o) r = Some p.
Proof.
  intros kind get p o r G C H. apply controls_ref in C. destruct C as (r' & H' & E1 & E2 & E3 & E4). rewrite H in H'. injection H' as <-.
  unfold resolve. rewrite E1, String.eqb_refl. cbn. rewrite E2, <- E4, G, E3, Nat.eqb_refl. reflexivity.
Qed.
Lemma resolve_sound : forall kind ps o r p, GetControllerOf o = Some r -> resolve kind (lookup ps) (ob_ns o) r = Some p -> In p ps /\ Controls kind p o.
Proof.
  intros kind ps o r p H R. unfold resolve in R. destruct (String.eqb_spec (rf_kind r) kind) as [E|E]; cbn in R; [|discriminate].
  destruct (lookup ps (ob_ns o) (rf_name r)) as [q|] eqn:L; [|discriminate]. destruct (Nat.eqb_spec (pa_uid q) (rf_uid r)) as [U|U]; [|discriminate].
  injection R as ->. apply lookup_some in L. destruct L as (L1 & L2 & L3). split; [exact L1|]. apply controls_ref. exists r. auto.
Qed.

Lemma matching_spec : forall b o ps, (forall p, In p ps -> (b = true -> pa_ns p = ob_ns o) -> pa_sel p <> SInvalid) ->
  exists l, matching b o ps = Some l /\
  forall p, In p l <-> In p ps /\ (b = true -> pa_ns p = ob_ns o) /\ exists f, pa_sel p = SMatch f /\ f (ob_labels o) = true.
Proof.
  intros b o ps. induction ps as [|p ps IH]; intros V; cbn [matching].
  - exists []. split; [reflexivity|]. cbn. tauto.
  - destruct IH as (l & E & H); [intros q I; apply V; right; exact I|].
    destruct (b && negb (String.eqb (pa_ns p) (ob_ns o))) eqn:B.
    + exists l. split; [exact E|]. intros q. rewrite H. apply andb_true_iff in B. destruct B as (-> & B). apply negb_true_iff, String.eqb_neq in B.
      cbn [In]. split; [tauto|]. intros ([->|I] & N & X); [exfalso; apply B; auto|auto].
    + assert (b = true -> pa_ns p = ob_ns o) as N.
      { intros ->. cbn in B. apply negb_false_iff, String.eqb_eq in B. exact B. }
      pose proof (V p (or_introl eq_refl) N) as Vp. destruct (pa_sel p) as [| |f] eqn:S; [congruence| |].
      * exists l. split; [exact E|]. intros q. rewrite H. cbn [In]. split; [tauto|]. intros ([<-|I] & N' & f & X & Y); [congruence|]. split; [exact I|]. split; [exact N'|]. exists f. auto.
      * rewrite E. eexists. split; [reflexivity|]. intros q. destruct (f (ob_labels o)) eqn:F; cbn [In].
        -- rewrite H. split.
           ++ intros [<-|(I & N' & X)]; [|auto]. split; [auto|]. split; [exact N|]. exists f. auto.
           ++ intros ([<-|I] & N' & X); auto.
        -- rewrite H. split; [tauto|]. intros ([<-|I] & N' & g & X & Y); [congruence|]. split; [exact I|]. split; [exact N'|]. exists g. auto.
Qed.
Lemma matching_sound : forall b o ps l p, matching b o ps = Some l -> In p l ->
  In p ps /\ (b = true -> pa_ns p = ob_ns o) /\ exists f, pa_sel p = SMatch f /\ f (ob_labels o) = true.
Proof.
  intros b o ps. induction ps as [|q ps IH]; intros l p; cbn [matching].
  - intros H. injection H as <-. contradiction.
  - destruct (b && negb (String.eqb (pa_ns q) (ob_ns o))) eqn:B.
    + intros H I. destruct (IH l p H I) as (X & Y). cbn. auto.
    + destruct (pa_sel q) as [| |f] eqn:S; [discriminate| |].
      * intros H I. destruct (IH l p H I) as (X & Y). cbn. auto.
      * destruct (matching b o ps) as [l'|]; [|discriminate]. intros H. injection H as <-.
        destruct (f (ob_labels o)) eqn:F; intros I; [|destruct (IH l' p eq_refl I) as (X & Y); cbn; auto].
        destruct I as [<-|I]; [|destruct (IH l' p eq_refl I) as (X & Y); cbn; auto].
        split; [left; reflexivity|]. split; [|exists f; auto].
        intros ->. cbn in B. apply negb_false_iff, String.eqb_eq in B. exact B.
Qed.
Lemma parents_spec : forall b o ps p, (forall q, In q ps -> (b = true -> pa_ns q = ob_ns o) -> pa_sel q <> SInvalid) ->
  In p ps -> (b = true -> pa_ns p = ob_ns o) -> Selects p o -> In p (matchingParents b o ps).
Proof.
  intros b o ps p V I N (L & S). unfold matchingParents. destruct (ob_labels o) as [|x l] eqn:E; [congruence|].
  destruct (matching_spec b o ps V) as (r & R & H). rewrite R. apply H. rewrite E. auto.
Qed.
Lemma parents_sound : forall b o ps p, In p (matchingParents b o ps) -> In p ps /\ (b = true -> pa_ns p = ob_ns o) /\ Selects p o.
Proof.
  intros b o ps p. unfold matchingParents, Selects. destruct (ob_labels o) as [|x l] eqn:E; [contradiction|].
  destruct (matching b o ps) as [r|] eqn:R; [|contradiction]. intros I. destruct (matching_sound _ _ _ _ _ R I) as (X & Y & Z).
  rewrite E in Z. split; [exact X|]. split; [exact Y|]. split; [discriminate|exact Z].
Qed.

(** *** Machines *)
Lemma delete_complete : forall sets p m (t : bool), uniqueKeys sets -> In p sets -> Controls "MachineSet" p m ->
  In (QueueSet (pa_ns p) (pa_name p)) (deleteMachineToMachineSet sets (if t then DTomb m else DObj m)).
Proof.
  intros sets p m t U I C. assert (exists r, GetControllerOf m = Some r) as (r & R) by (apply controls_ref in C; destruct C as (r & R & _); eauto).
  assert (deleteMachineToMachineSet sets (if t then DTomb m else DObj m) = [DeletionSeen (pa_ns p) (pa_name p) (ob_name m); QueueSet (pa_ns p) (pa_name p)]) as ->.
  { destruct t; cbn [deleteMachineToMachineSet]; rewrite R, (resolve_controls "MachineSet" _ p m r (lookup_in sets p U I) C R); reflexivity. }
  cbn. auto.
Qed.

Lemma adopt_changed : forall p old cur, versions old cur -> Adopts p cur -> ~ Adopts p old ->
  negb (labels_eqb (ob_labels cur) (ob_labels old)) || negb (oref_eqb (GetControllerOf cur) (GetControllerOf old)) = true.
Proof.
  intros p old cur (V1 & V2 & V3) (A1 & A2 & A3 & A4) N. apply orb_true_iff.
  destruct (labels_eqb (ob_labels cur) (ob_labels old)) eqn:L; [|left; reflexivity]. right. apply negb_true_iff.
  destruct (oref_eqb (GetControllerOf cur) (GetControllerOf old)) eqn:R; [|reflexivity]. exfalso. apply N.
  apply labels_eqb_eq in L. apply oref_eqb_eq in R. split; [|split; [|split]].
  - destruct (ob_deleting old); [|reflexivity]. rewrite V2 in A1 by reflexivity. discriminate.
  - apply orphan_none. apply orphan_none in A2. congruence.
  - congruence.
  - unfold Selects in *. rewrite <- L. exact A4.
Qed.

Lemma machine_wakes : forall sets p e, uniqueKeys sets -> In p sets -> proper e ->
  (adopting p e -> validIn (eventNs e) sets) -> ~ hiddenMove e -> Concerns "MachineSet" p e ->
  In (QueueSet (pa_ns p) (pa_name p)) (machineEvent sets e).
Proof.
  intros sets p e U I P V HM C.
  assert (forall o, ob_deleting o = false -> Orphan o -> pa_ns p = ob_ns o -> Selects p o -> validIn (ob_ns o) sets ->
     In (QueueSet (pa_ns p) (pa_name p)) (map (fun s => QueueSet (pa_ns s) (pa_name s)) (matchingParents true o sets))) as AD.
  { intros o D O N S Va. apply in_map_iff. exists p. split; [reflexivity|]. apply parents_spec; [|exact I|auto|exact S].
    intros q Iq Nq. apply Va; [exact Iq|auto]. }
  destruct e as [m|old cur|m t]; cbn [machineEvent Concerns adopting eventNs] in *.
  - unfold onMachineAdded, addMachineToMachineSet. apply in_or_app. left. destruct C as [C|A].
    + destruct (ob_deleting m); [apply (delete_complete sets p m false U I C)|].
      assert (exists r, GetControllerOf m = Some r) as (r & R) by (apply controls_ref in C; destruct C as (r & R & _); eauto).
      rewrite R, (resolve_controls "MachineSet" _ p m r (lookup_in sets p U I) C R). cbn. auto.
    + specialize (V A). destruct A as (A1 & A2 & A3 & A4). rewrite A1. pose proof A2 as O. apply orphan_none in O. rewrite O. apply AD; assumption.
  - destruct C as (NE & C). unfold onMachineUpdated, updateMachineToMachineSet.
    destruct (Nat.eqb_spec (ob_rv cur) (ob_rv old)) as [RV|RV]; [exfalso; apply NE, P; congruence|]. cbv zeta.
    destruct (ob_deleting cur) eqn:D.
    + destruct C as [C|[C|(A & _)]].
      * apply in_or_app. left. apply (delete_complete sets p cur false U I C).
      * destruct (labels_eqb (ob_labels cur) (ob_labels old)) eqn:L; cbn [negb].
        -- (* same labels: the owner is the same *)
           apply labels_eqb_eq in L. apply in_or_app. left. apply (delete_complete sets p cur false U I).
           destruct (oref_eqb (GetControllerOf old) (GetControllerOf cur)) eqn:R.
           ++ apply oref_eqb_eq in R. apply controls_ref. apply controls_ref in C. destruct C as (r & C & X). exists r. split; [congruence|].
              destruct P as (P1 & _). rewrite <- P1. exact X.
           ++ exfalso. apply HM. cbn. split; [exact D|]. split; [auto|]. intros X. fold (GetControllerOf old) in X. fold (GetControllerOf cur) in X.
              rewrite X in R. destruct (GetControllerOf cur) as [r|]; cbn in R; [|discriminate]. unfold ref_eqb in R.
              rewrite !String.eqb_refl, !Nat.eqb_refl, eqb_reflx in R. discriminate.
        -- apply in_or_app. right. apply (delete_complete sets p old false U I C).
      * destruct A as (A & _). congruence.
    + destruct C as [C|[C|(A & NA)]].
      * apply in_or_app. right.
        assert (exists r, GetControllerOf cur = Some r) as (r & R) by (apply controls_ref in C; destruct C as (r & R & _); eauto).
        rewrite R, (resolve_controls "MachineSet" _ p cur r (lookup_in sets p U I) C R). cbn. auto.
      * assert (exists r, GetControllerOf old = Some r) as (r & R) by (apply controls_ref in C; destruct C as (r & R & _); eauto).
        destruct (oref_eqb (GetControllerOf cur) (GetControllerOf old)) eqn:Q; cbn [negb].
        -- apply oref_eqb_eq in Q. cbn [app]. rewrite Q, R. destruct P as (P1 & _). rewrite <- P1.
           rewrite (resolve_controls "MachineSet" _ p old r (lookup_in sets p U I) C R). cbn. auto.
        -- apply in_or_app. left. rewrite R, (resolve_controls "MachineSet" _ p old r (lookup_in sets p U I) C R). cbn. auto.
      * apply in_or_app. right. pose proof (adopt_changed p old cur P A NA) as X. specialize (V A). destruct A as (A1 & A2 & A3 & A4).
        pose proof A2 as O. apply orphan_none in O. rewrite O in *. rewrite X. apply AD; assumption.
  - unfold onMachineDeleted. apply in_or_app. left. apply delete_complete; assumption.
Qed.

(** Nobody else is woken. *)
Definition Related (kind : string) (sameNs : bool) (p : Parent) (e : Event) : Prop :=
  match e with
  | Added o | Removed o _ => Controls kind p o \/ (Orphan o /\ (sameNs = true -> pa_ns p = ob_ns o) /\ Selects p o)
  | Updated old cur => old <> cur /\ (Controls kind p cur \/ Controls kind p old \/ (Orphan cur /\ (sameNs = true -> pa_ns p = ob_ns cur) /\ Selects p cur))
  end.

Lemma delete_sound : forall sets x ns name, In (QueueSet ns name) (deleteMachineToMachineSet sets x) ->
  exists m p, (x = DObj m \/ x = DTomb m) /\ In p sets /\ pa_ns p = ns /\ pa_name p = name /\ Controls "MachineSet" p m.
Proof.
  intros sets x ns name. destruct x as [m|m|]; cbn [deleteMachineToMachineSet]; [| |contradiction];
    (destruct (GetControllerOf m) as [r|] eqn:R; [|contradiction]; destruct (resolve "MachineSet" (lookup sets) (ob_ns m) r) as [p|] eqn:E; [|contradiction];
     destruct (resolve_sound _ _ _ _ _ R E) as (I & C); intros [X|[X|[]]]; [discriminate|]; injection X as <- <-; exists m, p; auto).
Qed.

Lemma machine_only : forall sets e ns name, In (QueueSet ns name) (machineEvent sets e) ->
  exists p, In p sets /\ pa_ns p = ns /\ pa_name p = name /\ Related "MachineSet" true p e.
Proof.
  intros sets e ns name.
  assert (forall o, GetControllerOf o = None -> In (QueueSet ns name) (map (fun s => QueueSet (pa_ns s) (pa_name s)) (matchingParents true o sets)) ->
    exists p, In p sets /\ pa_ns p = ns /\ pa_name p = name /\ (Orphan o /\ (true = true -> pa_ns p = ob_ns o) /\ Selects p o)) as AD.
  { intros o O X. apply in_map_iff in X. destruct X as (p & X & Y). injection X as <- <-. apply parents_sound in Y. exists p.
    apply orphan_none in O. tauto. }
  destruct e as [m|old cur|m t]; cbn [machineEvent Related].
  - unfold onMachineAdded, addMachineToMachineSet. rewrite in_app_iff. intros [H|[H|[]]]; [|discriminate].
    destruct (ob_deleting m).
    + apply delete_sound in H. destruct H as (m' & p & [X|X] & I & E1 & E2 & C); [|discriminate]. injection X as <-. exists p. auto 10.
    + destruct (GetControllerOf m) as [r|] eqn:R.
      * destruct (resolve "MachineSet" (lookup sets) (ob_ns m) r) as [p|] eqn:E; [|contradiction].
        destruct (resolve_sound _ _ _ _ _ R E) as (I & C). destruct H as [H|[H|[]]]; [discriminate|]. injection H as <- <-. exists p. auto 10.
      * destruct (AD m R H) as (p & X). exists p. tauto.
  - unfold onMachineUpdated, updateMachineToMachineSet. destruct (Nat.eqb_spec (ob_rv cur) (ob_rv old)) as [RV|RV]; [contradiction|]. cbv zeta.
    assert (old <> cur) as NE by congruence.
    destruct (ob_deleting cur).
    + rewrite in_app_iff. intros [H|H].
      * apply delete_sound in H. destruct H as (m' & p & [X|X] & I & E1 & E2 & C); [|discriminate]. injection X as <-. exists p. auto 10.
      * destruct (negb (labels_eqb (ob_labels cur) (ob_labels old))); [|contradiction].
        apply delete_sound in H. destruct H as (m' & p & [X|X] & I & E1 & E2 & C); [|discriminate]. injection X as <-. exists p. auto 10.
    + rewrite in_app_iff. intros [H|H].
      * destruct (negb (oref_eqb (GetControllerOf cur) (GetControllerOf old))); [|contradiction]. destruct (GetControllerOf old) as [r|] eqn:R; [|contradiction].
        destruct (resolve "MachineSet" (lookup sets) (ob_ns old) r) as [p|] eqn:E; [|contradiction].
        destruct (resolve_sound _ _ _ _ _ R E) as (I & C). destruct H as [H|[]]. injection H as <- <-. exists p. auto 10.
      * destruct (GetControllerOf cur) as [r|] eqn:R.
        -- destruct (resolve "MachineSet" (lookup sets) (ob_ns cur) r) as [p|] eqn:E; [|contradiction].
           destruct (resolve_sound _ _ _ _ _ R E) as (I & C). destruct H as [H|[]]. injection H as <- <-. exists p. auto 10.
        -- match type of H with In _ (if ?b then _ else _) => destruct b end; [|contradiction]. destruct (AD cur R H) as (p & X). exists p. tauto.
  - unfold onMachineDeleted. rewrite in_app_iff. intros [H|H].
    + apply delete_sound in H. destruct H as (m' & p & X & I & E1 & E2 & C). assert (m' = m) as -> by (destruct t, X; congruence). exists p. auto 10.
    + destruct t; contradiction.
Qed.

(** *** Expectations *)
Lemma creation_seen : forall sets e ns name, uniqueKeys sets ->
  (In (CreationSeen ns name) (machineEvent sets e) <->
   exists m p, e = Added m /\ ob_deleting m = false /\ In p sets /\ pa_ns p = ns /\ pa_name p = name /\ Controls "MachineSet" p m).
Proof.
  intros sets e ns name U.
  assert (forall x, ~ In (CreationSeen ns name) (deleteMachineToMachineSet sets x)) as DN.
  { intros x. destruct x as [m|m|]; cbn [deleteMachineToMachineSet]; [| |auto];
      (destruct (GetControllerOf m); [|auto]; destruct (resolve _ _ _ _); [|auto]; intros [X|[X|[]]]; discriminate). }
  assert (forall l : list Parent, ~ In (CreationSeen ns name) (map (fun s => QueueSet (pa_ns s) (pa_name s)) l)) as MN.
  { intros l X. apply in_map_iff in X. destruct X as (? & X & _). discriminate. }
  split.
  - destruct e as [m|old cur|m t]; cbn [machineEvent].
    + unfold onMachineAdded, addMachineToMachineSet. rewrite in_app_iff. intros [H|[H|[]]]; [|discriminate].
      destruct (ob_deleting m) eqn:D; [destruct (DN _ H)|]. destruct (GetControllerOf m) as [r|] eqn:R; [|destruct (MN _ H)].
      destruct (resolve "MachineSet" (lookup sets) (ob_ns m) r) as [p|] eqn:E; [|contradiction].
      destruct (resolve_sound _ _ _ _ _ R E) as (I & C). destruct H as [H|[H|[]]]; [|discriminate]. injection H as <- <-. exists m, p. auto 10.
    + unfold onMachineUpdated, updateMachineToMachineSet. destruct (Nat.eqb _ _); [contradiction|]. cbv zeta. destruct (ob_deleting cur).
      * rewrite in_app_iff. intros [H|H]; [destruct (DN _ H)|]. destruct (negb _); [destruct (DN _ H)|contradiction].
      * rewrite in_app_iff. intros [H|H]; exfalso.
        -- destruct (negb _); [|contradiction]. destruct (GetControllerOf old); [|contradiction]. destruct (resolve _ _ _ _); [|contradiction]. destruct H as [H|[]]; discriminate.
        -- destruct (GetControllerOf cur). { destruct (resolve _ _ _ _); [|contradiction]. destruct H as [H|[]]; discriminate. }
           match type of H with In _ (if ?b then _ else _) => destruct b end; [|contradiction]. destruct (MN _ H).
    + unfold onMachineDeleted. rewrite in_app_iff. intros [H|H]; [destruct (DN _ H)|]. destruct t; contradiction.
  - intros (m & p & -> & D & I & <- & <- & C). cbn [machineEvent]. unfold onMachineAdded, addMachineToMachineSet. rewrite D.
    assert (exists r, GetControllerOf m = Some r) as (r & R) by (apply controls_ref in C; destruct C as (r & R & _); eauto).
    rewrite R, (resolve_controls "MachineSet" _ p m r (lookup_in sets p U I) C R). cbn. auto.
Qed.

Lemma deletion_seen : forall sets e ns name k, uniqueKeys sets -> proper e ->
  In (DeletionSeen ns name k) (machineEvent sets e) ->
  exists m p, In p sets /\ pa_ns p = ns /\ pa_name p = name /\ ob_name m = k /\ Controls "MachineSet" p m /\
    (e = Added m /\ ob_deleting m = true \/ (exists t, e = Removed m t) \/
     exists old cur, e = Updated old cur /\ ob_deleting cur = true /\ (m = cur \/ m = old)).
Proof.
  intros sets e ns name k U P.
  assert (forall x, In (DeletionSeen ns name k) (deleteMachineToMachineSet sets x) ->
     exists m p, (x = DObj m \/ x = DTomb m) /\ In p sets /\ pa_ns p = ns /\ pa_name p = name /\ ob_name m = k /\ Controls "MachineSet" p m) as DN.
  { intros x. destruct x as [m|m|]; cbn [deleteMachineToMachineSet]; [| |contradiction];
    (destruct (GetControllerOf m) as [r|] eqn:R; [|contradiction]; destruct (resolve "MachineSet" (lookup sets) (ob_ns m) r) as [p|] eqn:E; [|contradiction];
     destruct (resolve_sound _ _ _ _ _ R E) as (I & C); intros [X|[X|[]]]; [|discriminate]; injection X as <- <- <-; exists m, p; auto 10). }
  assert (forall l : list Parent, ~ In (DeletionSeen ns name k) (map (fun s => QueueSet (pa_ns s) (pa_name s)) l)) as MN.
  { intros l X. apply in_map_iff in X. destruct X as (? & X & _). discriminate. }
  destruct e as [m|old cur|m t]; cbn [machineEvent].
  - unfold onMachineAdded, addMachineToMachineSet. rewrite in_app_iff. intros [H|[H|[]]]; [|discriminate].
    destruct (ob_deleting m) eqn:D.
    + destruct (DN _ H) as (m' & p & [X|X] & Y); [|discriminate]. injection X as <-. exists m, p. tauto.
    + exfalso. destruct (GetControllerOf m); [|destruct (MN _ H)]. destruct (resolve _ _ _ _); [|contradiction]. destruct H as [H|[H|[]]]; discriminate.
  - unfold onMachineUpdated, updateMachineToMachineSet. destruct (Nat.eqb _ _); [contradiction|]. cbv zeta. destruct (ob_deleting cur) eqn:D.
    + rewrite in_app_iff. intros [H|H].
      * destruct (DN _ H) as (m' & p & [X|X] & Y); [|discriminate]. injection X as <-. exists cur, p. destruct Y as (Y1 & Y2 & Y3 & Y4 & Y5).
        do 5 (split; [assumption|]). right. right. exists old, cur. auto.
      * destruct (negb _); [|contradiction]. destruct (DN _ H) as (m' & p & [X|X] & Y); [|discriminate]. injection X as <-. exists old, p. destruct Y as (Y1 & Y2 & Y3 & Y4 & Y5).
        do 5 (split; [assumption|]). right. right. exists old, cur. auto.
    + rewrite in_app_iff. intros [H|H]; exfalso.
      * destruct (negb _); [|contradiction]. destruct (GetControllerOf old); [|contradiction]. destruct (resolve _ _ _ _); [|contradiction]. destruct H as [H|[]]; discriminate.
      * destruct (GetControllerOf cur). { destruct (resolve _ _ _ _); [|contradiction]. destruct H as [H|[]]; discriminate. }
        match type of H with In _ (if ?b then _ else _) => destruct b end; [|contradiction]. destruct (MN _ H).
  - unfold onMachineDeleted. rewrite in_app_iff. intros [H|H]; [|destruct t; contradiction].
    destruct (DN _ H) as (m' & p & X & Y). assert (m' = m) as -> by (destruct t, X; congruence). exists m, p. destruct Y as (Y1 & Y2 & Y3 & Y4 & Y5).
    do 5 (split; [assumption|]). right. left. exists t. reflexivity.
Qed.

Lemma deletion_counted : forall sets p m e, uniqueKeys sets -> In p sets -> Controls "MachineSet" p m ->
  (e = Added m /\ ob_deleting m = true \/ (exists t, e = Removed m t) \/ (exists old, e = Updated old m /\ ob_rv old <> ob_rv m /\ ob_deleting m = true)) ->
  In (DeletionSeen (pa_ns p) (pa_name p) (ob_name m)) (machineEvent sets e).
Proof.
  intros sets p m e U I C.
  assert (forall t : bool, In (DeletionSeen (pa_ns p) (pa_name p) (ob_name m)) (deleteMachineToMachineSet sets (if t then DTomb m else DObj m))) as X.
  { intros t. assert (exists r, GetControllerOf m = Some r) as (r & R) by (apply controls_ref in C; destruct C as (r & R & _); eauto).
    destruct t; cbn [deleteMachineToMachineSet]; rewrite R, (resolve_controls "MachineSet" _ p m r (lookup_in sets p U I) C R); cbn; auto. }
  intros [(-> & D)|[(t & ->)|(old & -> & N & D)]]; cbn [machineEvent].
  - unfold onMachineAdded, addMachineToMachineSet. rewrite D. apply in_or_app. left. apply (X false).
  - unfold onMachineDeleted. apply in_or_app. left. apply X.
  - unfold onMachineUpdated, updateMachineToMachineSet. destruct (Nat.eqb_spec (ob_rv m) (ob_rv old)); [congruence|]. rewrite D. cbv zeta. apply in_or_app. left. apply (X false).
Qed.

(** *** MachineSets *)
Lemma set_wakes : forall get get' deps p e, get (pa_ns p) (pa_name p) = Some p -> get' (pa_ns p) (pa_name p) = Some p ->
  In p deps -> proper e -> (adopting p e -> forall q, In q deps -> pa_sel q <> SInvalid) -> Concerns "MachineDeployment" p e ->
  In (QueueDep (pa_ns p) (pa_name p)) (setEvent get get' deps e).
Proof.
  intros get get' deps p e G G' I P V C.
  assert (forall o (t : bool), Controls "MachineDeployment" p o -> In (QueueDep (pa_ns p) (pa_name p)) (deleteMachineSetToDeployment get (if t then DTomb o else DObj o))) as DC.
  { intros o t X. assert (exists r, GetControllerOf o = Some r) as (r & R) by (apply controls_ref in X; destruct X as (r & R & _); eauto).
    destruct t; cbn [deleteMachineSetToDeployment]; rewrite R, (resolve_controls "MachineDeployment" _ p o r G X R); cbn; auto. }
  assert (forall o, Adopts p o -> (forall q, In q deps -> pa_sel q <> SInvalid) ->
     In (QueueDep (pa_ns p) (pa_name p)) (map (fun s => QueueDep (pa_ns s) (pa_name s)) (matchingParents false o deps))) as AD.
  { intros o (A1 & A2 & A3 & A4) Va. apply in_map_iff. exists p. split; [reflexivity|]. apply parents_spec; [|exact I|discriminate|exact A4]. auto. }
  destruct e as [s|old cur|s t]; cbn [setEvent Concerns adopting] in *.
  - unfold onSetAdded, addMachineSetToDeployment. right. destruct C as [C|A].
    + destruct (ob_deleting s); [apply (DC s false C)|].
      assert (exists r, GetControllerOf s = Some r) as (r & R) by (apply controls_ref in C; destruct C as (r & R & _); eauto).
      rewrite R, (resolve_controls "MachineDeployment" _ p s r G C R). cbn. auto.
    + specialize (V A). pose proof A as (A1 & A2 & A3 & A4). rewrite A1. apply orphan_none in A2. rewrite A2. apply AD; assumption.
  - destruct C as (NE & C). unfold onSetUpdated, updateMachineSetToDeployment. right.
    destruct (Nat.eqb_spec (ob_rv cur) (ob_rv old)) as [RV|RV]; [exfalso; apply NE, P; congruence|]. cbv zeta.
    destruct C as [C|[C|(A & NA)]].
    + apply in_or_app. right.
      assert (exists r, GetControllerOf cur = Some r) as (r & R) by (apply controls_ref in C; destruct C as (r & R & _); eauto).
      rewrite R, (resolve_controls "MachineDeployment" _ p cur r G' C R). cbn. auto.
    + assert (exists r, GetControllerOf old = Some r) as (r & R) by (apply controls_ref in C; destruct C as (r & R & _); eauto).
      destruct (oref_eqb (GetControllerOf cur) (GetControllerOf old)) eqn:Q; cbn [negb].
      * apply oref_eqb_eq in Q. cbn [app]. rewrite Q, R. destruct P as (P1 & _). rewrite <- P1.
        rewrite (resolve_controls "MachineDeployment" _ p old r G' C R). cbn. auto.
      * apply in_or_app. left. rewrite R, (resolve_controls "MachineDeployment" _ p old r G C R). cbn. auto.
    + apply in_or_app. right. pose proof (adopt_changed p old cur P A NA) as X. specialize (V A). pose proof A as (A1 & A2 & A3 & A4).
      apply orphan_none in A2. rewrite A2 in *. rewrite X. apply AD; assumption.
  - unfold onSetDeleted. apply in_or_app. right. apply DC. exact C.
Qed.

Lemma set_only : forall live live' deps e ns name, In (QueueDep ns name) (setEvent (lookup live) (lookup live') deps e) ->
  exists p, (In p live \/ In p live' \/ In p deps) /\ pa_ns p = ns /\ pa_name p = name /\ Related "MachineDeployment" false p e.
Proof.
  intros live live' deps e ns name.
  assert (forall o, GetControllerOf o = None -> In (QueueDep ns name) (map (fun s => QueueDep (pa_ns s) (pa_name s)) (matchingParents false o deps)) ->
    exists p, In p deps /\ pa_ns p = ns /\ pa_name p = name /\ (Orphan o /\ (false = true -> pa_ns p = ob_ns o) /\ Selects p o)) as AD.
  { intros o O X. apply in_map_iff in X. destruct X as (p & X & Y). injection X as <- <-. apply parents_sound in Y. exists p. apply orphan_none in O. tauto. }
  assert (forall x, In (QueueDep ns name) (deleteMachineSetToDeployment (lookup live) x) ->
     exists m p, (x = DObj m \/ x = DTomb m) /\ In p live /\ pa_ns p = ns /\ pa_name p = name /\ Controls "MachineDeployment" p m) as DN.
  { intros x. destruct x as [m|m|]; cbn [deleteMachineSetToDeployment]; [| |contradiction];
    (destruct (GetControllerOf m) as [r|] eqn:R; [|contradiction]; destruct (resolve "MachineDeployment" (lookup live) (ob_ns m) r) as [p|] eqn:E; [|contradiction];
     destruct (resolve_sound _ _ _ _ _ R E) as (I & C); intros [X|[]]; injection X as <- <-; exists m, p; auto 10). }
  destruct e as [s|old cur|s t]; cbn [setEvent Related].
  - unfold onSetAdded, addMachineSetToDeployment. intros [H|H]; [discriminate|]. destruct (ob_deleting s).
    + destruct (DN _ H) as (m & p & [X|X] & Y); [|discriminate]. injection X as <-. exists p. tauto.
    + destruct (GetControllerOf s) as [r|] eqn:R.
      * destruct (resolve "MachineDeployment" (lookup live) (ob_ns s) r) as [p|] eqn:E; [|contradiction].
        destruct (resolve_sound _ _ _ _ _ R E) as (I & C). destruct H as [H|[]]. injection H as <- <-. exists p. auto 10.
      * destruct (AD s R H) as (p & X). exists p. tauto.
  - unfold onSetUpdated, updateMachineSetToDeployment. intros [H|H]; [discriminate|].
    destruct (Nat.eqb_spec (ob_rv cur) (ob_rv old)) as [RV|RV]; [contradiction|]. cbv zeta in H.
    assert (old <> cur) as NE by congruence. apply in_app_iff in H. destruct H as [H|H].
    + destruct (negb _); [|contradiction]. destruct (GetControllerOf old) as [r|] eqn:R; [|contradiction].
      destruct (resolve "MachineDeployment" (lookup live) (ob_ns old) r) as [p|] eqn:E; [|contradiction].
      destruct (resolve_sound _ _ _ _ _ R E) as (I & C). destruct H as [H|[]]. injection H as <- <-. exists p. auto 10.
    + destruct (GetControllerOf cur) as [r|] eqn:R.
      * destruct (resolve "MachineDeployment" (lookup live') (ob_ns cur) r) as [p|] eqn:E; [|contradiction].
        destruct (resolve_sound _ _ _ _ _ R E) as (I & C). destruct H as [H|[]]. injection H as <- <-. exists p. auto 10.
      * match type of H with In _ (if ?b then _ else _) => destruct b end; [|contradiction]. destruct (AD cur R H) as (p & X). exists p. tauto.
  - unfold onSetDeleted. rewrite in_app_iff. intros [H|H].
    + destruct t; cbn in H; destruct H as [H|[]]; discriminate.
    + destruct (DN _ H) as (m & p & X & Y). assert (m = s) as -> by (destruct t, X; congruence). exists p. tauto.
Qed.

(** *** Recreate *)
Lemma recreate_handler : forall v d s m (t : bool), uniqueKeys (vw_deps v) -> In d (vw_deps v) ->
  NoDup (map (fun x => (ob_ns x, ob_name x)) (vw_sets v)) -> In s (vw_sets v) ->
  Controls "MachineDeployment" d s ->
  (exists r, find rf_ctrl (ob_refs m) = Some r /\ rf_kind r = "MachineSet" /\ rf_name r = ob_name s /\ rf_uid r = ob_uid s) -> ob_ns m = ob_ns s ->
  pa_recreate d = true -> pa_sel d <> SInvalid ->
  (forall x y r, In x (vw_machines v) -> In y (vw_sets v) -> find rf_ctrl (ob_refs x) = Some r -> rf_uid r = ob_uid y ->
     forall r', find rf_ctrl (ob_refs y) = Some r' -> rf_uid r' <> pa_uid d) ->
  In (QueueDep (pa_ns d) (pa_name d)) (deleteMachineToMachineDeployment v (if t then DTomb m else DObj m)).
Proof.
  intros v d s m t U I N Is C (r & R & K1 & K2 & K3) NS RC V E.
  assert (getMachineDeploymentForMachine v m = Some d) as G.
  { unfold getMachineDeploymentForMachine. unfold GetControllerOf at 1. rewrite R, K1, String.eqb_refl. cbn [negb].
    assert (find (fun x => String.eqb (ob_ns x) (ob_ns m) && String.eqb (ob_name x) (rf_name r)) (vw_sets v) = Some s) as F.
    { rewrite NS, K2. clear -N Is. induction (vw_sets v) as [|a l IH]; cbn in *; [contradiction|]. inversion N as [|? ? N1 N2]; subst.
      destruct Is as [->|Is]; [rewrite !String.eqb_refl; reflexivity|].
      destruct (String.eqb_spec (ob_ns a) (ob_ns s)) as [E|E]; cbn; [|auto]. destruct (String.eqb_spec (ob_name a) (ob_name s)) as [F|F]; [|auto].
      exfalso. apply N1. rewrite E, F. apply in_map_iff. exists s. auto. }
    rewrite F, K3, Nat.eqb_refl. cbn [negb].
    assert (exists r', GetControllerOf s = Some r') as (r' & R') by (apply controls_ref in C; destruct C as (r' & R' & _); eauto).
    rewrite R'. apply (resolve_controls _ _ d s r' (lookup_in _ d U I) C R'). }
  assert (machinesOf v d = Some []) as MO.
  { assert (forall f g : Obj -> bool, filter (fun x => f x && existsb (fun y => String.eqb (ob_ns y) (pa_ns d) && g y &&
        match GetControllerOf y with Some r => Nat.eqb (rf_uid r) (pa_uid d) | None => false end &&
        match GetControllerOf x with Some r => Nat.eqb (rf_uid r) (ob_uid y) | None => false end) (vw_sets v)) (vw_machines v) = []) as X.
    { intros f g. clear -E. assert (forall l, incl l (vw_machines v) -> filter (fun x => f x && existsb (fun y => String.eqb (ob_ns y) (pa_ns d) && g y &&
        match GetControllerOf y with Some r => Nat.eqb (rf_uid r) (pa_uid d) | None => false end &&
        match GetControllerOf x with Some r => Nat.eqb (rf_uid r) (ob_uid y) | None => false end) (vw_sets v)) l = []) as Y; [|apply Y, incl_refl].
      intros l. induction l as [|x l IH]; intros L; cbn [filter]; [reflexivity|].
      rewrite IH by (intros z Z; apply L; right; exact Z).
      match goal with |- (if ?b then _ else _) = _ => destruct b eqn:B end; [|reflexivity]. exfalso.
      apply andb_true_iff in B. destruct B as (_ & B). apply existsb_exists in B. destruct B as (y & Iy & B).
      apply andb_true_iff in B. destruct B as (B & B2). apply andb_true_iff in B. destruct B as (_ & B1).
      unfold GetControllerOf in B1, B2. destruct (find rf_ctrl (ob_refs x)) as [r|] eqn:Rx; [|discriminate]. destruct (find rf_ctrl (ob_refs y)) as [r'|] eqn:Ry; [|discriminate].
      apply Nat.eqb_eq in B1, B2. apply (E x y r (L x (or_introl eq_refl)) Iy Rx B2 r' Ry B1). }
    unfold machinesOf. destruct (pa_sel d) as [| |f]; [congruence| |].
    - rewrite <- (X (fun _ => true) (fun _ => true)). f_equal. apply filter_ext. intros x. cbn [andb].
      generalize (vw_sets v) as l. clear. intros l. induction l as [|y l IH]; cbn [existsb]; [reflexivity|]. rewrite IH, andb_true_r. reflexivity.
    - rewrite <- (X (fun x => f (ob_labels x)) (fun y => f (ob_labels y))). reflexivity. }
  assert (deleteMachineToMachineDeployment v (if t then DTomb m else DObj m) = [QueueDep (pa_ns d) (pa_name d)]) as ->.
  { destruct t; cbn [deleteMachineToMachineDeployment]; rewrite G, RC, MO; reflexivity. }
  cbn. auto.
Qed.

Lemma recreate_only : forall v x ns name,
  In (QueueDep ns name) (deleteMachineToMachineDeployment v x) ->
  exists d, In d (vw_deps v) /\ pa_ns d = ns /\ pa_name d = name /\ pa_recreate d = true /\
    forall m s r r', In m (vw_machines v) -> In s (vw_sets v) -> ob_ns s = pa_ns d ->
      find rf_ctrl (ob_refs s) = Some r -> rf_uid r = pa_uid d -> find rf_ctrl (ob_refs m) = Some r' -> rf_uid r' = ob_uid s ->
      match pa_sel d with SInvalid => False | SEmpty => False | SMatch f => f (ob_labels m) = false \/ f (ob_labels s) = false end.
Proof.
  intros v x ns name H. unfold deleteMachineToMachineDeployment in H.
  assert (K : exists m0 d, getMachineDeploymentForMachine v m0 = Some d /\ pa_recreate d = true /\ machinesOf v d = Some [] /\ pa_ns d = ns /\ pa_name d = name).
  { destruct x as [m0 | m0 |]; [| | contradiction];
      (destruct (getMachineDeploymentForMachine v m0) as [d|] eqn:G; [|contradiction]; destruct (pa_recreate d) eqn:R; [|contradiction];
       destruct (machinesOf v d) as [[| y l]|] eqn:M; try contradiction; destruct H as [H | []]; injection H as H1 H2; exists m0, d; auto 8). }
  clear H. destruct K as (m0 & d & G & R & M & <- & <-). exists d. split.
  { unfold getMachineDeploymentForMachine in G. destruct (GetControllerOf m0) as [r|]; [|discriminate]. destruct (negb _); [discriminate|].
    destruct (find _ (vw_sets v)) as [s|]; [|discriminate]. destruct (negb _); [discriminate|]. destruct (GetControllerOf s) as [r'|]; [|discriminate].
    unfold resolve in G. destruct (negb _); [discriminate|]. destruct (lookup (vw_deps v) (ob_ns s) (rf_name r')) as [p|] eqn:L; [|discriminate].
    destruct (Nat.eqb _ _); [|discriminate]. injection G as <-. unfold lookup in L. apply find_some in L. apply L. }
  repeat split; [exact R|]. intros m s r r' Im Is NS R1 R2 R3 R4.
  assert (Z : forall A (f : A -> bool) l y, filter f l = [] -> In y l -> f y = false).
  { intros A f l y F I. destruct (f y) eqn:E; [|reflexivity]. assert (X : In y (filter f l)) by (apply filter_In; auto). rewrite F in X. destruct X. }
  assert (B : forall (g : Obj -> bool), g s = true -> existsb (fun y => String.eqb (ob_ns y) (pa_ns d) && g y &&
        match GetControllerOf y with Some r => Nat.eqb (rf_uid r) (pa_uid d) | None => false end &&
        match GetControllerOf m with Some r => Nat.eqb (rf_uid r) (ob_uid y) | None => false end) (vw_sets v) = true).
  { intros g E. apply existsb_exists. exists s. split; [exact Is|]. unfold GetControllerOf. rewrite R1, R3, R2, R4, NS, E, !Nat.eqb_refl, String.eqb_refl. reflexivity. }
  unfold machinesOf in M. destruct (pa_sel d) as [| |f]; [discriminate | |].
  - injection M as M. pose proof (Z _ _ _ m M Im) as E. cbv beta in E.
    assert (X : existsb (fun s0 => String.eqb (ob_ns s0) (pa_ns d) && match GetControllerOf s0 with Some r => Nat.eqb (rf_uid r) (pa_uid d) | None => false end &&
        match GetControllerOf m with Some r => Nat.eqb (rf_uid r) (ob_uid s0) | None => false end) (vw_sets v) = true).
    { apply existsb_exists. exists s. split; [exact Is|]. unfold GetControllerOf. rewrite R1, R3, R2, R4, NS, !Nat.eqb_refl, String.eqb_refl. reflexivity. }
    congruence.
  - injection M as M. pose proof (Z _ _ _ m M Im) as E. cbv beta in E. destruct (f (ob_labels m)); [|left; reflexivity]. right.
    destruct (f (ob_labels s)) eqn:F; [|reflexivity]. rewrite (B (fun y => f (ob_labels y)) F) in E. discriminate.
Qed.
