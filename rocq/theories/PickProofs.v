(** Proofs for C108. *)
Require Import Coq.ZArith.ZArith Coq.Lists.List Coq.Strings.String Coq.Bool.Bool Coq.Arith.PeanoNat Coq.Sorting.Permutation Coq.micromega.Lia Coq.micromega.ZifyBool.
From Verif Require Import Sort MSetModel MSetSpec MSetProofs PickModel PickSpec.
From Verif Require HealProofs.
Import ListNotations.
Open Scope string_scope.
Open Scope list_scope.
Open Scope Z_scope.

Definition prio1 (m : Mach) : Mach := mkMach (m_id m) "1" (m_trigger m) (m_phase m) (m_ctime m) (m_deleting m).
Definition mk (P : nat -> bool) (m : Mach) : Mach := if P (m_id m) then prio1 m else m.
Lemma mk_id : forall P m, m_id (mk P m) = m_id m.
Proof. intros P m. unfold mk. destruct (P (m_id m)); reflexivity. Qed.
Lemma mk_ids : forall P l, map m_id (map (mk P) l) = map m_id l.
Proof. intros P l. rewrite map_map. apply map_ext. intros. apply mk_id. Qed.
Lemma mk_active : forall P m, IsMachineActive (mk P m) = IsMachineActive m.
Proof. intros P m. unfold mk. destruct (P (m_id m)); reflexivity. Qed.
Lemma withPrio_mk : forall i l, map (withPrio1 i) l = map (mk (fun j => Nat.eqb j i)) l.
Proof. intros. apply map_ext. intros m. unfold withPrio1, mk. destruct (Nat.eqb (m_id m) i); reflexivity. Qed.
Lemma mk_mk : forall P Q m, mk P (mk Q m) = mk (fun j => P j || Q j) m.
Proof. intros P Q m. unfold mk. destruct (Q (m_id m)) eqn:E; cbn [prio1 m_id]; destruct (P (m_id m)); reflexivity. Qed.
Lemma mk_none : forall l, map (mk (fun _ => false)) l = l.
Proof. intros l. rewrite <- (map_id l) at 2. apply map_ext. reflexivity. Qed.

Lemma same_mach : forall (l : list Mach) a b, NoDup (map m_id l) -> In a l -> In b l -> m_id a = m_id b -> a = b.
Proof.
  induction l as [|x l IH]; intros a b N A B E; [destruct A|]. inversion N as [|? ? N1 N2]; subst.
  destruct A as [->|A], B as [->|B]; auto.
  - exfalso. apply N1. rewrite E. now apply in_map.
  - exfalso. apply N1. rewrite <- E. now apply in_map.
Qed.
Lemma find_id : forall (l : list Mach) i, match find (fun m => Nat.eqb (m_id m) i) l with
  | Some m => In m l /\ m_id m = i | None => forall m, In m l -> m_id m <> i end.
Proof.
  intros l i. destruct (find _ l) as [m|] eqn:E.
  - apply find_some in E. destruct E as (A & B). apply Nat.eqb_eq in B. auto.
  - intros m I X. apply (find_none _ _ E) in I. apply Nat.eqb_neq in I. contradiction.
Qed.

Lemma mark_spec : forall fails names ms ms' skip e, NoDup (map m_id ms) -> markNamed fails names ms = (ms', skip, e) ->
  exists P, ms' = map (mk P) ms /\ (forall i, P i = true -> In i names /\ exists m, In m ms /\ m_id m = i /\ IsMachineActive m = true) /\
    (e = false -> forall m, In m ms -> In (m_id m) names -> IsMachineActive m = true -> m_prio m = "1" \/ P (m_id m) = true) /\
    (forall i m, In i skip -> In m ms -> m_id m = i -> IsMachineActive m = false).
Proof.
  intros fails names. induction names as [|i r IH]; intros ms ms' skip e N H; cbn [markNamed] in H.
  - injection H as <- <- <-. exists (fun _ => false). rewrite mk_none. repeat split; try discriminate; contradiction.
  - assert (F := find_id ms i). destruct (find _ ms) as [m|].
    + destruct F as (F1 & F2). destruct (IsMachineActive m) eqn:A; cbn [negb] in H.
      * destruct (String.eqb (m_prio m) "1") eqn:P1.
        { apply String.eqb_eq in P1. destruct (IH _ _ _ _ N H) as (P & E & P2 & P3 & P4). exists P. split; [exact E|]. split; [intros j Hj; destruct (P2 j Hj); split; [now right|auto]|].
          split; [|exact P4]. intros He m2 I2 [J|J] A2; [|now apply P3]. left. assert (m2 = m) as -> by (apply (same_mach ms); auto; congruence). exact P1. }
        destruct (fails i).
        { injection H as <- <- <-. exists (fun _ => false). rewrite mk_none. repeat split; try discriminate; contradiction. }
        rewrite withPrio_mk in H. destruct (IH _ _ _ _ (eq_ind_r (fun l => NoDup l) N (mk_ids _ ms)) H) as (P & E & P2 & P3 & P4).
        exists (fun j => P j || Nat.eqb j i). split; [rewrite E, map_map; apply map_ext; intros; apply mk_mk|]. split.
        { intros j Hj. apply orb_true_iff in Hj. destruct Hj as [Hj|Hj].
          - destruct (P2 j Hj) as (Q1 & m2 & Q2 & Q3 & Q4). split; [now right|]. apply in_map_iff in Q2. destruct Q2 as (m3 & <- & Q2). exists m3. rewrite mk_id in Q3. rewrite mk_active in Q4. auto.
          - apply Nat.eqb_eq in Hj. subst j. split; [now left|]. exists m. auto. }
        split.
        { intros He m2 I2 J A2. destruct (Nat.eqb (m_id m2) i) eqn:X; [right; now rewrite orb_true_r|]. apply Nat.eqb_neq in X. destruct J as [J|J]; [congruence|].
          destruct (P3 He (mk (fun j => Nat.eqb j i) m2)) as [Q|Q].
          - now apply in_map. - now rewrite mk_id. - now rewrite mk_active.
          - left. unfold mk in Q. apply Nat.eqb_neq in X. rewrite X in Q. exact Q.
          - right. rewrite mk_id in Q. rewrite Q. reflexivity. }
        intros j m2 S I2 E2. rewrite <- (mk_active (fun j => Nat.eqb j i)). apply (P4 j); auto. { now apply in_map. } now rewrite mk_id.
      * destruct (markNamed fails r ms) as ((ms2, sk), e2) eqn:H2. injection H as <- <- <-. destruct (IH _ _ _ _ N H2) as (P & E & P2 & P3 & P4). exists P. split; [exact E|].
        split; [intros j Hj; destruct (P2 j Hj); split; [now right|auto]|]. split.
        { intros He m2 I2 [J|J] A2; [|now apply P3]. assert (m2 = m) as -> by (apply (same_mach ms); auto; congruence). congruence. }
        intros j m2 [S|S] I2 E2; [|now apply (P4 j)]. assert (m2 = m) as -> by (apply (same_mach ms); auto; congruence). exact A.
    + destruct (markNamed fails r ms) as ((ms2, sk), e2) eqn:H2. injection H as <- <- <-. destruct (IH _ _ _ _ N H2) as (P & E & P2 & P3 & P4). exists P. split; [exact E|].
      split; [intros j Hj; destruct (P2 j Hj); split; [now right|auto]|]. split.
      { intros He m2 I2 [J|J] A2; [|now apply P3]. exfalso. now apply (F m2). }
      intros j m2 [S|S] I2 E2; [|now apply (P4 j)]. exfalso. apply (F m2); congruence.
Qed.

(* The invariant, for the machines at the beginning [ms0], the names [N], the number [n0] of the next machine and the two sizes. *)
Definition isNew (n0 : nat) (m : Mach) : Prop := (n0 <= m_id m)%nat /\ m_prio m = "" /\ m_trigger m = "" /\ (rank (m_phase m) < 6)%nat.
Definition pinv (ms0 : list Mach) (N : list nat) (n0 : nat) (S0 want : Z) (w : PW) : Prop :=
  NoDup (map m_id (p_ms w)) /\ Forall (fun m => (m_id m < p_next w)%nat) (p_ms w) /\ (n0 <= p_next w)%nat /\ p_want w = want /\
  (forall m, In m ms0 -> ~ In (m_id m) N -> In m (p_ms w)) /\
  (forall m, In m (p_ms w) -> In m ms0 \/ (In (m_id m) N /\ m_prio m = "1") \/ isNew n0 m) /\
  (forall m, In m (p_ms w) -> In m ms0 -> In (m_id m) N -> In (m_id m) (p_names w)) /\
  (forall i, In i (p_names w) -> In i N) /\
  (p_size w = S0 \/ (p_size w = want /\ forall m, In m (p_ms w) -> In m ms0 -> ~ In (m_id m) N)).

(* The beginning. *)
Definition fresh (n0 : nat) (m : Mach) : Prop := (m_id m < n0)%nat /\ m_phase m = "Running" /\ m_deleting m = false /\ 3 <= prio m /\ m_trigger m <> "true".
Definition begins (ms0 : list Mach) (N : list nat) (n0 : nat) (S0 want : Z) : Prop :=
  NoDup (map m_id ms0) /\ Forall (fresh n0) ms0 /\ NoDup N /\ (forall i, In i N -> In i (map m_id ms0)) /\
  S0 = Z.of_nat (List.length ms0) /\ want = S0 - Z.of_nat (List.length N).

Lemma prio_not1 : forall m, 3 <= prio m -> m_prio m <> "1".
Proof. intros m H E. unfold prio in H. rewrite E in H. vm_compute in H. congruence. Qed.
Lemma fresh_serving : forall n0 m, fresh n0 m -> servingb m = true /\ isStale m = false /\ IsMachineActive m = true.
Proof.
  intros n0 m (_ & P & _ & Q & T). apply prio_not1 in Q. unfold servingb, isStale, IsMachineFailed, IsMachineTriggeredForDeletion, IsMachineActive. rewrite P.
  apply String.eqb_neq in Q, T. rewrite Q, T. repeat split.
Qed.
Lemma new_before : forall n0 k y x, isNew n0 y -> fresh k x -> before y x.
Proof.
  intros n0 k y x (_ & P & _ & R) (_ & Px & _ & Q & _). unfold before. assert (prio y = 3) as -> by (unfold prio; rewrite P; reflexivity).
  destruct (Z.eq_dec 3 (prio x)) as [E|E]; [right; left; split; [exact E|]; rewrite Px; exact R|left; lia].
Qed.

(* Machines of the beginning are not given up as long as they are not more than the size. *)
Lemma not_given_up : forall ms0 N n0 S0 want w fr, begins ms0 N n0 S0 want -> pinv ms0 N n0 S0 want w ->
  forall x, In x ms0 -> ~ In x (pl_surplus (manageReplicas (p_size w) fr (p_ms w))).
Proof.
  intros ms0 N n0 S0 want w fr (B1 & B2 & B3 & B4 & B5 & B6) (I1 & I2 & I3 & I4 & I5 & I6 & I7 & I8 & I9) x X0 X.
  assert (LN : (List.length N <= List.length ms0)%nat).
  { rewrite <- (map_length m_id ms0). apply NoDup_incl_length; auto. }
  assert (Hs : 0 <= p_size w) by (destruct I9 as [->|(-> & _)]; lia).
  destruct (plan_surplus (p_size w) fr (p_ms w) Hs) as (rest & L & Pm & Bf).
  set (sp := pl_surplus (manageReplicas (p_size w) fr (p_ms w))) in *.
  set (newb := fun m => Nat.leb n0 (m_id m)).
  rewrite Forall_forall in B2.
  assert (NDm : NoDup (p_ms w)) by (eapply NoDup_map_inv; exact I1).
  assert (NDs : NoDup (filter servingb (p_ms w))) by now apply NoDup_filter.
  (* old serving ones *)
  set (old := filter (fun m => negb (newb m)) (filter servingb (p_ms w))).
  set (nw := filter newb (filter servingb (p_ms w))).
  assert (Lp : List.length (filter servingb (p_ms w)) = (List.length nw + List.length old)%nat).
  { unfold nw, old. clear. induction (filter servingb (p_ms w)) as [|a l IH]; [reflexivity|]. cbn [filter]. destruct (newb a); cbn [negb List.length]; lia. }
  assert (Old : forall m, In m old -> In m ms0 /\ (p_size w = S0 \/ ~ In (m_id m) N)).
  { intros m Hm. unfold old in Hm. apply filter_In in Hm. destruct Hm as (Hm & Hn). apply filter_In in Hm. destruct Hm as (Hm & Hsv). apply negb_true_iff in Hn. apply Nat.leb_gt in Hn.
    assert (M0 : In m ms0). { destruct (I6 m Hm) as [A|[(_ & A)|(A & _)]]; [exact A| |lia]. unfold servingb in Hsv. rewrite A in Hsv. cbn in Hsv. rewrite !andb_false_r in Hsv. cbn in Hsv. discriminate. }
    split; [exact M0|]. destruct I9 as [A|(_ & A)]; [now left|right; now apply A]. }
  assert (Lo : Z.of_nat (List.length old) <= p_size w).
  { assert (NDo : NoDup old) by (apply NoDup_filter; exact NDs). destruct I9 as [E|(E & Z0)].
    - rewrite E. assert (List.length old <= List.length ms0)%nat; [|lia]. apply NoDup_incl_length; [exact NDo|]. intros m Hm. now apply Old.
    - rewrite E. set (inN := fun m => existsb (Nat.eqb (m_id m)) N).
      assert (Q : (List.length old <= List.length (filter (fun m => negb (inN m)) ms0))%nat).
      { apply NoDup_incl_length; [exact NDo|]. intros m Hm. destruct (Old m Hm) as (M0 & _). apply filter_In. split; [exact M0|]. apply negb_true_iff. apply not_true_iff_false. intros C.
        apply existsb_exists in C. destruct C as (i & Ci & Ce). apply Nat.eqb_eq in Ce. subst i. unfold old in Hm. apply filter_In in Hm. destruct Hm as (Hm & _). apply filter_In in Hm. destruct Hm as (Hm & _). now apply (Z0 m). }
      assert (Q2 : (List.length N <= List.length (filter inN ms0))%nat).
      { rewrite <- (map_length m_id (filter inN ms0)). apply NoDup_incl_length; [exact B3|]. intros i Hi. assert (Hi' := B4 i Hi). apply in_map_iff in Hi'. destruct Hi' as (m & <- & Hm).
        apply in_map. apply filter_In. split; [exact Hm|]. apply existsb_exists. exists (m_id m). split; [exact Hi|apply Nat.eqb_refl]. }
      assert (Q3 : (List.length ms0 = List.length (filter inN ms0) + List.length (filter (fun m => negb (inN m)) ms0))%nat).
      { clear. induction ms0 as [|a l IH]; [reflexivity|]. cbn [filter]. destruct (inN a); cbn [negb List.length]; lia. }
      lia. }
  (* the given-up list holds x and all new ones *)
  assert (Incl : incl (x :: nw) sp).
  { intros y [<-|Hy]; [exact X|]. assert (Hy2 : In y (sp ++ rest)).
    { eapply Permutation_in; [exact Pm|]. unfold nw in Hy. apply filter_In in Hy. tauto. }
    apply in_app_or in Hy2. destruct Hy2 as [Hy2|Hy2]; [exact Hy2|]. exfalso. apply (Bf x y X Hy2). apply (new_before n0 n0); [|now apply B2].
    unfold nw in Hy. apply filter_In in Hy. destruct Hy as (Hy & Hn). apply filter_In in Hy. destruct Hy as (Hy & Hsv). apply Nat.leb_le in Hn.
    destruct (I6 y Hy) as [A|[(A & _)|A]]; [| |exact A].
    - apply B2 in A. destruct A as (A & _). lia.
    - apply B4 in A. apply in_map_iff in A. destruct A as (z & Ez & A). apply B2 in A. destruct A as (A & _). lia. }
  assert (NDx : NoDup (x :: nw)).
  { constructor; [|now apply NoDup_filter]. unfold nw. intros C. apply filter_In in C. destruct C as (_ & C). apply Nat.leb_le in C. apply B2 in X0. destruct X0 as (X0 & _). lia. }
  assert (Le := NoDup_incl_length NDx Incl). cbn [List.length] in Le. unfold nserving in L. lia.
Qed.

(* A pass of the MachineSet controller, machine by machine. *)
Definition hit (api : Api) (targets : list Mach) (m : Mach) : Mach :=
  match find (fun t => Nat.eqb (m_id t) (m_id m)) targets with Some t => terminate api (m_deleting t) m | None => m end.
Lemma hit_id : forall api ts m, m_id (hit api ts m) = m_id m /\ m_prio (hit api ts m) = m_prio m /\ m_trigger (hit api ts m) = m_trigger m /\
  (m_phase (hit api ts m) = m_phase m \/ m_phase (hit api ts m) = "Terminating").
Proof. intros api ts m. unfold hit. destruct (find _ ts) as [t|]; [|auto]. unfold terminate. destruct (m_deleting t); [auto|]. cbn. destruct (a_status api (m_id m)); auto. Qed.
Lemma set_ms : forall api size view w, exists k, p_ms (setPass api size view w) =
    map (hit api (pl_stale (manageReplicas size false view) ++ pl_surplus (manageReplicas size false view))) (p_ms w) ++ created (p_now w) (p_next w) k /\
  p_next (setPass api size view w) = (p_next w + k)%nat /\ k = snd (fst (slowStartBatch (pl_create (manageReplicas size false view)) 1 (a_create api))) /\
  p_names (setPass api size view w) = p_names w /\ p_size (setPass api size view w) = p_size w /\ p_want (setPass api size view w) = p_want w.
Proof. intros api size view w. unfold setPass. destruct (slowStartBatch _ _ _) as ((a, k), e). exists k. repeat split. Qed.
Lemma created_new : forall now n from m, In m (created now from n) -> (from <= m_id m < from + n)%nat /\ m_prio m = "" /\ m_trigger m = "" /\ m_phase m = "".
Proof. intros now n. induction n as [|n IH]; intros from m H; cbn in H; [destruct H|]. destruct H as [<-|H]; [cbn; repeat split; lia|]. apply IH in H. intuition lia. Qed.
Lemma created_ids : forall now n from, NoDup (map m_id (created now from n)).
Proof. intros now n. induction n as [|n IH]; intros from; cbn; constructor; [|apply IH]. intros C. apply in_map_iff in C. destruct C as (m & E & C). apply created_new in C. lia. Qed.

Lemma nodup_ids_filter : forall (g : Mach -> bool) l, NoDup (map m_id l) -> NoDup (map m_id (filter g l)).
Proof.
  intros g l. induction l as [|a l IH]; cbn; intros H; [constructor|]. inversion H as [|? ? H1 H2]; subst. destruct (g a); cbn; auto. constructor; auto.
  intros C. apply H1. apply in_map_iff in C. destruct C as (b & Eb & C). apply filter_In in C. apply in_map_iff. exists b. tauto.
Qed.
Lemma nodup_both : forall (a b : list nat), NoDup a -> NoDup b -> (forall x, In x a -> In x b -> False) -> NoDup (a ++ b).
Proof. exact HealProofs.nodup_app. Qed.

Lemma pinv_step : forall ms0 N n0 S0 want w o, begins ms0 N n0 S0 want -> pinv ms0 N n0 S0 want w -> follows n0 w o -> pinv ms0 N n0 S0 want (pstep w o).
Proof.
  intros ms0 N n0 S0 want w o B J F. assert (NG := fun fr => not_given_up ms0 N n0 S0 want w fr B J).
  destruct B as (B1 & B2 & B3 & B4 & B5 & B6). rewrite Forall_forall in B2.
  destruct J as (I1 & I2 & I3 & I4 & I5 & I6 & I7 & I8 & I9).
  destruct o as [d|want' names|fails depOk sizeOk|api size view|i ph|i]; cbn [pstep follows] in *.
  - exact (conj I1 (conj I2 (conj I3 (conj I4 (conj I5 (conj I6 (conj I7 (conj I8 I9)))))))).
  - destruct F.
  - unfold depPass. destruct (markNamed fails (p_names w) (p_ms w)) as ((ms, skip), e) eqn:M. destruct (mark_spec _ _ _ _ _ _ I1 M) as (P & -> & P2 & P3 & P4).
    assert (Keep : forall nm sz, (forall m, In m (p_ms w) -> In m ms0 -> In (m_id m) N -> P (m_id m) = false -> In (m_id m) nm) -> (forall i, In i nm -> In i N) ->
              (sz = S0 \/ sz = want /\ forall m, In m (map (mk P) (p_ms w)) -> In m ms0 -> ~ In (m_id m) N) -> pinv ms0 N n0 S0 want (mkPW (p_now w) (p_want w) nm sz (map (mk P) (p_ms w)) (p_next w))).
    { intros nm sz K1 K2 K3. unfold pinv. cbn [p_ms p_next p_want p_names p_size]. split; [now rewrite mk_ids|]. split.
      { rewrite Forall_forall in *. intros m Hm. apply in_map_iff in Hm. destruct Hm as (a & <- & Ha). rewrite mk_id. now apply I2. }
      split; [exact I3|]. split; [exact I4|]. split.
      { intros m Hm Hn. assert (A := I5 m Hm Hn). apply in_map_iff. exists m. split; [|exact A]. unfold mk. destruct (P (m_id m)) eqn:Pm; [|reflexivity]. exfalso. apply Hn. apply I8. now apply P2. }
      split.
      { intros m Hm. apply in_map_iff in Hm. destruct Hm as (a & <- & Ha). unfold mk. destruct (P (m_id a)) eqn:Pa; [|now apply I6]. right. left. split; [|reflexivity]. apply I8. now apply P2. }
      split; [|split; [exact K2|exact K3]].
      intros m Hm M0 MN. apply in_map_iff in Hm. destruct Hm as (a & E & Ha). unfold mk in E. destruct (P (m_id a)) eqn:Pa.
      - exfalso. apply B2 in M0. destruct M0 as (_ & _ & _ & Q & _). apply prio_not1 in Q. subst m. now apply Q.
      - subst a. now apply K1. }
    destruct e.
    { apply Keep; [intros; now apply I7|exact I8|]. destruct I9 as [A|(A & A2)]; [now left|right]. split; [exact A|]. intros m Hm M0. apply in_map_iff in Hm. destruct Hm as (a & E & Ha).
      unfold mk in E. destruct (P (m_id a)) eqn:Pa; [|subst a; now apply A2]. exfalso. apply B2 in M0. destruct M0 as (_ & _ & _ & Q & _). apply prio_not1 in Q. subst m. now apply Q. }
    assert (Fin : forall m, In m (map (mk P) (p_ms w)) -> In m ms0 -> ~ In (m_id m) N).
    { intros m Hm M0 MN. apply in_map_iff in Hm. destruct Hm as (a & E & Ha). assert (Q := M0). apply B2 in Q. destruct (fresh_serving _ _ Q) as (_ & _ & Ac). destruct Q as (_ & _ & _ & Q & _). apply prio_not1 in Q.
      unfold mk in E. destruct (P (m_id a)) eqn:Pa; [subst m; now apply Q|]. subst a. destruct (P3 eq_refl m Ha (I7 m Ha M0 MN) Ac); [contradiction|congruence]. }
    destruct ((match skip with [] => false | _ => true end) && negb depOk).
    { apply Keep; [intros; now apply I7|exact I8|]. destruct I9 as [A|(A & _)]; [now left|now right]. }
    apply Keep.
    + intros m Hm M0 MN _. apply filter_In. split; [now apply I7|]. apply negb_true_iff, not_true_iff_false. intros C. apply existsb_exists in C. destruct C as (j & Cj & Ce). apply Nat.eqb_eq in Ce. subst j.
      assert (Q := P4 _ m Cj Hm eq_refl). apply B2 in M0. destruct (fresh_serving _ _ M0) as (_ & _ & Ac). congruence.
    + intros i Hi. apply filter_In in Hi. now apply I8.
    + destruct sizeOk; [right; split; [exact I4|exact Fin]|]. destruct I9 as [A|(A & _)]; [now left|now right].
  - destruct F as (-> & ->). destruct (set_ms api (p_size w) (p_ms w) w) as (k & E1 & E2 & _ & E4 & E5 & E6).
    set (ts := pl_stale (manageReplicas (p_size w) false (p_ms w)) ++ pl_surplus (manageReplicas (p_size w) false (p_ms w))) in *.
    assert (Spare : forall m, In m ms0 -> In m (p_ms w) -> hit api ts m = m).
    { intros m M0 Hm. unfold hit. assert (F := find_id ts (m_id m)). destruct (find _ ts) as [t|]; [|reflexivity]. destruct F as (F1 & F2). exfalso.
      assert (Hin : In t (p_ms w)). { apply (plan_in_view (p_size w) false); [|exact F1]. assert (LN : (List.length N <= List.length ms0)%nat) by (rewrite <- (map_length m_id ms0); apply NoDup_incl_length; auto). destruct I9 as [->|(-> & _)]; lia. }
      assert (t = m) as -> by (apply (same_mach (p_ms w)); auto). apply in_app_or in F1. destruct F1 as [F1|F1]; [|now apply (NG false m)].
      assert (S1 : isStale m = true). { unfold manageReplicas in F1. assert (F3 : In m (filter isStale (p_ms w))) by (destruct (_ <? 0); [exact F1|destruct (_ >? 0); exact F1]). apply filter_In in F3. tauto. }
      apply B2 in M0. destruct (fresh_serving _ _ M0) as (_ & S2 & _). congruence. }
    unfold pinv. rewrite E1, E2, E4, E5, E6. split.
    { rewrite map_app. apply nodup_both; [rewrite map_map; erewrite map_ext; [exact I1|]; intros; apply hit_id|apply created_ids|].
      intros x X1 X2. rewrite map_map in X1. apply in_map_iff in X1, X2. destruct X1 as (a & <- & Ha), X2 as (b & Eb & Hb). apply created_new in Hb. rewrite Forall_forall in I2. apply I2 in Ha. destruct (hit_id api ts a) as (Hid & _). lia. }
    split.
    { rewrite Forall_forall in *. intros m Hm. apply in_app_or in Hm. destruct Hm as [Hm|Hm]; [|apply created_new in Hm; lia]. apply in_map_iff in Hm. destruct Hm as (a & <- & Ha). apply I2 in Ha. destruct (hit_id api ts a) as (Hid & _). lia. }
    split; [lia|]. split; [exact I4|]. split.
    { intros m Hm Hn. apply in_or_app. left. apply in_map_iff. exists m. split; [apply Spare; auto|auto]. }
    split.
    { intros m Hm. apply in_app_or in Hm. destruct Hm as [Hm|Hm].
      - apply in_map_iff in Hm. destruct Hm as (a & <- & Ha). destruct (hit_id api ts a) as (H1 & H2 & H3 & H4). destruct (I6 a Ha) as [A|[(A1 & A2)|(A1 & A2 & A3 & A4)]].
        + rewrite Spare; auto.
        + right. left. rewrite H1, H2. auto.
        + right. right. unfold isNew. rewrite H1, H2, H3. split; [exact A1|]. split; [exact A2|]. split; [exact A3|]. destruct H4 as [->| ->]; [exact A4|vm_compute; lia].
      - right. right. apply created_new in Hm. destruct Hm as (A & A1 & A2 & A3). unfold isNew. rewrite A1, A2, A3. repeat split; try lia. vm_compute. lia. }
    assert (Back : forall m, In m (map (hit api ts) (p_ms w) ++ created (p_now w) (p_next w) k) -> In m ms0 -> In m (p_ms w)).
    { intros m Hm M0. apply in_app_or in Hm. destruct Hm as [Hm|Hm].
      - apply in_map_iff in Hm. destruct Hm as (a & E & Ha). destruct (hit_id api ts a) as (H1 & H2 & _). destruct (I6 a Ha) as [A|[(A1 & A2)|(A1 & _)]].
        + rewrite (Spare a A Ha) in E. subst a. exact Ha.
        + apply B2 in M0. destruct M0 as (_ & _ & _ & Q & _). apply prio_not1 in Q. subst m. congruence.
        + apply B2 in M0. destruct M0 as (Q & _). subst m. lia.
      - apply created_new in Hm. apply B2 in M0. destruct M0 as (Q & _). lia. }
    split; [intros m Hm M0 MN; apply I7; auto|]. split; [exact I8|]. destruct I9 as [A|(A & A2)]; [now left|right]. split; [exact A|]. intros m Hm M0. apply A2; auto.
  - destruct F as (F1 & F2). unfold pinv. cbn [p_ms p_next p_want p_names p_size].
    set (g := fun m => if Nat.eqb (m_id m) i then mkMach (m_id m) (m_prio m) (m_trigger m) ph (m_ctime m) (m_deleting m) else m).
    assert (Gid : forall m, m_id (g m) = m_id m) by (intros m; unfold g; destruct (Nat.eqb (m_id m) i); reflexivity).
    assert (Gold : forall m, (m_id m < n0)%nat -> g m = m) by (intros m Hm; unfold g; destruct (Nat.eqb (m_id m) i) eqn:X; [apply Nat.eqb_eq in X; lia|reflexivity]).
    assert (Back : forall m, In m (map g (p_ms w)) -> In m ms0 -> In m (p_ms w)).
    { intros m Hm M0. apply in_map_iff in Hm. destruct Hm as (a & E & Ha). apply B2 in M0. destruct M0 as (Q & _). rewrite <- E in Q. rewrite Gid in Q. rewrite (Gold a Q) in E. now subst a. }
    split; [rewrite map_map; erewrite map_ext; [exact I1|exact Gid]|]. split.
    { rewrite Forall_forall in *. intros m Hm. apply in_map_iff in Hm. destruct Hm as (a & <- & Ha). rewrite Gid. now apply I2. }
    split; [exact I3|]. split; [exact I4|]. split.
    { intros m Hm Hn. apply in_map_iff. exists m. split; [|now apply I5]. apply Gold. now apply B2. }
    split.
    { intros m Hm. apply in_map_iff in Hm. destruct Hm as (a & <- & Ha). destruct (I6 a Ha) as [A|[(A1 & A2)|(A1 & A2 & A3 & A4)]].
      - left. rewrite Gold; [exact A|]. now apply B2.
      - right. left. apply B4 in A1 as A1'. apply in_map_iff in A1'. destruct A1' as (z & Ez & Az). apply B2 in Az. destruct Az as (Az & _). rewrite Gold; [auto|lia].
      - right. right. unfold isNew. rewrite Gid. unfold g. destruct (Nat.eqb (m_id a) i); cbn; auto. }
    split; [intros m Hm M0 MN; apply I7; auto|]. split; [exact I8|]. destruct I9 as [A|(A & A2)]; [now left|right]. split; [exact A|]. intros m Hm M0. apply A2; auto.
  - unfold pinv. cbn [p_ms p_next p_want p_names p_size]. set (g := fun m => negb (Nat.eqb (m_id m) i && m_deleting m)).
    assert (Sub : forall m, In m (filter g (p_ms w)) -> In m (p_ms w)) by (intros m Hm; apply filter_In in Hm; tauto).
    split; [apply nodup_ids_filter; exact I1|]. split; [rewrite Forall_forall in *; auto|]. split; [exact I3|]. split; [exact I4|]. split.
    { intros m Hm Hn. apply filter_In. split; [now apply I5|]. unfold g. apply B2 in Hm. destruct Hm as (_ & _ & Hd & _). rewrite Hd, andb_false_r. reflexivity. }
    split; [intros m Hm; apply I6; auto|]. split; [intros m Hm M0 MN; apply I7; auto|]. split; [exact I8|]. destruct I9 as [A|(A & A2)]; [now left|right]. split; [exact A|]. intros m Hm M0. apply A2; auto.
Qed.

Lemma pinv_run : forall ms0 N n0 S0 want l w, begins ms0 N n0 S0 want -> pinv ms0 N n0 S0 want w -> pEach (follows n0) w l -> pinv ms0 N n0 S0 want (prun w l).
Proof. intros ms0 N n0 S0 want l. induction l as [|o l IH]; intros w B J H; [exact J|]. destruct H as (H1 & H2). cbn. apply IH; auto. now apply pinv_step. Qed.

Lemma asks_begins : forall w o, at_rest w -> asks w o ->
  begins (p_ms w) (asked o) (p_next w) (p_size w) (p_want (pstep w o)) /\ pinv (p_ms w) (asked o) (p_next w) (p_size w) (p_want (pstep w o)) (pstep w o).
Proof.
  intros w o (R1 & R2 & R3 & R4 & R5) (names & A1 & A2 & ->). cbn [asked pstep p_want]. split.
  - split; [exact R1|]. split; [exact R5|]. split; [exact A1|]. split; [exact A2|]. split; lia.
  - unfold pinv. cbn [p_ms p_next p_want p_names p_size]. split; [exact R1|]. split; [eapply Forall_impl; [|exact R5]; intros m Hm; now destruct Hm|]. repeat split; auto.
Qed.

Lemma only_named : forall w o ops, at_rest w -> asks w o -> pEach (follows (p_next w)) (pstep w o) ops ->
  forall m, In m (p_ms w) -> ~ In (m_id m) (asked o) -> In m (p_ms (prun w (o :: ops))).
Proof.
  intros w o ops R A F m I N. destruct (asks_begins w o R A) as (B & J). destruct (pinv_run _ _ _ _ _ ops _ B J F) as (_ & _ & _ & _ & K & _). now apply K.
Qed.

(* After a further pass of each controller without failures the named machines are being deleted. *)
Lemma named_go : forall w o ops api, at_rest w -> asks w o -> pEach (follows (p_next w)) (pstep w o) ops -> (forall i, a_delete api i = true) ->
  let w1 := prun w ((o :: ops) ++ [undisturbed]) in let w2 := pstep w1 (looks api w1) in
  p_size w2 = p_want w2 /\ p_want w2 = p_want w - Z.of_nat (List.length (asked o)) /\
  (forall m, In m (p_ms w2) -> In (m_id m) (asked o) -> m_deleting m = true) /\
  (forall m, In m (p_ms w) -> ~ In (m_id m) (asked o) -> In m (p_ms w2)).
Proof.
  intros w o ops api R A F D w1 w2. destruct (asks_begins w o R A) as (B & J).
  assert (J0 := pinv_run _ _ _ _ _ ops _ B J F).
  assert (J1 : pinv (p_ms w) (asked o) (p_next w) (p_size w) (p_want (pstep w o)) w1).
  { unfold w1, prun. rewrite fold_left_app. cbn [fold_left]. apply (pinv_step _ _ _ _ _ _ undisturbed B J0). exact Logic.I. }
  assert (J2 : pinv (p_ms w) (asked o) (p_next w) (p_size w) (p_want (pstep w o)) w2) by (apply (pinv_step _ _ _ _ _ _ (looks api w1) B J1); split; reflexivity).
  assert (Hsz : p_size w1 = p_want w1 /\ forall m, In m (p_ms w1) -> In m (p_ms w) -> ~ In (m_id m) (asked o)).
  { assert (Ev : w1 = pstep (prun w (o :: ops)) undisturbed) by (unfold w1, prun; rewrite fold_left_app; reflexivity).
    rewrite Ev. clear Ev. set (v := prun w (o :: ops)) in *. change (prun (pstep w o) ops) with v in J0. cbn [pstep undisturbed]. unfold depPass.
    destruct B as (B1 & B2 & B3 & B4 & B5 & B6). rewrite Forall_forall in B2. destruct J0 as (I1 & _ & _ & _ & _ & _ & I7 & _).
    destruct (markNamed _ _ _) as ((ms, skip), e) eqn:M. assert (e = false) as ->.
    { clear - M. revert M. generalize (p_names v) (p_ms v). intros names l. revert l. revert ms skip e. induction names as [|i r IH]; intros ms skip e l M; cbn [markNamed] in M; [now injection M as _ _ <-|].
      destruct (find _ l) as [m|]; [|destruct (markNamed (fun _ => false) r l) as ((a, b), c) eqn:Q; injection M as <- <- <-; now apply IH in Q].
      destruct (negb (IsMachineActive m)); [destruct (markNamed (fun _ => false) r l) as ((a, b), c) eqn:Q; injection M as <- <- <-; now apply IH in Q|].
      destruct (String.eqb (m_prio m) "1"); now apply IH in M. }
    rewrite andb_false_r. cbn [p_size p_want p_ms]. split; [reflexivity|]. destruct (mark_spec _ _ _ _ _ _ I1 M) as (P & -> & P2 & P3 & P4).
    intros m Hm M0 MN. apply in_map_iff in Hm. destruct Hm as (a & E & Ha). assert (Q := M0). apply B2 in Q. destruct (fresh_serving _ _ Q) as (_ & _ & Ac). destruct Q as (_ & _ & _ & Q & _). apply prio_not1 in Q.
    unfold mk in E. destruct (P (m_id a)) eqn:Pa; [subst m; now apply Q|]. subst a. destruct (P3 eq_refl m Ha (I7 m Ha M0 MN) Ac); [contradiction|congruence]. }
  assert (Ew : p_want w1 = p_want w - Z.of_nat (List.length (asked o))).
  { destruct J1 as (_ & _ & _ & E & _). rewrite E. destruct A as (names & _ & _ & ->). reflexivity. }
  destruct (set_ms api (p_size w1) (p_ms w1) w1) as (k & E1 & E2 & _ & E4 & E5 & E6). change (setPass api (p_size w1) (p_ms w1) w1) with w2 in *.
  split; [rewrite E5, E6; apply Hsz|]. split; [now rewrite E6|]. split; [|destruct J2 as (_ & _ & _ & _ & K & _); exact K].
  destruct B as (B1 & B2 & B3 & B4 & B5 & B6). rewrite Forall_forall in B2. destruct J1 as (I1 & I2 & I3 & I4 & I5 & I6 & I7 & I8 & I9).
  intros m Hm MN. rewrite E1 in Hm. apply in_app_or in Hm. assert (Lt : (m_id m < p_next w)%nat). { apply B4 in MN. apply in_map_iff in MN. destruct MN as (z & <- & Hz). now apply B2. }
  destruct Hm as [Hm|Hm]; [|apply created_new in Hm; lia]. apply in_map_iff in Hm. destruct Hm as (a & <- & Ha). set (ts := pl_stale _ ++ pl_surplus _) in *. destruct (hit_id api ts a) as (H1 & _). rewrite H1 in *.
  assert (P1 : m_prio a = "1"). { destruct (I6 a Ha) as [Q|[(_ & Q)|(Q & _)]]; [|exact Q|lia]. exfalso. apply (proj2 Hsz a); auto. }
  assert (St : In a ts). { apply in_or_app. left. assert (Q : In a (filter isStale (p_ms w1))) by (apply filter_In; split; [exact Ha|]; unfold isStale, IsMachineTriggeredForDeletion; rewrite P1; apply orb_true_r).
    unfold manageReplicas. destruct (_ <? 0); [exact Q|destruct (_ >? 0); exact Q]. }
  unfold hit. assert (Q := find_id ts (m_id a)). destruct (find _ ts) as [t|]; [|exfalso; now apply (Q a)]. destruct Q as (Q1 & Q2).
  assert (Hin : In t (p_ms w1)). { apply (plan_in_view (p_size w1) false); [|exact Q1]. assert (LN : (List.length (asked o) <= List.length (p_ms w))%nat) by (rewrite <- (map_length m_id (p_ms w)); apply NoDup_incl_length; auto). destruct I9 as [->|(-> & _)]; lia. }
  assert (t = a) as -> by (apply (same_mach (p_ms w1)); auto). unfold terminate. destruct (m_deleting a) eqn:Da; [exact Da|]. cbn [m_deleting]. rewrite D. reflexivity.
Qed.

Lemma filter_split : forall {A} (f : A -> bool) l, (List.length l = List.length (filter f l) + List.length (filter (fun a => negb (f a)) l))%nat.
Proof. intros A f l. induction l as [|a l IH]; [reflexivity|]. cbn [filter]. destruct (f a); cbn [negb List.length]; lia. Qed.

(* On the direct way nothing is created. *)
Lemma direct : forall w o api, at_rest w -> asks w o ->
  let w1 := prun w [o; undisturbed] in let w2 := pstep w1 (looks api w1) in p_next w2 = p_next w.
Proof.
  intros w o api R A w1 w2. destruct (asks_begins w o R A) as (B & J). destruct B as (B1 & B2 & B3 & B4 & B5 & B6). rewrite Forall_forall in B2.
  destruct A as (names & A1 & A2 & ->). cbn [asked pstep p_want] in *.
  assert (W1 : exists P, w1 = mkPW (p_now w) (p_want w1) (p_names w1) (p_want w - Z.of_nat (List.length names)) (map (mk P) (p_ms w)) (p_next w) /\
               forall m, In m (p_ms w) -> (P (m_id m) = true <-> In (m_id m) names)).
  { unfold w1, prun. cbn [fold_left pstep undisturbed]. unfold depPass. cbn [p_names p_ms p_now p_want p_size p_next].
    destruct (markNamed _ _ _) as ((ms, skip), e) eqn:M. destruct (mark_spec _ _ _ _ _ _ B1 M) as (P & -> & P2 & P3 & P4). assert (e = false) as ->.
    { clear - M. revert M. generalize (p_ms w) at 1. intros l. generalize (map (mk P) (p_ms w)). revert l skip e. induction names as [|i r IH]; intros l skip e ms M; cbn [markNamed] in M; [now injection M as _ _ <-|].
      destruct (find _ l) as [m|]; [|destruct (markNamed (fun _ => false) r l) as ((a, b), c) eqn:Q; injection M as <- <- <-; now apply IH in Q].
      destruct (negb (IsMachineActive m)); [destruct (markNamed (fun _ => false) r l) as ((a, b), c) eqn:Q; injection M as <- <- <-; now apply IH in Q|].
      destruct (String.eqb (m_prio m) "1"); now apply IH in M. }
    exists P. rewrite andb_false_r. cbn [p_want p_names]. split; [reflexivity|]. intros m Hm. split; [intros H; now apply P2|]. intros H.
    assert (Q := B2 m Hm). destruct (fresh_serving _ _ Q) as (_ & _ & Ac). destruct Q as (_ & _ & _ & Q & _). apply prio_not1 in Q. destruct (P3 eq_refl m Hm H Ac); [contradiction|assumption]. }
  destruct W1 as (P & E & HP).
  assert (Ns : nserving (p_ms w1) = p_size w1).
  { rewrite E. cbn [p_ms p_size]. unfold nserving.
    assert (Q : List.length (filter servingb (map (mk P) (p_ms w))) = List.length (filter (fun m => negb (P (m_id m))) (p_ms w))).
    { clear - B2. induction (p_ms w) as [|a l IH]; [reflexivity|]. cbn [map filter].
      assert (servingb (mk P a) = negb (P (m_id a))) as ->. { unfold mk. destruct (P (m_id a)); [unfold servingb, prio1; cbn; now rewrite !andb_false_r|]. now apply (fresh_serving (p_next w)), B2; left. }
      destruct (negb (P (m_id a))); cbn [List.length]; rewrite IH; auto; intros; apply B2; now right. }
    rewrite Q. assert (S := filter_split (fun m => P (m_id m)) (p_ms w)).
    assert (Lq : List.length (filter (fun m => P (m_id m)) (p_ms w)) = List.length names).
    { rewrite <- (map_length m_id (filter (fun m => P (m_id m)) (p_ms w))). apply Nat.le_antisymm; apply NoDup_incl_length.
      - now apply nodup_ids_filter.
      - intros i Hi. apply in_map_iff in Hi. destruct Hi as (m & <- & Hm). apply filter_In in Hm. destruct Hm as (Hm & Hp). now apply HP.
      - exact A1.
      - intros i Hi. assert (Hi' := A2 i Hi). apply in_map_iff in Hi'. destruct Hi' as (m & <- & Hm). apply in_map. apply filter_In. split; [exact Hm|]. now apply HP. }
    destruct R as (_ & _ & R3 & R4 & _). lia. }
  destruct (set_ms api (p_size w1) (p_ms w1) w1) as (k & E1 & E2 & E3 & _). change (setPass api (p_size w1) (p_ms w1) w1) with w2 in *.
  assert (C0 : pl_create (manageReplicas (p_size w1) false (p_ms w1)) = O).
  { unfold manageReplicas. rewrite filter_active. fold (nserving (p_ms w1)). rewrite Ns. replace (p_size w1 - p_size w1) with 0 by lia. reflexivity. }
  rewrite C0 in E3. cbn in E3. subst k. rewrite E2. assert (p_next w1 = p_next w) by (rewrite E; reflexivity). lia.
Qed.
