Require Import Coq.Arith.Arith Coq.Lists.List Coq.Bool.Bool Coq.micromega.Lia Coq.Sorting.Permutation.
From Verif Require Import SyncModel SyncSpec.
Import ListNotations.

Lemma put_eq : forall A (f : nat -> A) i x, put f i x i = x.
Proof. intros. unfold put. rewrite Nat.eqb_refl. reflexivity. Qed.
Lemma put_ne : forall A (f : nat -> A) i j x, j <> i -> put f i x j = f j.
Proof. intros. unfold put. destruct (Nat.eqb_spec j i); congruence. Qed.
Ltac putc j i := destruct (Nat.eq_dec j i) as [->|?]; [rewrite ?put_eq in *|rewrite ?put_ne in * by assumption].

Lemma spc_eqb_eq : forall a b, spc_eqb a b = true -> a = b.
Proof.
  intros [a1 a2 a3] [b1 b2 b3]. unfold spc_eqb. cbn. rewrite !andb_true_iff, !Nat.eqb_eq. intros ((-> & ->) & ->). reflexivity.
Qed.

(** *** Invariants *)
Definition Le (w : W) : Prop := forall i c o, w_cch w i = Some c -> w_srv w i = Some o -> ob_rv (en_obj c) <= ob_rv o.
Definition Vers (w : W) : Prop := (forall i c, w_cch w i = Some c -> ob_rv (en_obj c) <= w_rv w) /\
  (forall i o, w_srv w i = Some o -> ob_rv o <= w_rv w).
Definition Mono (w : W) : Prop := Le w /\ Vers w.
Definition Bound (w : W) : Prop := forall i c, w_cch w i = Some c -> en_ptr c < w_next w.
Definition TruthAt (w : W) (i : nat) : Prop := forall c o, w_cch w i = Some c -> w_srv w i = Some o ->
  ob_rv (en_obj c) = ob_rv o -> en_obj c = o.
Definition HalfAt (w : W) (i : nat) : Prop := forall c o, w_cch w i = Some c -> w_srv w i = Some o ->
  ob_rv (en_obj c) = ob_rv o -> ob_active (en_obj c) = ob_active o /\ ob_rest (en_obj c) = ob_rest o.
Lemma truth_half : forall w i, TruthAt w i -> HalfAt w i.
Proof. intros w i H c o H1 H2 H3. rewrite (H c o H1 H2 H3). auto. Qed.

Lemma event_mono : forall w e, Mono w -> Mono (event w e).
Proof.
  intros w e (H & V1 & V2). split; [|split].
  - intros i c o. destruct e as [j|j s a r|j s a r|j|s]; cbn [event].
    + cbn [w_cch w_srv]. putc i j; [|intros; eauto]. destruct (w_srv w j) as [x|]; [|discriminate].
      intros Hc Ho. injection Hc as <-. injection Ho as <-. cbn. lia.
    + destruct (w_srv w j) as [x|] eqn:E; [|intros; eauto]. cbn [w_cch w_srv]. putc i j; [|intros; eauto].
      intros Hc Ho. injection Ho as <-. cbn. pose proof (V1 _ _ Hc). lia.
    + destruct (w_srv w j) as [x|] eqn:E; [intros; eauto|]. cbn [w_cch w_srv]. putc i j; [|intros; eauto].
      intros Hc Ho. injection Ho as <-. cbn. pose proof (V1 _ _ Hc). lia.
    + cbn [w_cch w_srv]. putc i j; [discriminate|intros; eauto].
    + apply H.
  - intros i c. destruct e as [j|j s a r|j s a r|j|s]; cbn [event]; try apply V1.
    + cbn [w_cch w_rv]. putc i j; [|apply V1]. destruct (w_srv w j) as [x|] eqn:E; [|discriminate].
      intros Hc. injection Hc as <-. cbn. eapply V2; eassumption.
    + destruct (w_srv w j); cbn [w_cch w_rv]; intros Hc; pose proof (V1 _ _ Hc); lia.
    + destruct (w_srv w j); cbn [w_cch w_rv]; intros Hc; pose proof (V1 _ _ Hc); lia.
  - intros i o. destruct e as [j|j s a r|j s a r|j|s]; cbn [event]; try apply V2.
    + destruct (w_srv w j); [|apply V2]. cbn [w_srv w_rv]. putc i j; intros Ho; [injection Ho as <-; cbn; lia|pose proof (V2 _ _ Ho); lia].
    + destruct (w_srv w j); [apply V2|]. cbn [w_srv w_rv]. putc i j; intros Ho; [injection Ho as <-; cbn; lia|pose proof (V2 _ _ Ho); lia].
    + cbn [w_srv w_rv]. putc i j; [discriminate|apply V2].
Qed.

Lemma event_bound : forall w e, Bound w -> Bound (event w e).
Proof.
  intros w e H i c. destruct e as [j|j s a r|j s a r|j|s]; cbn [event].
  - cbn [w_cch w_next]. putc i j.
    + destruct (w_srv w j); [|discriminate]. intros Hc. injection Hc as <-. cbn. lia.
    + intros Hc. pose proof (H _ _ Hc). lia.
  - destruct (w_srv w j); cbn; apply H.
  - destruct (w_srv w j); cbn; apply H.
  - apply H.
  - apply H.
Qed.

Lemma event_half : forall w e i, Mono w -> HalfAt w i -> HalfAt (event w e) i.
Proof.
  intros w e i M H c o. destruct e as [j|j s a r|j s a r|j|s]; cbn [event].
  - cbn [w_cch w_srv]. putc i j; [|intros; eapply H; eassumption]. destruct (w_srv w j) as [x|]; [|discriminate].
    intros Hc Ho. injection Hc as <-. injection Ho as <-. auto.
  - destruct (w_srv w j) as [x|] eqn:E; [|intros; eapply H; eassumption]. cbn [w_cch w_srv]. putc i j; [|intros; eapply H; eassumption].
    intros Hc Ho. injection Ho as <-. cbn. intros Hr. pose proof (proj1 (proj2 M) _ _ Hc). lia.
  - destruct (w_srv w j) as [x|] eqn:E; [intros; eapply H; eassumption|]. cbn [w_cch w_srv]. putc i j; [|intros; eapply H; eassumption].
    intros Hc Ho. injection Ho as <-. cbn. intros Hr. pose proof (proj1 (proj2 M) _ _ Hc). lia.
  - cbn [w_cch w_srv]. putc i j; [discriminate|intros; eapply H; eassumption].
  - apply H.
Qed.

Lemma event_truth : forall w e i, Mono w -> TruthAt w i -> TruthAt (event w e) i.
Proof.
  intros w e i M H c o. destruct e as [j|j s a r|j s a r|j|s]; cbn [event].
  - cbn [w_cch w_srv]. putc i j; [|intros; eapply H; eassumption]. destruct (w_srv w j) as [x|]; [|discriminate].
    intros Hc Ho. injection Hc as <-. injection Ho as <-. auto.
  - destruct (w_srv w j) as [x|] eqn:E; [|intros; eapply H; eassumption]. cbn [w_cch w_srv]. putc i j; [|intros; eapply H; eassumption].
    intros Hc Ho. injection Ho as <-. cbn. intros Hr. pose proof (proj1 (proj2 M) _ _ Hc). lia.
  - destruct (w_srv w j) as [x|] eqn:E; [intros; eapply H; eassumption|]. cbn [w_cch w_srv]. putc i j; [|intros; eapply H; eassumption].
    intros Hc Ho. injection Ho as <-. cbn. intros Hr. pose proof (proj1 (proj2 M) _ _ Hc). lia.
  - cbn [w_cch w_srv]. putc i j; [discriminate|intros; eapply H; eassumption].
  - apply H.
Qed.

(** The cache entry stays or becomes truthful; the server's object stays or gets a higher version. *)
Lemma event_cache : forall w e i, w_cch (event w e) i = w_cch w i \/ TruthAt (event w e) i.
Proof.
  intros w e i. destruct e as [j|j s a r|j s a r|j|s]; cbn [event]; [|left|left|left; reflexivity|left; reflexivity].
  - destruct (Nat.eq_dec i j) as [->|N]; [right|left; cbn; apply put_ne; exact N].
    intros c o. cbn [w_cch w_srv]. rewrite put_eq. destruct (w_srv w j) as [x|]; [|discriminate].
    intros Hc Ho. injection Hc as <-. injection Ho as <-. auto.
  - destruct (w_srv w j); reflexivity.
  - destruct (w_srv w j); reflexivity.
Qed.

Lemma event_server : forall w e i o, w_srv (event w e) i = Some o -> w_srv w i = Some o \/ w_rv w < ob_rv o.
Proof.
  intros w e i o. destruct e as [j|j s a r|j s a r|j|s]; cbn [event]; auto.
  - destruct (w_srv w j) as [x|] eqn:E; [|auto]. cbn [w_srv]. putc i j; [|auto].
    intros H. injection H as <-. right. cbn. lia.
  - destruct (w_srv w j) as [x|] eqn:E; [auto|]. cbn [w_srv]. putc i j; [|auto].
    intros H. injection H as <-. right. cbn. lia.
  - cbn [w_srv]. putc i j; [discriminate|auto].
Qed.

Lemma event_rv : forall w e, w_rv w <= w_rv (event w e).
Proof. intros w e. destruct e as [j|j s a r|j s a r|j|s]; cbn [event]; try (destruct (w_srv w j)); cbn; lia. Qed.

Lemma event_queued : forall w e, w_queued (event w e) = false -> w_queued w = false /\ w_cch (event w e) = w_cch w /\ w_set (event w e) = w_set w.
Proof.
  intros w e. destruct e as [j|j s a r|j s a r|j|s]; cbn [event]; try discriminate; try (destruct (w_srv w j)); cbn; auto.
Qed.

Lemma event_link : forall w e i en, en_ptr en < w_next w ->
  (forall c, w_cch w i = Some c -> en_ptr c = en_ptr en -> c = en) ->
  en_ptr en < w_next (event w e) /\ (forall c, w_cch (event w e) i = Some c -> en_ptr c = en_ptr en -> c = en).
Proof.
  intros w e i en Hp H. destruct e as [j|j s a r|j s a r|j|s]; cbn [event].
  - cbn [w_next w_cch]. split; [lia|]. intros c. putc i j; [|intros; eapply H; eassumption].
    destruct (w_srv w j); [|discriminate]. intros Hc. injection Hc as <-. cbn. lia.
  - destruct (w_srv w j); cbn; auto.
  - destruct (w_srv w j); cbn; auto.
  - cbn. auto.
  - cbn. auto.
Qed.

(** The same for lists of events. *)
Lemma events_inv : forall l w, Mono w -> Bound w ->
  let w' := fold_left event l w in
  Mono w' /\ Bound w' /\ (forall i, HalfAt w i -> HalfAt w' i) /\ (forall i, TruthAt w i -> TruthAt w' i) /\
  (forall i, w_cch w' i = w_cch w i \/ TruthAt w' i) /\
  ((forall i o, w_srv w' i = Some o -> w_srv w i = Some o \/ w_rv w < ob_rv o) /\ w_rv w <= w_rv w') /\
  (w_queued w' = false -> w_queued w = false /\ w_cch w' = w_cch w /\ w_set w' = w_set w) /\
  (forall i en, en_ptr en < w_next w -> (forall c, w_cch w i = Some c -> en_ptr c = en_ptr en -> c = en) ->
     en_ptr en < w_next w' /\ (forall c, w_cch w' i = Some c -> en_ptr c = en_ptr en -> c = en)).
Proof.
  intros l. induction l as [|e l IH]; intros w M B; cbn [fold_left].
  - cbv zeta. split; [exact M|]. split; [exact B|]. split; [auto|]. split; [auto|]. split; [auto|]. split; [auto|]. split; [auto|]. auto.
  - destruct (IH (event w e) (event_mono _ _ M) (event_bound _ _ B)) as (M' & B' & Hh & Ht & Hc & Hs & Hq & Hl).
    cbv zeta. split; [exact M'|]. split; [exact B'|].
    split; [intros i H; apply Hh, event_half; assumption|].
    split; [intros i H; apply Ht, event_truth; assumption|].
    split. { intros i. destruct (Hc i) as [E|E]; [|right; exact E]. destruct (event_cache w e i) as [F|F]; [left; congruence|right; auto]. }
    split. { destruct Hs as (Hs & Hv). pose proof (event_rv w e). split; [|lia]. intros i o Ho. destruct (Hs i o Ho) as [H1|H1]; [|right; lia].
             apply (event_server _ _ _ _ H1). }
    split. { intros H. destruct (Hq H) as (H1 & H2 & H3). destruct (event_queued _ _ H1) as (H4 & H5 & H6).
             split; [exact H4|]. split; congruence. }
    intros i en Hp H. destruct (event_link w e i en Hp H) as (H1 & H2). apply Hl; assumption.
Qed.

(** *** Attempts *)
Definition Good (w : W) : Prop := Mono w /\ Bound w /\ forall i, HalfAt w i.

(** What an update does when it goes through. *)
Lemma update_cases : forall w i o a w' r, update w i o a = (w', r) ->
  (w' = w /\ ((r = RErr /\ (a = ARefused \/ w_srv w i = None)) \/
              (r = RConflict /\ exists s, w_srv w i = Some s /\ ob_rv s <> ob_rv o))) \/
  (exists s, a <> ARefused /\ r <> RConflict /\ w_srv w i = Some s /\ ob_rv s = ob_rv o /\
     w_cch w' = w_cch w /\ w_next w' = w_next w /\ w_set w' = w_set w /\ w_queued w' = w_queued w /\
     (forall j, j <> i -> w_srv w' j = w_srv w j) /\
     exists s', w_srv w' i = Some s' /\ ob_active s' = ob_active s /\ ob_rest s' = ob_rest o /\
       ((ob_rv s' = ob_rv s /\ ob_spc s = ob_spc o /\ ob_rest s = ob_rest o /\ s' = s) \/ ob_rv s' = S (w_rv w)) /\ w_rv w' = S (w_rv w)).
Proof.
  intros w i o a w' r H. unfold update in H.
  assert (a = ARefused \/ a <> ARefused) as [->|Ha] by (destruct a; auto; right; discriminate).
  { injection H as <- <-. left. auto. }
  assert (match w_srv w i with
      | None => (w, RErr)
      | Some s =>
          if negb (Nat.eqb (ob_rv s) (ob_rv o)) then (w, RConflict)
          else
            let same := spc_eqb (ob_spc s) (ob_spc o) && Nat.eqb (ob_rest s) (ob_rest o) in
            let w' := mkW (put (w_srv w) i (Some (mkObj (if same then ob_rv s else S (w_rv w)) (ob_spc o) (ob_active s) (ob_rest o))))
                          (w_cch w) (w_next w) (S (w_rv w)) (w_set w) (w_queued w) in
            (w', match a with AOk => ROk | _ => RErr end)
      end = (w', r)) as H' by (destruct a; [exact H|congruence|exact H]). clear H.
  destruct (w_srv w i) as [s|] eqn:E.
  - destruct (Nat.eqb_spec (ob_rv s) (ob_rv o)) as [N|N]; cbn [negb] in H'.
    + cbv zeta in H'. injection H' as <- <-. right. exists s. split; [exact Ha|]. split; [destruct a; discriminate|].
      split; [reflexivity|]. split; [exact N|]. cbn [w_cch w_next w_set w_queued w_srv].
      split; [reflexivity|]. split; [reflexivity|]. split; [reflexivity|]. split; [reflexivity|].
      split; [intros j Hj; apply put_ne; exact Hj|].
      rewrite put_eq. eexists. split; [reflexivity|]. cbn [ob_active ob_rest ob_rv ob_spc]. split; [reflexivity|]. split; [reflexivity|].
      split; [|reflexivity]. destruct (spc_eqb (ob_spc s) (ob_spc o) && Nat.eqb (ob_rest s) (ob_rest o)) eqn:F; [left|right; reflexivity].
      apply andb_true_iff in F. destruct F as (F1 & F2). apply spc_eqb_eq in F1. apply Nat.eqb_eq in F2.
      split; [reflexivity|]. split; [exact F1|]. split; [exact F2|]. rewrite <- F1, <- F2. destruct s; reflexivity.
    + injection H' as <- <-. left. split; [reflexivity|]. right. eauto.
  - injection H' as <- <-. left. auto.
Qed.

Lemma update_good : forall w w2 i c a w' r l, Good w -> w_cch w i = Some c -> w2 = fold_left event l w ->
  update w2 i (en_obj c) a = (w', r) -> 
  Good w' /\ w_cch w' = w_cch w2 /\ w_next w' = w_next w2 /\ w_set w' = w_set w2 /\ w_queued w' = w_queued w2 /\
  (forall j, same_rest (w_srv w' j) (w_srv w2 j)) /\
  (forall j, TruthAt w2 j -> j <> i -> TruthAt w' j) /\
  (a <> ARefused -> TruthAt w' i).
Proof.
  intros w w2 i c a w' r l (M & B & Hh) Hc -> H.
  destruct (events_inv l w M B) as (M2 & B2 & Hh2 & _ & Hcc & Hss & _ & _). set (w2 := fold_left event l w) in *.
  assert (forall j, HalfAt w2 j) as H2 by (intros; apply Hh2, Hh).
  assert (forall x, same_rest x x) as SR by (intros [x|]; cbn; auto).
  destruct (update_cases _ _ _ _ _ _ H) as [(-> & Hr)|(s & Ha & Hnc & Hs & Hrv & E1 & E2 & E3 & E4 & E5 & s' & Hs' & A & R & D & V')].
  - split; [split; [exact M2|split; [exact B2|exact H2]]|]. split; [reflexivity|]. split; [reflexivity|]. split; [reflexivity|]. split; [reflexivity|].
    split; [intros; apply SR|]. split; [auto|]. intros Ha c2 o Hc2 Ho Hv.
    destruct Hr as [(-> & [->|Hn])|(-> & s & Hs & N)]; [congruence|congruence|].
    destruct (Hcc i) as [F|F]; [|apply F; assumption]. fold w2 in F. rewrite Hc2, Hc in F. injection F as ->. rewrite Hs in Ho. injection Ho as <-. congruence.
  - assert (ob_rest s = ob_rest (en_obj c)) as Hrest.
    { destruct (proj1 Hss i s Hs) as [Hs0|L].
      - symmetry. apply (Hh i c s Hc Hs0). auto.
      - pose proof (proj1 (proj2 M) i c Hc). lia. }
    assert (ob_rv s <= w_rv w2) as SV by (apply (proj2 (proj2 M2) i); assumption).
    assert (forall j c2, w_cch w2 j = Some c2 -> ob_rv (en_obj c2) <= w_rv w2) as CV by (apply M2).
    assert (forall c2, w_cch w2 i = Some c2 -> ob_rv (en_obj c2) <= ob_rv s) as ML by (intros c2 Hc2; apply (proj1 M2 i); assumption).
    split; [split; [|split]|].
    + split; [|split].
      * intros j c2 o Hc2 Ho. rewrite E1 in Hc2. destruct (Nat.eq_dec j i) as [->|N].
        -- rewrite Hs' in Ho. injection Ho as <-. pose proof (ML _ Hc2). destruct D as [(D & _)|D]; lia.
        -- rewrite E5 in Ho by exact N. apply (proj1 M2 j); assumption.
      * intros j c2. rewrite E1, V'. intros Hc2. pose proof (CV _ _ Hc2). lia.
      * intros j o. rewrite V'. destruct (Nat.eq_dec j i) as [->|N].
        -- rewrite Hs'. intros Ho. injection Ho as <-. destruct D as [(D & _)|D]; lia.
        -- rewrite E5 by exact N. intros Ho. pose proof (proj2 (proj2 M2) j o Ho). lia.
    + intros j c2. rewrite E1, E2. apply B2.
    + intros j c2 o Hc2 Ho Hv. rewrite E1 in Hc2. destruct (Nat.eq_dec j i) as [->|N].
      * rewrite Hs' in Ho. injection Ho as <-. pose proof (ML _ Hc2). destruct D as [(D & D1 & D2 & D3)|D]; [|lia]. subst s'. apply (H2 i); assumption.
      * rewrite E5 in Ho by exact N. apply (H2 j); assumption.
    + split; [exact E1|]. split; [exact E2|]. split; [exact E3|]. split; [exact E4|].
      split. { intros j. destruct (Nat.eq_dec j i) as [->|N]; [|rewrite E5 by exact N; apply SR]. rewrite Hs', Hs. cbn. split; [congruence|exact A]. }
      split. { intros j T N c2 o Hc2 Ho. rewrite E1 in Hc2. rewrite E5 in Ho by exact N. apply T; assumption. }
      intros _ c2 o Hc2 Ho Hv. rewrite E1 in Hc2. rewrite Hs' in Ho. injection Ho as <-. pose proof (ML _ Hc2).
      destruct D as [(D & D1 & D2 & D3)|D]; [|lia]. subst s'.
      destruct (Hcc i) as [F|F]; [|apply F; assumption]. fold w2 in F. rewrite Hc2, Hc in F. injection F as ->.
      destruct (H2 i c s Hc2 Hs Hv) as (F1 & F2). destruct (en_obj c) as [v1 v2 v3 v4], s as [u1 u2 u3 u4]. cbn in *. congruence.
Qed.

Lemma same_rest_refl : forall x, same_rest x x.
Proof. intros [x|]; cbn; auto. Qed.
Lemma same_rest_trans : forall x y z, same_rest x y -> same_rest y z -> same_rest x z.
Proof. intros [x|] [y|] [z|]; cbn; try tauto. intros (-> & ->) (-> & ->). auto. Qed.

Lemma same_rest_event : forall w w2 e, (forall i, same_rest (w_srv w i) (w_srv w2 i)) ->
  forall i, same_rest (w_srv (event w e) i) (w_srv (event w2 e) i).
Proof.
  intros w w2 e H i. destruct e as [j|j s a r|j s a r|j|s]; cbn [event]; try apply H.
  - pose proof (H j) as Hj. destruct (w_srv w j) as [x|] eqn:E, (w_srv w2 j) as [y|] eqn:F; cbn in Hj; try contradiction.
    + cbn [w_srv]. putc i j; [cbn; auto|apply H].
    + apply H.
  - pose proof (H j) as Hj. destruct (w_srv w j) as [x|] eqn:E, (w_srv w2 j) as [y|] eqn:F; cbn in Hj; try contradiction.
    + apply H.
    + cbn [w_srv]. putc i j; [cbn; auto|apply H].
  - cbn [w_srv]. putc i j; [exact I|apply H].
Qed.
Lemma same_rest_events : forall l w w2, (forall i, same_rest (w_srv w i) (w_srv w2 i)) ->
  forall i, same_rest (w_srv (fold_left event l w) i) (w_srv (fold_left event l w2) i).
Proof. intros l. induction l as [|e l IH]; intros w w2 H; cbn [fold_left]; [exact H|]. apply IH. apply same_rest_event. exact H. Qed.

(** Positions [k, k') of the environment were used. *)
Definition used (e : Env) (k k' : nat) : list Ev := flat_map (en_ev e) (seq k (k' - k)).
Lemma used_app : forall e a b c, a <= b <= c -> used e a c = used e a b ++ used e b c.
Proof.
  intros e a b c H. unfold used. rewrite <- flat_map_app. f_equal.
  replace (c - a) with ((b - a) + (c - b)) by lia. rewrite seq_app. f_equal. f_equal. lia.
Qed.

(** What a part of the reconcile guarantees. [i]: the machine being written, if any. *)
Definition Link (w : W) (l : list (nat * Ent)) : Prop := forall i en, In (i, en) l ->
  en_ptr en < w_next w /\ (forall c, w_cch w i = Some c -> en_ptr c = en_ptr en -> c = en).

Lemma attempts_spec : forall e fuel k w i w' k' ok, Good w -> attempts e fuel k w i = (w', k', ok) ->
  k <= k' /\ Good w' /\ (forall l, Link w l -> Link w' l) /\
  (w_queued w' = false -> w_queued w = false /\ w_cch w' = w_cch w /\ w_set w' = w_set w) /\
  (forall j, same_rest (w_srv w' j) (w_srv (fold_left event (used e k k') w) j)) /\
  ((forall n, en_api e n <> ARefused) -> (forall j, j <> i -> TruthAt w j) -> (TruthAt w i \/ fuel <> 0) -> forall j, TruthAt w' j).
Proof.
  intros e fuel. induction fuel as [|fuel IH]; intros k w i w' k' ok G H; cbn [attempts] in H.
  - injection H as <- <- <-. split; [lia|]. split; [exact G|]. split; [auto|]. split; [auto|].
    split. { intros j. unfold used. rewrite Nat.sub_diag. cbn. apply same_rest_refl. }
    intros _ Ht [Hi|Hi] j; [|congruence]. destruct (Nat.eq_dec j i) as [->|N]; auto.
  - destruct G as (M & B & Hh).
    destruct (events_inv (en_ev e k) w M B) as (M1 & B1 & Hh1 & Ht1 & _ & _ & Hq1 & Hl1). set (w1 := fold_left event (en_ev e k) w) in *.
    assert (Good w1) as G1 by (split; [exact M1|split; [exact B1|intros; apply Hh1, Hh]]).
    destruct (w_cch w1 i) as [c|] eqn:E.
    + destruct (events_inv (en_ev e (S k)) w1 M1 B1) as (M2 & B2 & Hh2 & Ht2 & _ & _ & Hq2 & Hl2). set (w2 := fold_left event (en_ev e (S k)) w1) in *.
      destruct (update w2 i (en_obj c) (en_api e k)) as [w3 r] eqn:EU.
      destruct (update_good w1 w2 i c _ w3 r (en_ev e (S k)) G1 E eq_refl EU) as (G3 & E1 & E2 & E3 & E4 & SR & T1 & T2).
      assert (forall l, Link w l -> Link w3 l) as L3.
      { intros l Hl j en Hj. destruct (Hl j en Hj) as (P1 & P2). destruct (Hl1 j en P1 P2) as (P3 & P4). destruct (Hl2 j en P3 P4) as (P5 & P6).
        rewrite E1, E2. auto. }
      assert (w_queued w3 = false -> w_queued w = false /\ w_cch w3 = w_cch w /\ w_set w3 = w_set w) as Q3.
      { intros Hq. rewrite E4 in Hq. destruct (Hq2 Hq) as (P1 & P2 & P3). destruct (Hq1 P1) as (P4 & P5 & P6).
        split; [exact P4|]. split; congruence. }
      assert (forall j, same_rest (w_srv w3 j) (w_srv (fold_left event (used e k (S (S k))) w) j)) as S3.
      { intros j. replace (used e k (S (S k))) with (en_ev e k ++ en_ev e (S k)).
        - rewrite fold_left_app. apply SR.
        - unfold used. replace (S (S k) - k) with 2 by lia. cbn. rewrite app_nil_r. reflexivity. }
      assert ((forall n, en_api e n <> ARefused) -> (forall j, j <> i -> TruthAt w j) -> forall j, TruthAt w3 j) as T3.
      { intros Ha Ht j. destruct (Nat.eq_dec j i) as [->|N]; [apply T2, Ha|]. apply T1; [|exact N]. apply Ht2, Ht1, Ht, N. }
      destruct r.
      * injection H as <- <- <-. split; [lia|]. split; [exact G3|]. split; [exact L3|]. split; [exact Q3|]. split; [exact S3|]. intros Ha Ht _. auto.
      * destruct (IH _ _ _ _ _ _ G3 H) as (K & G' & L' & Q' & S' & T').
        split; [lia|]. split; [exact G'|]. split; [auto|].
        split. { intros Hq. destruct (Q' Hq) as (P1 & P2 & P3). destruct (Q3 P1) as (P4 & P5 & P6). split; [exact P4|]. split; congruence. }
        split. { intros j. rewrite (used_app e k (S (S k)) k') by lia. rewrite fold_left_app. eapply same_rest_trans; [apply S'|].
                 apply same_rest_events. exact S3. }
        intros Ha Ht _. apply T'; auto.
      * injection H as <- <- <-. split; [lia|]. split; [exact G3|]. split; [exact L3|]. split; [exact Q3|]. split; [exact S3|]. intros Ha Ht _. auto.
    + injection H as <- <- <-. split; [lia|]. split; [exact G1|].
      split. { intros l Hl j en Hj. destruct (Hl j en Hj) as (P1 & P2). apply Hl1; assumption. }
      split; [exact Hq1|].
      split. { intros j. replace (used e k (S k)) with (en_ev e k); [apply same_rest_refl|].
               unfold used. replace (S k - k) with 1 by lia. cbn. rewrite app_nil_r. reflexivity. }
      intros _ Ht _ j. destruct (Nat.eq_dec j i) as [->|N]; [intros c o Hc; congruence|]. apply Ht1, Ht, N.
Qed.

(** *** A loop *)
Definition part_ok (p : Part) (s : Spc) (o : Obj) : Prop :=
  match p with
  | PTmpl => ob_active o = true -> sp_tmpl (ob_spc o) = sp_tmpl s
  | PConf => ob_active o = true -> sp_conf (ob_spc o) = sp_conf s
  | PKind => sp_kind (ob_spc o) = sp_kind s
  end.

Lemma copy_spec : forall p s o o' b, copyPart p s o = (o', b) ->
  ob_rv o' = ob_rv o /\ ob_active o' = ob_active o /\ ob_rest o' = ob_rest o /\ part_ok p s o' /\
  (forall q, part_ok q s o -> part_ok q s o') /\
  (leftOut p o || negb b = true -> part_ok p s o).
Proof.
  intros p s o o' b H. unfold copyPart in H. cbv zeta in H.
  destruct p; injection H as <- <-; cbn; do 3 (split; [reflexivity|]); (split; [auto|]); (split; [intros []; cbn; auto|]).
  - rewrite negb_involutive, orb_true_iff, negb_true_iff, Nat.eqb_eq. intros [X | X]; [rewrite X; discriminate | auto].
  - rewrite negb_involutive, orb_true_iff, negb_true_iff, Nat.eqb_eq. intros [X | X]; [rewrite X; discriminate | auto].
  - rewrite negb_involutive, Nat.eqb_eq. auto.
Qed.

(** Everything in the cache below [n] is listed, unless the key was queued again. *)
Definition Listed (n : nat) (w : W) (s : Spc) (l : list (nat * Ent)) : Prop :=
  w_queued w = false -> w_set w = s /\ forall i c, i < n -> w_cch w i = Some c -> In (i, c) l.

Lemma write_spec : forall w i en en' l1 l2 n s, Good w ->
  Link w (l1 ++ (i, en) :: l2) -> NoDup (map fst (l1 ++ (i, en) :: l2)) ->
  en_ptr en' = en_ptr en -> ob_rv (en_obj en') = ob_rv (en_obj en) -> ob_active (en_obj en') = ob_active (en_obj en) -> ob_rest (en_obj en') = ob_rest (en_obj en) ->
  Listed n w s (l1 ++ (i, en) :: l2) ->
  let w' := writeThrough w i en' in
  Good w' /\ Link w' (l1 ++ (i, en') :: l2) /\ Listed n w' s (l1 ++ (i, en') :: l2) /\ w_srv w' = w_srv w /\
  w_queued w' = w_queued w /\ (forall j, j <> i -> TruthAt w j -> TruthAt w' j).
Proof.
  intros w i en en' l1 l2 n s (M & B & Hh) L N E1 E2 E3 E4 Ls w'.
  destruct (L i en) as (P1 & P2); [apply in_or_app; right; left; reflexivity|].
  assert (forall j x, In (j, x) (l1 ++ (i, en) :: l2) -> j = i -> x = en) as U.
  { intros j x Hx ->. clear -N Hx. induction l1 as [|[a b] l1 IH]; cbn in *.
    - inversion N; subst. destruct Hx as [Hx|Hx]; [congruence|]. exfalso. apply H1. apply (in_map fst) in Hx. exact Hx.
    - inversion N; subst. destruct Hx as [Hx|Hx]; [|auto]. injection Hx as -> ->. exfalso. apply H1.
      rewrite map_app, in_app_iff. right. left. reflexivity. }
  assert (forall j x, In (j, x) (l1 ++ (i, en') :: l2) -> (j = i /\ x = en') \/ (j <> i /\ In (j, x) (l1 ++ (i, en) :: l2))) as U2.
  { intros j x Hx. rewrite in_app_iff in Hx.
    assert (In (j, x) l1 \/ In (j, x) l2 \/ (i, en') = (j, x)) as [H|[H|H]] by (cbn in Hx; tauto).
    - right. split; [|rewrite in_app_iff; auto]. intros ->. clear -N H. rewrite map_app in N. cbn [map fst] in N. apply NoDup_remove_2 in N. apply N. rewrite in_app_iff. left. apply (in_map fst) in H. exact H.
    - right. split; [|rewrite in_app_iff; cbn; auto]. intros ->. clear -N H. rewrite map_app in N. cbn [map fst] in N. apply NoDup_remove_2 in N. apply N. rewrite in_app_iff. right. apply (in_map fst) in H. exact H.
    - left. injection H as <- <-. auto. }
  unfold w', writeThrough. destruct (w_cch w i) as [c|] eqn:E.
  - rewrite E1. destruct (Nat.eqb_spec (en_ptr c) (en_ptr en)) as [Q|Q].
    + assert (c = en) as -> by (apply P2; auto).
      split; [split; [|split]|].
      * split; [|split].
        -- intros j c o. cbn [w_cch w_srv]. putc j i; [|apply M]. intros Hc. injection Hc as <-. rewrite E2. apply (proj1 M). exact E.
        -- intros j c. cbn [w_cch w_rv]. putc j i; [|apply M]. intros Hc. injection Hc as <-. rewrite E2. apply (proj1 (proj2 M) i). exact E.
        -- apply M.
      * intros j c. cbn [w_cch w_next]. putc j i; [|apply B]. intros Hc. injection Hc as <-. rewrite E1. exact P1.
      * intros j c o. cbn [w_cch w_srv]. putc j i; [|apply Hh]. intros Hc. injection Hc as <-. rewrite E2, E3, E4. apply Hh. exact E.
      * split. { intros j x Hx. cbn [w_cch w_next]. destruct (U2 j x Hx) as [(-> & ->)|(N1 & Hx')].
          - split; [lia|]. intros c. rewrite put_eq. congruence.
          - rewrite put_ne by exact N1. apply L. exact Hx'. }
        split. { intros Hq. cbn [w_queued] in Hq. destruct (Ls Hq) as (S1 & S2). split; [exact S1|]. cbn [w_cch]. intros j c Hj.
          rewrite in_app_iff. cbn [In]. putc j i.
          - intros Hc. injection Hc as <-. auto.
          - intros Hc. specialize (S2 j c Hj Hc). rewrite in_app_iff in S2. cbn [In] in S2. destruct S2 as [S2|[S2|S2]]; [auto|congruence|auto]. }
        split; [reflexivity|]. split; [reflexivity|].
        intros j Nj T c o. cbn [w_cch w_srv]. rewrite put_ne by exact Nj. apply T.
    + split; [split; [exact M|split; [exact B|exact Hh]]|].
      split. { intros j x Hx. destruct (U2 j x Hx) as [(-> & ->)|(N1 & Hx')]; [|apply L; exact Hx'].
        split; [lia|]. intros c' Hc'. rewrite E in Hc'. injection Hc' as <-. congruence. }
      split. { intros Hq. destruct (Ls Hq) as (S1 & S2). split; [exact S1|]. intros j c' Hj Hc'.
        specialize (S2 j c' Hj Hc'). destruct (Nat.eq_dec j i) as [->|Nj].
        - exfalso. rewrite E in Hc'. injection Hc' as <-. pose proof (U i c S2 eq_refl). subst. congruence.
        - rewrite in_app_iff in *. cbn [In] in *. destruct S2 as [S2|[S2|S2]]; [auto|congruence|auto]. }
      split; [reflexivity|]. split; [reflexivity|]. auto.
  - split; [split; [exact M|split; [exact B|exact Hh]]|].
    split. { intros j x Hx. destruct (U2 j x Hx) as [(-> & ->)|(N1 & Hx')]; [|apply L; exact Hx'].
      split; [lia|]. intros c' Hc'. congruence. }
    split. { intros Hq. destruct (Ls Hq) as (S1 & S2). split; [exact S1|]. intros j c' Hj Hc'.
      specialize (S2 j c' Hj Hc'). destruct (Nat.eq_dec j i) as [->|Nj]; [congruence|].
      rewrite in_app_iff in *. cbn [In] in *. destruct S2 as [S2|[S2|S2]]; [auto|congruence|auto]. }
    split; [reflexivity|]. split; [reflexivity|]. auto.
Qed.

Lemma loop_spec : forall e p s n l k w pre w' k' l' ok, Good w -> Link w (pre ++ l) -> NoDup (map fst (pre ++ l)) -> Listed n w s (pre ++ l) ->
  syncLoop e p s k w l = (w', k', l', ok) ->
  k <= k' /\ Good w' /\ Link w' (pre ++ l') /\ map fst l' = map fst l /\ Listed n w' s (pre ++ l') /\
  (forall j, same_rest (w_srv w' j) (w_srv (fold_left event (used e k k') w) j)) /\
  ((forall x, en_api e x <> ARefused) -> (forall j, TruthAt w j) -> forall j, TruthAt w' j) /\
  (ok = true -> Forall (fun x => part_ok p s (en_obj (snd x))) l') /\
  (forall q, Forall (fun x => part_ok q s (en_obj (snd x))) l -> Forall (fun x => part_ok q s (en_obj (snd x))) l').
Proof.
  intros e p s n l. induction l as [|[i en] l IH]; intros k w pre w' k' l' ok G L N Ls H; cbn [syncLoop] in H.
  - injection H as <- <- <- <-. split; [lia|]. split; [exact G|]. split; [exact L|]. split; [reflexivity|]. split; [exact Ls|].
    split. { intros j. unfold used. rewrite Nat.sub_diag. cbn. apply same_rest_refl. } split; [auto|]. split; [constructor|auto].
  - destruct (copyPart p s (en_obj en)) as [o' b] eqn:EC. destruct (copy_spec _ _ _ _ _ EC) as (C1 & C2 & C3 & C4 & C5 & C6).
    assert (forall x, pre ++ x :: l = (pre ++ [x]) ++ l) as RA by (intros x; rewrite <- app_assoc; reflexivity).
    assert (forall (x : nat * Ent) l', pre ++ x :: l' = (pre ++ [x]) ++ l') as RA' by (intros x l0; rewrite <- app_assoc; reflexivity).
    destruct (leftOut p (en_obj en) || negb b) eqn:EL.
    + destruct (syncLoop e p s k w l) as [[[w1 k1] l1] ok1] eqn:ES. injection H as <- <- <- <-.
      rewrite RA in L, N, Ls. destruct (IH _ _ _ _ _ _ _ G L N Ls ES) as (K & G' & L' & M' & Ls' & S' & T' & P' & Q').
      rewrite RA'. split; [exact K|]. split; [exact G'|]. split; [exact L'|]. split; [cbn; f_equal; exact M'|]. split; [exact Ls'|]. split; [exact S'|]. split; [exact T'|].
      split. { intros Ho. constructor; [cbn; auto|auto]. }
      intros q Hq. inversion Hq; subst. constructor; auto.
    + destruct (attempts e 4 k (writeThrough w i (mkEnt (en_ptr en) o')) i) as [[w1 k1] ok1] eqn:EA.
      destruct (write_spec w i en (mkEnt (en_ptr en) o') pre l n s G L N eq_refl C1 C2 C3 Ls) as (Gw & Lw & Lsw & Ew & Qw & Tw).
      destruct (attempts_spec _ _ _ _ _ _ _ _ Gw EA) as (K1 & G1 & L1 & Q1 & S1 & T1).
      specialize (L1 _ Lw).
      assert (Listed n w1 s (pre ++ (i, mkEnt (en_ptr en) o') :: l)) as Ls1.
      { intros Hq. destruct (Q1 Hq) as (X1 & X2 & X3). rewrite X2, X3. apply Lsw. exact X1. }
      assert (NoDup (map fst (pre ++ (i, mkEnt (en_ptr en) o') :: l))) as N1.
      { rewrite map_app in *. exact N. }
      assert (forall j, same_rest (w_srv w1 j) (w_srv (fold_left event (used e k k1) w) j)) as S1'.
      { intros j. eapply same_rest_trans; [apply S1|]. apply same_rest_events. intros x. rewrite Ew. apply same_rest_refl. }
      assert ((forall x, en_api e x <> ARefused) -> (forall j, TruthAt w j) -> forall j, TruthAt w1 j) as T1'.
      { intros Ha Ht. apply T1; [exact Ha| |right; discriminate]. intros j Nj. apply Tw; auto. }
      destruct ok1.
      * destruct (syncLoop e p s k1 w1 l) as [[[w2 k2] l2] ok2] eqn:ES. injection H as <- <- <- <-.
        rewrite RA' in L1, N1, Ls1.
        destruct (IH _ _ _ _ _ _ _ G1 L1 N1 Ls1 ES) as (K & G' & L' & M' & Ls' & S' & T' & P' & Q').
        rewrite RA'. split; [lia|]. split; [exact G'|]. split; [exact L'|]. split; [cbn; f_equal; exact M'|]. split; [exact Ls'|].
        split. { intros j. rewrite (used_app e k k1 k2) by lia. rewrite fold_left_app. eapply same_rest_trans; [apply S'|]. apply same_rest_events. exact S1'. }
        split; [auto|].
        split. { intros Ho. constructor; [exact C4|auto]. }
        intros q Hq. inversion Hq; subst. constructor; [apply C5; assumption|auto].
      * injection H as <- <- <- <-. split; [lia|]. split; [exact G1|]. split; [exact L1|]. split; [reflexivity|]. split; [exact Ls1|]. split; [exact S1'|]. split; [exact T1'|].
        split; [discriminate|]. intros q Hq. inversion Hq; subst. constructor; [apply C5; assumption|auto].
Qed.

(** *** The reconcile *)
Lemma listed_in : forall w n i c, In (i, c) (listed w n) <-> i < n /\ w_cch w i = Some c.
Proof.
  intros w n. induction n as [|n IH]; intros i c; cbn [listed].
  - cbn. lia.
  - rewrite in_app_iff, IH. destruct (w_cch w n) as [d|] eqn:E; cbn [In].
    + split.
      * intros [(H1 & H2)|[H|[]]]; [split; [lia|auto]|]. injection H as <- <-. split; [lia|exact E].
      * intros (H1 & H2). destruct (Nat.eq_dec i n) as [->|]; [right; left; congruence|left; split; [lia|auto]].
    + split; [intros [(H1 & H2)|[]]; split; [lia|auto]|]. intros (H1 & H2). left. split; [|auto].
      destruct (Nat.eq_dec i n) as [->|]; [congruence|lia].
Qed.
Lemma listed_nodup : forall w n, NoDup (map fst (listed w n)).
Proof.
  intros w n. induction n as [|n IH]; cbn [listed]; [constructor|].
  rewrite map_app. destruct (w_cch w n) as [d|]; cbn [map]; [|rewrite app_nil_r; exact IH].
  apply (Permutation.Permutation_NoDup (l := n :: map fst (listed w n))).
  - apply Permutation.Permutation_cons_append.
  - constructor; [|exact IH]. rewrite in_map_iff. intros ([a b] & <- & H). apply listed_in in H. cbn in H. lia.
Qed.

Lemma reconcile_spec : forall n e w, Good w ->
  let w' := reconcile n e w in
  Good w' /\
  ((forall x, en_api e x <> ARefused) -> (forall j, TruthAt w j) -> forall j, TruthAt w' j) /\
  ((forall x, en_api e x <> ARefused) -> (forall j, TruthAt w j) -> w_queued w' = false ->
     forall i o, i < n -> current w' i -> w_srv w' i = Some o -> follows (w_set w') o) /\
  exists k, forall j, same_rest (w_srv w' j) (w_srv (fold_left event (used e 0 k) w) j).
Proof.
  intros n e w G. unfold reconcile. cbv zeta.
  set (w0 := mkW (w_srv w) (w_cch w) (w_next w) (w_rv w) (w_set w) false).
  assert (Good w0) as G0 by exact G.
  assert (Link w0 ([] ++ listed w n)) as L0.
  { intros i en H. cbn [app] in H. apply listed_in in H. destruct H as (H1 & H2). cbn [w_next w_cch w0]. split; [apply G in H2; exact H2|]. intros; congruence. }
  assert (Listed n w0 (w_set w) ([] ++ listed w n)) as Ls0.
  { intros _. split; [reflexivity|]. intros i c Hi Hc. cbn [app]. apply listed_in. auto. }
  pose proof (listed_nodup w n) as N0.
  assert (forall X, Good X -> Good (mkW (w_srv X) (w_cch X) (w_next X) (w_rv X) (w_set X) true)) as GF by (intros; assumption).
  assert (forall l i, w_srv (fold_left event l w0) i = w_srv (fold_left event l w) i) as EV.
  { assert (forall l a b, w_srv a = w_srv b -> w_rv a = w_rv b -> w_srv (fold_left event l a) = w_srv (fold_left event l b)) as X.
    { intros l. induction l as [|x l IH]; intros a b E V; cbn [fold_left]; [exact E|]. apply IH.
      - destruct x; cbn [event]; [exact E| | |cbn; rewrite E; reflexivity|exact E]; rewrite E; destruct (w_srv b i); cbn [w_srv]; rewrite ?V; auto.
      - destruct x; cbn [event]; [exact V| | |exact V|exact V]; rewrite E; destruct (w_srv b i); cbn; congruence. }
    intros l i. rewrite (X l w0 w eq_refl eq_refl). reflexivity. }
  destruct (syncLoop e PTmpl (w_set w) 0 w0 (listed w n)) as [[[w1 k1] l1] ok1] eqn:E1.
  destruct (loop_spec e PTmpl (w_set w) n _ _ _ [] _ _ _ _ G0 L0 N0 Ls0 E1) as (K1 & G1 & L1 & M1 & Ls1 & S1 & T1 & P1 & R1).
  cbn [app] in L1, Ls1.
  destruct ok1.
  2:{ split; [apply GF; exact G1|]. split; [exact T1|]. split; [discriminate|]. exists k1. intros j. rewrite <- EV. apply S1. }
  destruct (syncLoop e PConf (w_set w) k1 w1 l1) as [[[w2 k2] l2] ok2] eqn:E2.
  assert (NoDup (map fst l1)) as N1 by (rewrite M1; exact N0).
  destruct (loop_spec e PConf (w_set w) n _ _ _ [] _ _ _ _ G1 L1 N1 Ls1 E2) as (K2 & G2 & L2 & M2 & Ls2 & S2 & T2 & P2 & R2).
  cbn [app] in L2, Ls2.
  assert (forall j, same_rest (w_srv w2 j) (w_srv (fold_left event (used e 0 k2) w) j)) as S2'.
  { intros j. rewrite <- EV. rewrite (used_app e 0 k1 k2) by lia. rewrite fold_left_app. eapply same_rest_trans; [apply S2|]. apply same_rest_events. exact S1. }
  destruct ok2.
  2:{ split; [apply GF; exact G2|]. split; [intros Ha Ht; apply T2; auto|]. split; [discriminate|]. exists k2. exact S2'. }
  destruct (syncLoop e PKind (w_set w) k2 w2 l2) as [[[w3 k3] l3] ok3] eqn:E3.
  assert (NoDup (map fst l2)) as N2 by (rewrite M2; exact N1).
  destruct (loop_spec e PKind (w_set w) n _ _ _ [] _ _ _ _ G2 L2 N2 Ls2 E3) as (K3 & G3 & L3 & M3 & Ls3 & S3 & T3 & P3 & R3).
  cbn [app] in L3, Ls3.
  assert (exists k, forall j, same_rest (w_srv w3 j) (w_srv (fold_left event (used e 0 k) w) j)) as S3'.
  { exists k3. intros j. rewrite (used_app e 0 k2 k3) by lia. rewrite fold_left_app. eapply same_rest_trans; [apply S3|]. apply same_rest_events. exact S2'. }
  destruct ok3.
  2:{ split; [apply GF; exact G3|]. split; [intros Ha Ht; apply T3; auto|]. split; [discriminate|]. exact S3'. }
  split; [exact G3|]. split; [intros Ha Ht; apply T3; auto|]. split; [|exact S3'].
  intros Ha Ht Hq i o Hi Hc Ho. destruct (Ls3 Hq) as (X1 & X2). rewrite X1.
  unfold current in Hc. rewrite Ho in Hc. destruct (w_cch w3 i) as [c|] eqn:EC; [|contradiction].
  assert (en_obj c = o) as <-. { apply (T3 Ha (T2 Ha (T1 Ha Ht)) i c o EC Ho Hc). }
  specialize (X2 i c Hi EC).
  pose proof (R3 _ (R2 _ (P1 eq_refl))) as F1. pose proof (R3 _ (P2 eq_refl)) as F2. pose proof (P3 eq_refl) as F3.
  rewrite Forall_forall in F1, F2, F3. specialize (F1 _ X2). specialize (F2 _ X2). specialize (F3 _ X2). cbn in F1, F2, F3.
  split; [intros A; split; auto|exact F3].
Qed.

(** *** Runs *)
Definition Inv (n : nat) (w : W) : Prop := Good w /\ (forall j, TruthAt w j) /\
  (w_queued w = false -> forall i o, i < n -> current w i -> w_srv w i = Some o -> follows (w_set w) o).

Lemma event_inv : forall n w e, Inv n w -> Inv n (event w e).
Proof.
  intros n w e ((M & B & Hh) & T & F). split; [|split].
  - split; [apply event_mono; exact M|]. split; [apply event_bound; exact B|]. intros i. apply event_half; auto.
  - intros j. apply event_truth; auto.
  - intros Hq i o Hi Hc Ho. destruct (event_queued _ _ Hq) as (H1 & H2 & H3). rewrite H3.
    unfold current in Hc. rewrite Ho in Hc. rewrite H2 in Hc. destruct (w_cch w i) as [c|] eqn:EC; [|contradiction].
    destruct (event_server _ _ _ _ Ho) as [Ho0|D].
    + apply (F H1 i o Hi); [|exact Ho0]. unfold current. rewrite Ho0, EC. exact Hc.
    + pose proof (proj1 (proj2 M) i c EC). lia.
Qed.

Lemma run_inv : forall n ops w, Inv n w -> Forall never_refused ops -> Inv n (run n w ops).
Proof.
  intros n ops. induction ops as [|o ops IH]; intros w I F; [exact I|]. cbn [run fold_left]. inversion F as [|? ? F1 F2]; subst.
  apply IH; [|exact F2]. destruct o as [e|e]; cbn [step].
  - apply event_inv. exact I.
  - destruct I as (G & T & _). destruct (reconcile_spec n e w G) as (G' & T' & F' & _). split; [exact G'|]. split; [apply T'; auto|]. apply F'; auto.
Qed.

Lemma follow_lemma : forall n w ops, fresh n w -> Forall never_refused ops ->
  let w' := run n w ops in quiet n w' -> forall i o, i < n -> w_srv w' i = Some o -> follows (w_set w') o.
Proof.
  intros n w ops (H1 & H2 & V1 & V2 & H3) F w' (Q1 & Q2) i o Hi Ho.
  assert (Inv n w) as I.
  { split; [|split].
    - split; [|split].
      + split; [|split; assumption]. intros j c x Hc Hx. apply (H3 j c x Hc Hx).
      + exact H2.
      + intros j c x Hc Hx Hv. destruct (H3 j c x Hc Hx) as (_ & E). rewrite (E Hv). auto.
    - intros j c x Hc Hx Hv. apply (H3 j c x Hc Hx). exact Hv.
    - congruence. }
  destruct (run_inv n ops w I F) as (_ & _ & X). apply (X Q1 i o Hi (Q2 i Hi) Ho).
Qed.

Lemma good_run : forall n ops w, Good w -> Good (run n w ops).
Proof.
  intros n ops. induction ops as [|o ops IH]; intros w G; [exact G|]. cbn [run fold_left]. apply IH. destruct o as [e|e]; cbn [step].
  - destruct G as (M & B & Hh). split; [apply event_mono; exact M|]. split; [apply event_bound; exact B|]. intros i. apply event_half; auto.
  - apply (reconcile_spec n e w G).
Qed.

Lemma keep_lemma : forall n w ops e, fresh n w -> let w1 := run n w ops in
  exists k, forall j, same_rest (w_srv (reconcile n e w1) j) (w_srv (fold_left event (flat_map (en_ev e) (seq 0 k)) w1) j).
Proof.
  intros n w ops e (H1 & H2 & V1 & V2 & H3) w1.
  assert (Good w) as G.
  { split; [|split].
    - split; [|split; assumption]. intros j c x Hc Hx. apply (H3 j c x Hc Hx).
    - exact H2.
    - intros j c x Hc Hx Hv. destruct (H3 j c x Hc Hx) as (_ & E). rewrite (E Hv). auto. }
  destruct (reconcile_spec n e w1 (good_run n ops w G)) as (_ & _ & _ & k & X). exists k. intros j. specialize (X j).
  unfold used in X. rewrite Nat.sub_0_r in X. exact X.
Qed.

(** *** A reconcile without events beside it that ends well *)
Definition Same (w : W) (l : list (nat * Ent)) : Prop := forall i en, In (i, en) l ->
  w_cch w i = Some en /\ exists o, w_srv w i = Some o /\ ob_spc o = ob_spc (en_obj en) /\ ob_active o = ob_active (en_obj en).
Definition Has (p : Part) (s : Spc) (o : Obj) : Prop :=
  match p with
  | PTmpl => ob_active o = true -> sp_tmpl (ob_spc o) = sp_tmpl s
  | PConf => ob_active o = true -> sp_conf (ob_spc o) = sp_conf s
  | PKind => sp_kind (ob_spc o) = sp_kind s
  end.

Lemma calm_attempts : forall e, (forall k, en_ev e k = []) -> forall fuel k w i c w' k', w_cch w i = Some c ->
  attempts e fuel k w i = (w', k', true) ->
  w_cch w' = w_cch w /\ w_queued w' = w_queued w /\ (forall j, j <> i -> w_srv w' j = w_srv w j) /\
  exists o o', w_srv w i = Some o /\ w_srv w' i = Some o' /\ ob_spc o' = ob_spc (en_obj c) /\ ob_active o' = ob_active o.
Proof.
  intros e E. induction fuel as [| fuel IH]; intros k w i c w' k' C H; [discriminate|].
  cbn [attempts] in H. rewrite !E in H. cbn [fold_left] in H. rewrite C in H.
  unfold update in H. destruct (en_api e k); [| discriminate |];
    (destruct (w_srv w i) as [o|] eqn:So; [|discriminate]);
    (destruct (negb (Nat.eqb (ob_rv o) (ob_rv (en_obj c)))) eqn:N; [rewrite <- So; apply (IH _ _ _ _ _ _ C H) | ]).
  - injection H as <- _. cbn [w_cch w_queued w_srv]. split; [reflexivity|]. split; [reflexivity|]. split.
    + intros j J. apply put_ne, J.
    + eexists o, _. split; [reflexivity|]. split; [apply put_eq|]. split; reflexivity.
  - discriminate.
Qed.

Lemma calm_loop : forall e, (forall k, en_ev e k = []) -> forall p s l k w w' k' l', NoDup (map fst l) -> Same w l ->
  syncLoop e p s k w l = (w', k', l', true) ->
  w_queued w' = w_queued w /\ map fst l' = map fst l /\ Same w' l' /\
  (forall j, ~ In j (map fst l) -> w_srv w' j = w_srv w j /\ w_cch w' j = w_cch w j) /\
  (forall i en', In (i, en') l' -> Has p s (en_obj en') /\
     forall q, (forall en, In (i, en) l -> Has q s (en_obj en)) -> Has q s (en_obj en')).
Proof.
  intros e E p s. induction l as [| (i, en) l IH]; intros k w w' k' l' ND S H.
  - cbn in H. injection H as <- _ <-. split; [reflexivity|]. split; [reflexivity|]. split; [intros j en []|]. split; [auto | intros j en []].
  - cbn [map fst] in ND. inversion ND as [| ? ? N1 N2]; subst. cbn [syncLoop] in H.
    destruct (copyPart p s (en_obj en)) as (o', ch) eqn:CP.
    destruct (leftOut p (en_obj en) || negb ch) eqn:L.
    + destruct (syncLoop e p s k w l) as (((w1, k1), l1), ok) eqn:Q. injection H as <- _ <- ->.
      destruct (IH k w w1 k1 l1 N2 (fun j x I => S j x (or_intror I)) Q) as (A1 & A2 & A3 & A4 & A5).
      destruct (A4 i N1) as (B1 & B2).
      split; [exact A1|]. split; [cbn; congruence|]. split; [|split].
      * intros j x [X | X]; [injection X as <- <-; rewrite B1, B2; apply S; left; reflexivity | apply A3, X].
      * intros j J. apply A4. intros X. apply J. right. exact X.
      * intros j x [X | X].
        -- injection X as <- <-. split; [|intros q Hq; apply Hq; left; reflexivity].
           apply orb_true_iff in L as [L | L].
           ++ destruct p; cbn in L; [| | discriminate]; cbn; rewrite negb_true_iff in L; rewrite L; discriminate.
           ++ destruct p; cbn in CP; injection CP as _ <-; rewrite negb_involutive in L; apply Nat.eqb_eq in L; cbn; auto.
        -- destruct (A5 j x X) as (A6 & A7). split; [exact A6|]. intros q Hq. apply A7. intros en0 I0. apply Hq. right. exact I0.
    + destruct (attempts e 4 k (writeThrough w i (mkEnt (en_ptr en) o')) i) as ((w1, k1), ok1) eqn:At.
      destruct ok1; [|discriminate].
      destruct (syncLoop e p s k1 w1 l) as (((w2, k2), l2), ok) eqn:Q. injection H as <- _ <- ->.
      destruct (S i en (or_introl eq_refl)) as (C & o & So & Sp & Ac).
      unfold writeThrough in At. rewrite C in At. cbn [en_ptr] in At. rewrite Nat.eqb_refl in At.
      eapply (calm_attempts e E) in At as (T1 & T2 & T3 & o1 & o2 & T4 & T5 & T6 & T7); [|cbn [w_cch]; apply put_eq].
      cbn [w_cch w_queued w_srv en_obj] in *.
      assert (S1 : Same w1 l).
      { intros j x I. assert (NE : j <> i) by (intros ->; apply N1; apply (in_map fst) in I; exact I).
        rewrite T1, put_ne by exact NE. rewrite T3 by exact NE. apply S. right. exact I. }
      destruct (IH k1 w1 w2 k2 l2 N2 S1 Q) as (A1 & A2 & A3 & A4 & A5). destruct (A4 i N1) as (B1 & B2).
      assert (AO : ob_active o' = ob_active (en_obj en)) by (destruct p; cbn in CP; injection CP as <- _; reflexivity).
      split; [congruence|]. split; [cbn; congruence|]. split; [|split].
      * intros j x [X | X]; [|apply A3, X]. injection X as <- <-. rewrite B1, B2, T1, put_eq. split; [reflexivity|].
        exists o2. split; [exact T5|]. split; [exact T6|]. cbn [en_obj]. congruence.
      * intros j J. cbn [map fst In] in J. assert (NE : j <> i) by (intros ->; apply J; left; reflexivity).
        destruct (A4 j (fun X => J (or_intror X))) as (D1 & D2). rewrite D1, D2, T1, put_ne by exact NE. rewrite T3 by exact NE. auto.
      * intros j x [X | X].
        -- injection X as <- <-. cbn [en_obj]. split; [destruct p; cbn in CP; injection CP as <- _; cbn; auto|].
           intros q Hq. specialize (Hq en (or_introl eq_refl)).
           destruct p, q; cbn in CP; injection CP as <- _; cbn in *; auto.
        -- destruct (A5 j x X) as (A6 & A7). split; [exact A6|]. intros q Hq. apply A7. intros en0 I0. apply Hq. right. exact I0.
Qed.

Lemma in_listed : forall w n i en, In (i, en) (listed w n) <-> i < n /\ w_cch w i = Some en.
Proof.
  intros w. induction n as [| n IH]; intros i en; cbn [listed].
  - split; [intros [] | intros (X & _); lia].
  - rewrite in_app_iff, IH. split.
    + intros [(X & Y) | X]; [split; [lia | exact Y]|]. destruct (w_cch w n) eqn:C; [|destruct X]. destruct X as [X | []]. injection X as <- <-. auto.
    + intros (X & Y). destruct (Nat.eq_dec i n) as [-> | N]; [right; rewrite Y; left; reflexivity | left; split; [lia | exact Y]].
Qed.
Lemma nodup_listed : forall w n, NoDup (map fst (listed w n)).
Proof.
  intros w. induction n as [| n IH]; [constructor|]. cbn [listed]. rewrite map_app.
  destruct (w_cch w n); cbn [map fst]; [|rewrite app_nil_r; exact IH].
  apply NoDup_Add with (a := n) (l := map fst (listed w n)).
  - rewrite <- (app_nil_r (map fst (listed w n))) at 1. apply Add_app.
  - split; [exact IH|]. intros X. apply in_map_iff in X as ((j, x) & Y & Z). cbn in Y. subst j. apply in_listed in Z. lia.
Qed.

Lemma calm_reconcile : forall n e w, fresh n w -> (forall k, en_ev e k = []) -> (forall i, i < n -> current w i) ->
  w_queued (reconcile n e w) = false ->
  forall i o, i < n -> w_srv (reconcile n e w) i = Some o -> follows (w_set w) o.
Proof.
  intros n e w (_ & _ & _ & _ & F) E Cur Q i o I So. unfold reconcile in *.
  set (s := w_set w) in *.
  set (w0 := mkW (w_srv w) (w_cch w) (w_next w) (w_rv w) s false) in *.
  assert (S0 : Same w0 (listed w n)).
  { intros j en X. apply in_listed in X as (J & X). split; [exact X|]. specialize (Cur j J). unfold current in Cur. rewrite X in Cur.
    destruct (w_srv w j) as [x|] eqn:Sj; [|destruct Cur]. destruct (F j en x X Sj) as (_ & T). rewrite (T Cur). exists x. auto. }
  destruct (syncLoop e PTmpl s 0 w0 (listed w n)) as (((w1, k1), l1), ok1) eqn:L1. destruct ok1; [|cbn in Q; discriminate].
  destruct (calm_loop e E _ _ _ _ _ _ _ _ (nodup_listed w n) S0 L1) as (_ & M1 & S1 & O1 & H1).
  destruct (syncLoop e PConf s k1 w1 l1) as (((w2, k2), l2), ok2) eqn:L2. destruct ok2; [|cbn in Q; discriminate].
  assert (ND1 : NoDup (map fst l1)) by (rewrite M1; apply nodup_listed).
  destruct (calm_loop e E _ _ _ _ _ _ _ _ ND1 S1 L2) as (_ & M2 & S2 & O2 & H2).
  destruct (syncLoop e PKind s k2 w2 l2) as (((w3, k3), l3), ok3) eqn:L3. destruct ok3; [|cbn in Q; discriminate].
  assert (ND2 : NoDup (map fst l2)) by (rewrite M2; exact ND1).
  destruct (calm_loop e E _ _ _ _ _ _ _ _ ND2 S2 L3) as (_ & M3 & S3 & O3 & H3).
  destruct (in_dec Nat.eq_dec i (map fst (listed w n))) as [X | X].
  - rewrite <- M1, <- M2, <- M3 in X. apply in_map_iff in X as ((j, en3) & Y & X). cbn in Y. subst j.
    destruct (S3 i en3 X) as (_ & o3 & So3 & Sp & Ac). rewrite So3 in So. injection So as <-.
    destruct (H3 i en3 X) as (K3 & T3).
    assert (K2 : Has PConf s (en_obj en3)) by (apply T3; intros en2 Y; exact (proj1 (H2 i en2 Y))).
    assert (K1 : Has PTmpl s (en_obj en3)).
    { apply T3. intros en2 Y. apply (proj2 (H2 i en2 Y)). intros en1 Z. exact (proj1 (H1 i en1 Z)). }
    cbn in K1, K2, K3. rewrite <- Ac, <- Sp in *. split; auto.
  - assert (X3 : ~ In i (map fst l2)) by (rewrite M2, M1; exact X). assert (X2 : ~ In i (map fst l1)) by (rewrite M1; exact X).
    rewrite (proj1 (O3 i X3)), (proj1 (O2 i X2)), (proj1 (O1 i X)) in So. cbn in So. specialize (Cur i I). unfold current in Cur. rewrite So in Cur.
    destruct (w_cch w i) as [c|] eqn:C; [|destruct Cur]. destruct X. apply in_map_iff. exists (i, c). split; [reflexivity|]. apply in_listed. auto.
Qed.
