(** Proofs about the work queues. *)
Require Import Coq.Lists.List Coq.Strings.String Coq.Bool.Bool Coq.Arith.PeanoNat Coq.micromega.Lia Coq.Sorting.Permutation.
From Verif Require Import PermitModel PermitProofs QueueModel QueueSpec.
Import ListNotations.
Open Scope string_scope.
Open Scope list_scope.
Open Scope nat_scope.

Lemma hasKey_In k l : hasKey k l = true <-> In k l.
Proof.
  unfold hasKey. rewrite existsb_exists. split.
  - intros (x & I0 & E). apply String.eqb_eq in E. subst. exact I0.
  - intros I0. exists k. split; [exact I0 | apply String.eqb_refl].
Qed.
Lemma hasKey_not k l : hasKey k l = false <-> ~ In k l.
Proof. rewrite <- hasKey_In. symmetry. apply not_true_iff_false. Qed.

Lemma processing_works w k : processing w k = true <-> exists i, worksOn w i k.
Proof.
  unfold processing, worksOn. rewrite existsb_exists. split.
  - intros (o & I0 & E). destruct o as [k'|]; [|discriminate]. apply String.eqb_eq in E. subst k'.
    destruct (In_nth_error _ _ I0) as (i & H). exists i. exact H.
  - intros (i & H). exists (Some k). split; [apply nth_error_In with i; exact H | apply String.eqb_refl].
Qed.

Lemma nth_error_upd {A} : forall (l : list A) i j x, i < List.length l -> nth_error (upd l i x) j = if Nat.eqb i j then Some x else nth_error l j.
Proof. induction l as [| y l IH]; intros i j x H; cbn in H; [lia|]. destruct i, j; cbn; auto. apply IH. lia. Qed.

Record QInv (m : nat) (w : QW) : Prop := {
  z_nodup : NoDup (q_queue w);
  z_queue : forall k, In k (q_queue w) -> In k (q_dirty w) /\ processing w k = false;
  z_dirty : forall k, In k (q_dirty w) -> In k (q_queue w) \/ processing w k = true;
  z_one : forall i j k, worksOn w i k -> worksOn w j k -> i = j;
  z_count : forall k, q_count w k <= m }.

Lemma NoDup_snoc {A} (l : list A) x : NoDup l -> ~ In x l -> NoDup (l ++ [x]).
Proof.
  intros N H. apply (Permutation_NoDup (l := x :: l)); [apply Permutation_cons_append|]. constructor; assumption.
Qed.

Lemma inv_add m w k : QInv m w -> QInv m (add w k).
Proof.
  intros [A B C D E]. unfold add. destruct (hasKey k (q_dirty w)) eqn:H; [constructor; assumption|].
  rewrite hasKey_not in H.
  constructor; cbn [q_queue q_dirty q_later q_count q_workers]; auto.
  - destruct (processing w k); [exact A|]. apply NoDup_snoc; [exact A|]. intros I0. apply H. apply (B k I0).
  - intros k' I0. change (processing (mkQW _ _ _ _ (q_workers w)) k') with (processing w k').
    destruct (processing w k) eqn:P.
    + destruct (B k' I0). split; [apply in_or_app; auto | assumption].
    + apply in_app_or in I0. destruct I0 as [I0 | [<- | []]]; [|split; [apply in_or_app; right; left; reflexivity | exact P] ].
      destruct (B k' I0). split; [apply in_or_app; auto | assumption].
  - intros k' I0. change (processing (mkQW _ _ _ _ (q_workers w)) k') with (processing w k').
    apply in_app_or in I0. destruct I0 as [I0 | [<- | []]].
    + destruct (C k' I0); [left; destruct (processing w k); [|apply in_or_app]; auto | right; assumption].
    + destruct (processing w k) eqn:P; [right; reflexivity | left; apply in_or_app; right; left; reflexivity].
Qed.

Lemma nodup_hd {A} (x : A) l : NoDup (x :: l) -> ~ In x l.
Proof. intros N. inversion N; assumption. Qed.

Lemma in_without k x l : In x (without k l) <-> In x l /\ x <> k.
Proof.
  unfold without. rewrite filter_In. split; intros (A & B); split; auto.
  - intros ->. rewrite String.eqb_refl in B. discriminate.
  - destruct (String.eqb_spec k x); [congruence | reflexivity].
Qed.

Lemma afterRun_le m c f : c <= m -> fst (afterRun m c f) <= m.
Proof. intros H. unfold afterRun. destruct f; [|cbn; lia]. destruct (Nat.ltb_spec c m); cbn; lia. Qed.

Lemma inv_qstep m w op : QInv m w -> QInv m (qstep m w op).
Proof.
  intros V. destruct op; cbn [qstep].
  - apply inv_add, V.
  - destruct V as [A B C D E]. constructor; assumption.
  - destruct (nth_error (q_later w) n); [|exact V]. apply inv_add. destruct V as [A B C D E]. constructor; assumption.
  - destruct (nth_error (q_workers w) i) as [[|]|] eqn:NE; try exact V. destruct (q_queue w) as [| k r] eqn:Q; [exact V|].
    destruct V as [A B C D E]. rewrite Q in A, B, C.
    assert (L : i < List.length (q_workers w)) by (apply nth_error_Some; congruence).
    destruct (B k (or_introl eq_refl)) as (DK & PK).
    assert (WO : forall j k', worksOn (mkQW r (without k (q_dirty w)) (q_later w) (q_count w) (upd (q_workers w) i (Some k))) j k' <->
                 (j = i /\ k' = k) \/ worksOn w j k').
    { intros j k'. unfold worksOn. cbn [q_workers]. rewrite nth_error_upd by exact L. destruct (Nat.eqb_spec i j) as [<- | NJ].
      - split; [intros EQ; injection EQ as <-; auto | intros [(_ & ->) | EQ]; [reflexivity | congruence] ].
      - split; [auto | intros [(-> & _) | EQ]; [congruence | exact EQ] ]. }
    constructor; cbn [q_queue q_dirty q_count]; auto.
    + inversion A; assumption.
    + intros k' I0. destruct (B k' (or_intror I0)) as (DK' & PK').
      assert (k' <> k) by (intros ->; exact (nodup_hd _ _ A I0)).
      split; [apply in_without; auto|]. apply not_true_iff_false. intros P. apply processing_works in P. destruct P as (j & P).
      apply WO in P. destruct P as [(_ & ->) | P]; [congruence|].
      assert (processing w k' = true) by (apply processing_works; eauto). congruence.
    + intros k' I0. apply in_without in I0. destruct I0 as (I0 & NK). destruct (C k' I0) as [[-> | I1] | P]; [congruence | left; exact I1 | right].
      apply processing_works. apply processing_works in P. destruct P as (j & P). exists j. apply WO. right. exact P.
    + intros a b k' Wa Wb. apply WO in Wa, Wb.
      assert (NP : forall j, ~ worksOn w j k) by (intros j Wj; assert (processing w k = true) by (apply processing_works; eauto); congruence).
      destruct Wa as [(-> & ->) | Wa], Wb as [(-> & Ek) | Wb]; auto; try (exfalso; eapply NP; eassumption).
      * subst k'. exfalso. eapply NP; eassumption.
      * eapply D; eassumption.
  - destruct (nth_error (q_workers w) i) as [[k|]|] eqn:NE; try exact V.
    destruct (afterRun m (q_count w k) failed) as (c & again) eqn:AR.
    destruct V as [A B C D E].
    assert (L : i < List.length (q_workers w)) by (apply nth_error_Some; congruence).
    assert (WO : forall q d l cc j k', worksOn (mkQW q d l cc (upd (q_workers w) i None)) j k' <-> worksOn w j k' /\ j <> i).
    { intros q d l cc j k'. unfold worksOn. cbn [q_workers]. rewrite nth_error_upd by exact L. destruct (Nat.eqb_spec i j) as [<- | NJ].
      - split; [discriminate | intros (_ & N); congruence].
      - split; [intros EQ; split; [exact EQ | congruence] | intros (EQ & _); exact EQ]. }
    assert (NP : forall q d l cc, processing (mkQW q d l cc (upd (q_workers w) i None)) k = false).
    { intros. apply not_true_iff_false. intros P. apply processing_works in P. destruct P as (j & P). apply WO in P. destruct P as (P & NJ).
      apply NJ. apply (D j i k P). exact NE. }
    assert (PM : forall q d l cc k', processing (mkQW q d l cc (upd (q_workers w) i None)) k' = true -> processing w k' = true).
    { intros q d l cc k' P. apply processing_works in P. destruct P as (j & P). apply WO in P. apply processing_works. exists j. apply P. }
    assert (PK : processing w k = true) by (apply processing_works; exists i; exact NE).
    constructor; cbn [q_queue q_dirty q_count].
    + destruct (hasKey k (q_dirty w)); [|exact A]. apply NoDup_snoc; [exact A|]. intros I0. destruct (B k I0). congruence.
    + intros k' I0. assert (CASE : In k' (q_queue w) \/ (k' = k /\ In k (q_dirty w))).
      { destruct (hasKey k (q_dirty w)) eqn:HK; [|left; exact I0]. apply in_app_or in I0. destruct I0 as [I0 | [<- | []]]; [left; exact I0 | right].
        split; [reflexivity | apply hasKey_In; exact HK]. }
      destruct CASE as [I1 | (-> & I1)]; [|split; [exact I1 | apply NP] ].
      destruct (B k' I1) as (B1 & B2). split; [exact B1|]. apply not_true_iff_false. intros P. apply PM in P. congruence.
    + intros k' I0. destruct (C k' I0) as [I1 | P].
      * left. destruct (hasKey k (q_dirty w)); [apply in_or_app; left|]; exact I1.
      * destruct (String.eqb_spec k' k) as [-> | NK].
        -- left. rewrite (proj2 (hasKey_In k (q_dirty w)) I0). apply in_or_app. right. left. reflexivity.
        -- right. apply processing_works. apply processing_works in P. destruct P as (j & P). exists j. apply WO. split; [exact P|].
           intros ->. unfold worksOn in P. congruence.
    + intros a b k' Wa Wb. apply WO in Wa, Wb. apply (D a b k'); [apply Wa | apply Wb].
    + intros k'. destruct (String.eqb k k'); [|apply E]. pose proof (afterRun_le m (q_count w k) failed (E k)) as Q. rewrite AR in Q. exact Q.
Qed.

Lemma nth_error_repeat_none n i (k : string) : nth_error (repeat (@None string) n) i <> Some (Some k).
Proof. revert i. induction n; intros [|i]; cbn; try discriminate. apply IHn. Qed.

Lemma inv_qinit m n : QInv m (qinit n).
Proof.
  constructor; cbn; auto using NoDup_nil; try contradiction.
  - intros i j k H. exfalso. apply (nth_error_repeat_none _ _ _ H).
  - intros. lia.
Qed.

Lemma inv_qrun m : forall ops w, QInv m w -> QInv m (qrun m w ops).
Proof. induction ops as [| op ops IH]; intros w V; [exact V|]. apply (IH (qstep m w op)). apply inv_qstep, V. Qed.

(** A key that needs work keeps needing it until a worker takes it. *)
Lemma dirty_kept m w op k : QInv m w -> In k (q_dirty w) -> ~ In k (q_dirty (qstep m w op)) ->
  exists i, op = QGet i /\ worksOn (qstep m w op) i k.
Proof.
  intros V I0 N. destruct op; cbn [qstep] in *.
  - exfalso. apply N. unfold add. destruct (hasKey _ _); [exact I0 | apply in_or_app; left; exact I0].
  - contradiction.
  - exfalso. apply N. destruct (nth_error _ _); [|exact I0]. unfold add. cbn [q_dirty]. destruct (hasKey _ _); [exact I0 | apply in_or_app; left; exact I0].
  - destruct (nth_error (q_workers w) i) as [[|]|] eqn:NE; try contradiction. destruct (q_queue w) as [| k' r] eqn:Q; [contradiction|].
    exists i. split; [reflexivity|]. assert (L : i < List.length (q_workers w)) by (apply nth_error_Some; congruence).
    unfold worksOn. cbn [q_workers]. rewrite nth_error_upd, Nat.eqb_refl by exact L.
    destruct (String.eqb_spec k k') as [-> | NK]; [reflexivity|]. exfalso. apply N. cbn [q_dirty]. apply in_without. split; assumption.
  - exfalso. apply N. destruct (nth_error _ _) as [[|]|]; try exact I0. destruct (afterRun _ _ _). exact I0.
Qed.

(** The counter is the number of failures since the last success, modulo the limit. *)
Lemma count_step m w op k : 
  q_count (qstep m w op) k = match outcome1 k w op with [f] => fst (afterRun m (q_count w k) f) | _ => q_count w k end.
Proof.
  destruct op; cbn [qstep outcome1]; try reflexivity.
  - unfold add. destruct (hasKey _ _); reflexivity.
  - destruct (nth_error _ _); [|reflexivity]. unfold add. destruct (hasKey _ _); reflexivity.
  - destruct (nth_error _ _) as [[|]|]; try reflexivity. destruct (q_queue w); reflexivity.
  - destruct (nth_error _ _) as [[k'|]|]; try reflexivity. destruct (afterRun m (q_count w k') failed) as (c & again) eqn:AR.
    cbn [q_count]. rewrite String.eqb_sym. destruct (String.eqb_spec k k') as [<- |]; [|reflexivity]. rewrite AR. reflexivity.
Qed.

Lemma afterRun_mod m t f : fst (afterRun m (t mod S m) f) = (if f then S t else 0) mod S m.
Proof.
  unfold afterRun. destruct f; [|cbn [fst]; symmetry; apply Nat.mod_0_l; lia].
  pose proof (Nat.mod_upper_bound t (S m) ltac:(lia)) as U. pose proof (Nat.div_mod t (S m) ltac:(lia)) as D.
  destruct (Nat.ltb_spec (t mod S m) m) as [L | L]; cbn [fst].
  - apply (Nat.mod_unique (S t) (S m) (t / S m)); lia.
  - apply (Nat.mod_unique (S t) (S m) (S (t / S m))); lia.
Qed.

Lemma count_run m k : forall ops w acc, q_count w k = failures acc mod S m ->
  q_count (qrun m w ops) k = failures (outcomes m k w ops acc) mod S m.
Proof.
  induction ops as [| op ops IH]; intros w acc H; [exact H|]. apply (IH (qstep m w op)).
  rewrite count_step. 
  assert (CASE : outcome1 k w op = [] \/ exists f, outcome1 k w op = [f]).
  { destruct op; cbn; auto. destruct (nth_error _ _) as [[k'|]|]; auto. destruct (String.eqb k k'); eauto. }
  destruct CASE as [-> | (f & ->)]; cbn [app]; [exact H|]. rewrite H, afterRun_mod. destruct f; reflexivity.
Qed.
