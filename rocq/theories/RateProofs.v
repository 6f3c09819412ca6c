(** Proofs about the rate limit. *)
Require Import Coq.ZArith.ZArith Coq.Lists.List Coq.Strings.String Coq.Bool.Bool Coq.Arith.PeanoNat Coq.micromega.Lia.
From Verif Require Import PermitModel PermitSpec PermitProofs RateModel RateSpec.
Import ListNotations.
Open Scope string_scope.
Open Scope list_scope.
Open Scope nat_scope.

Notation one := (fun _ : string => 1).

(** The machine a worker works on, and the version it has read. *)
Definition target (s : WS) : option nat :=
  match s with WGot m _ | WIn m _ | WMark m _ | WWait m => Some m | _ => None end.
Definition version (s : WS) : option nat := match s with WGot _ v | WIn _ v | WMark _ v => Some v | _ => None end.
Definition inside (s : WS) : bool := match s with WIn _ _ | WMark _ _ | WWait _ => true | _ => false end.

Record RInv (w : RW) : Prop := {
  j_p : PInv one (r_p w);
  j_len : List.length (r_ws w) = List.length (p_threads (r_p w));
  j_tgt : forall i m, target (worker w i) = Some m -> m < List.length (r_ms w);
  j_got : forall i m v, worker w i = WGot m v -> thread (r_p w) i = Idle \/ exists ch, thread (r_p w) i = Waiting (rm_md (mach w m)) ch;
  j_in : forall i m, target (worker w i) = Some m -> inside (worker w i) = true -> exists ch, thread (r_p w) i = Holding (rm_md (mach w m)) ch;
  j_see : forall m, rm_seen (mach w m) <= List.length (rm_hist (mach w m)) /\ rm_mark (mach w m) <= List.length (rm_hist (mach w m));
  j_ver : forall i m v, target (worker w i) = Some m -> version (worker w i) = Some v ->
            1 <= v <= rm_seen (mach w m) /\ phaseAt (mach w m) v = Some "Unknown";
  j_rep : forall m, replaced (mach w m) -> rm_mark (mach w m) <= rm_seen (mach w m) \/ exists i, worker w i = WWait m;
  j_wait : forall i m, worker w i = WWait m -> 1 <= rm_mark (mach w m) /\
            (rm_mark (mach w m) <= rm_seen (mach w m) \/
             (S (rm_seen (mach w m)) = rm_mark (mach w m) /\ phaseAt (mach w m) (rm_seen (mach w m)) = Some "Unknown"));
  j_mark : forall i m v m', worker w i = WMark m v -> rm_name (mach w m') = Some (rm_md (mach w m)) -> ~ replaced (mach w m');
  j_one : forall m m' n, replaced (mach w m) -> replaced (mach w m') -> rm_name (mach w m) = Some n -> rm_name (mach w m') = Some n -> m = m' }.

Lemma named_md x n : rm_name x = Some n -> rm_md x = n.
Proof. unfold rm_md. intros ->. reflexivity. Qed.

(** * Lists. *)
Lemma upd_nil {A} i (x : A) : upd [] i x = [].
Proof. destruct i; reflexivity. Qed.

Lemma cnt_two {A} (f : A -> bool) l i j d : f d = false -> i <> j -> f (nth i l d) = true -> f (nth j l d) = true -> 2 <= cnt f l.
Proof.
  intros F NE I0 J0.
  assert (LI : i < List.length l). { destruct (Nat.lt_ge_cases i (List.length l)); auto. rewrite nth_overflow in I0 by assumption. congruence. }
  assert (LJ : j < List.length l). { destruct (Nat.lt_ge_cases j (List.length l)); auto. rewrite nth_overflow in J0 by assumption. congruence. }
  pose proof (cnt_upd f l i d d LI) as Q. rewrite I0, F in Q. cbn [b2n] in Q.
  pose proof (cnt_upd f (upd l i d) j d d ltac:(rewrite upd_length; exact LJ)) as Q2.
  rewrite nth_upd in Q2 by exact LI. destruct (Nat.eqb_spec i j); [contradiction|]. rewrite J0, F in Q2. cbn [b2n] in Q2. lia.
Qed.

Lemma worker_lt w i : worker w i <> WIdle -> i < List.length (r_ws w).
Proof. intros H. destruct (Nat.lt_ge_cases i (List.length (r_ws w))); auto. exfalso. apply H. apply nth_overflow. assumption. Qed.

Lemma worker_setW w i j s : i < List.length (r_ws w) -> worker (setW w i s) j = if Nat.eqb i j then s else worker w j.
Proof. intros L. unfold worker, setW; cbn [r_ws]. apply nth_upd. exact L. Qed.
Lemma mach_setM w m x j : m < List.length (r_ms w) -> mach (setM w m x) j = if Nat.eqb m j then x else mach w j.
Proof. intros L. unfold mach, setM; cbn [r_ms]. apply nth_upd. exact L. Qed.
Lemma noRM_not m w : List.length (r_ms w) <= m -> mach w m = noRM.
Proof. intros. apply nth_overflow. assumption. Qed.
Lemma not_replaced_none : ~ replaced noRM.
Proof. intros (H & _). cbn in H. lia. Qed.
Lemma replaced_lt w m : replaced (mach w m) -> m < List.length (r_ms w).
Proof. intros H. destruct (Nat.lt_ge_cases m (List.length (r_ms w))); auto. rewrite noRM_not in H by assumption. destruct (not_replaced_none H). Qed.

(** * At most one worker is inside for a MachineDeployment. *)
Lemma alone w i j m m' : RInv w -> target (worker w i) = Some m -> inside (worker w i) = true ->
  target (worker w j) = Some m' -> inside (worker w j) = true -> rm_md (mach w m) = rm_md (mach w m') -> i = j.
Proof.
  intros V A B C D E. destruct (Nat.eq_dec i j) as [|NE]; auto. exfalso.
  destruct (j_in _ V _ _ A B) as (ch & H). destruct (j_in _ V _ _ C D) as (ch' & H').
  pose proof (exclusive one (r_p w) (rm_md (mach w m)) (j_p _ V)) as Q. unfold holders in Q.
  pose proof (cnt_two (holds (rm_md (mach w m))) (p_threads (r_p w)) i j Idle eq_refl NE) as T.
  unfold thread in H, H'. rewrite H, H' in T. cbn [holds] in T. rewrite <- E, String.eqb_refl in T.
  specialize (T eq_refl eq_refl). unfold cnt in T. lia.
Qed.

(** * Steps of the permits. *)
Definition actor (op : POp) : option nat :=
  match op with
  | PTry i _ | PSend i | PTimeout i | PStopped i | PRelease i | PRecv i | PDelete i _ | PDeleteClose i | PRemove i => Some i
  | _ => None
  end.

Lemma thread_upd p i t j : thread (setThread p i t) j = if Nat.eqb i j then (if Nat.ltb i (List.length (p_threads p)) then t else thread p j) else thread p j.
Proof.
  unfold thread, setThread; cbn [p_threads]. destruct (Nat.ltb_spec i (List.length (p_threads p))) as [L | L].
  - rewrite nth_upd by exact L. reflexivity.
  - rewrite upd_out by exact L. destruct (Nat.eqb i j); reflexivity.
Qed.
Lemma thread_setChan p c x j : thread (setChan p c x) j = thread p j.
Proof. reflexivity. Qed.

Lemma others stale p op j : actor op <> Some j -> thread (pstep stale p op) j = thread p j.
Proof.
  intros H. unfold pstep. destruct (p_panic p); [reflexivity|].
  destruct op; cbn [actor] in H;
  repeat match goal with
  | |- thread p j = _ => reflexivity
  | |- context [match ?x with _ => _ end] => destruct x eqn:?
  | |- context [if ?x then _ else _] => destruct x eqn:?
  end; try reflexivity;
  rewrite ?thread_upd; try (destruct (Nat.eqb_spec i j) as [-> |]; [congruence|]); try reflexivity.
Qed.

Lemma threads_len stale p op : List.length (p_threads (pstep stale p op)) = List.length (p_threads p).
Proof.
  unfold pstep. destruct (p_panic p); [reflexivity|]. destruct op;
  repeat match goal with
  | |- context [match ?x with _ => _ end] => destruct x eqn:?
  | |- context [if ?x then _ else _] => destruct x eqn:?
  end; try reflexivity; unfold setThread, setChan, setMap; cbn [p_threads]; rewrite ?upd_length; reflexivity.
Qed.

(** Only the permits change, and the workers keep what they need. *)
Lemma inv_setP w p : RInv w -> PInv one p -> List.length (p_threads p) = List.length (p_threads (r_p w)) ->
  (forall i m v, worker w i = WGot m v -> thread p i = Idle \/ exists ch, thread p i = Waiting (rm_md (mach w m)) ch) ->
  (forall i m, target (worker w i) = Some m -> inside (worker w i) = true -> exists ch, thread p i = Holding (rm_md (mach w m)) ch) ->
  RInv (setP w p).
Proof.
  intros [A B C D E F G H I0 J K] P L G1 G2. constructor; cbn [setP r_p r_ms r_ws]; auto.
  congruence.
Qed.

Lemma inv_other_permit stale w op : RInv w -> registers one op -> calm (r_p w) op ->
  (forall i, actor op = Some i -> target (worker w i) = None) -> RInv (setP w (pstep stale (r_p w) op)).
Proof.
  intros V R C T. apply inv_setP; auto.
  - apply inv_pstep; auto. exact (j_p _ V).
  - apply threads_len.
  - intros i m v W. rewrite others; [apply (j_got _ V i m v W)|]. intros A. specialize (T i A). rewrite W in T. discriminate.
  - intros i m W IN. rewrite others; [apply (j_in _ V i m W IN)|]. intros A. specialize (T i A). congruence.
Qed.

(** A worker stops working on its machine. *)
Lemma inv_leave w i s : RInv w -> target s = None -> (forall m, worker w i = WWait m -> rm_mark (mach w m) <= rm_seen (mach w m)) ->
  RInv (setW w i s).
Proof.
  intros V S0 H. destruct (Nat.lt_ge_cases i (List.length (r_ws w))) as [L | L].
  2:{ unfold setW. rewrite upd_out by exact L. destruct w; exact V. }
  assert (W := fun j => worker_setW w i j s L).
  destruct V as [A B C D E F G J K M O].
  constructor; cbn [setW r_p r_ms]; auto.
  - cbn [setW r_ws]. rewrite upd_length. exact B.
  - intros j m T. rewrite W in T. destruct (Nat.eqb i j); [congruence | eauto].
  - intros j m v T. rewrite W in T. destruct (Nat.eqb i j); [subst s; discriminate | exact (D j m v T)].
  - intros j m T IN. rewrite W in T, IN. destruct (Nat.eqb i j); [congruence | exact (E j m T IN)].
  - intros j m v T VV. rewrite W in T, VV. destruct (Nat.eqb i j); [congruence | exact (G j m v T VV)].
  - intros m RE. destruct (J m RE) as [Q | (j & Q)]; [left; exact Q|].
    destruct (Nat.eq_dec i j) as [<- | NE]; [left; apply H; exact Q|]. right. exists j. rewrite W.
    destruct (Nat.eqb_spec i j); [contradiction | exact Q].
  - intros j m T. rewrite W in T. destruct (Nat.eqb i j); [subst s; discriminate | exact (K j m T)].
  - intros j m v m' T. rewrite W in T. destruct (Nat.eqb i j); [subst s; discriminate | exact (M j m v m' T)].
Qed.

(** * Histories of machines. *)
Lemma phaseAt_app x p v : v <= List.length (rm_hist x) -> phaseAt (write x p) v = phaseAt x v.
Proof. intros H. destruct v; [reflexivity|]. cbn. apply app_nth1. lia. Qed.

Lemma replaced_write x p : replaced (write x p) -> rm_mark x <= List.length (rm_hist x) -> replaced x.
Proof.
  intros (A & B & C) L. cbn [write rm_mark rm_hist] in *. split; [exact A|]. split; [exact L|].
  intros v V1 V2. rewrite <- (phaseAt_app x p v V2). apply C; [exact V1|]. rewrite app_length. cbn. lia.
Qed.

Lemma replaced_in_progress x : replaced x -> rm_mark x <= rm_seen x -> rm_seen x <= List.length (rm_hist x) ->
  1 <= inProgress1 (cachedPhase x).
Proof.
  intros (A & B & C) M L. unfold cachedPhase. destruct (C (rm_seen x) M L) as [E | E]; rewrite E; cbn; lia.
Qed.

Lemma sum_le {A} (f : A -> nat) l x : In x l -> f x <= fold_right plus 0 (map f l).
Proof. induction l as [| y l IH]; intros H; [destruct H|]. cbn. destruct H as [-> | H]; [lia|]. specialize (IH H). lia. Qed.

(** * Every step. *)
Lemma inv_rstep stale w op : RInv w -> prompt w op -> RInv (rstep stale w op).
Proof.
  intros V PR. destruct op; cbn [rstep prompt] in PR |- *.
  - (* start *) destruct (worker w i) eqn:W; try exact V. destruct (thread (r_p w) i) eqn:T; try exact V.
    destruct (cachedPhase (mach w m)) as [ph|] eqn:CP; [|exact V]. destruct (String.eqb_spec ph "Unknown") as [-> | ]; [|exact V].
    destruct (Nat.lt_ge_cases i (List.length (r_ws w))) as [L | L].
    2:{ unfold setW. rewrite upd_out by exact L. destruct w; exact V. }
    assert (LM : m < List.length (r_ms w)).
    { destruct (Nat.lt_ge_cases m (List.length (r_ms w))); auto. rewrite noRM_not in CP by assumption. discriminate. }
    assert (WW := fun j => worker_setW w i j (WGot m (rm_seen (mach w m))) L).
    destruct V as [A B C D E F G J K M O]. constructor; cbn [setW r_p r_ms]; auto.
    + cbn [setW r_ws]. rewrite upd_length. exact B.
    + intros j m' TT. rewrite WW in TT. destruct (Nat.eqb i j); [injection TT as <-; exact LM | eauto].
    + intros j m' v TT. rewrite WW in TT. destruct (Nat.eqb_spec i j) as [<- |]; [left; exact T | exact (D j m' v TT)].
    + intros j m' TT IN. rewrite WW in TT, IN. destruct (Nat.eqb i j); [discriminate | exact (E j m' TT IN)].
    + intros j m' v TT VV. rewrite WW in TT, VV. destruct (Nat.eqb i j); [|exact (G j m' v TT VV)].
      injection TT as <-. injection VV as <-. split; [|exact CP].
      split; [|change (mach (setW w i (WGot m (rm_seen (mach w m)))) m) with (mach w m); lia].
      destruct (rm_seen (mach w m)) eqn:S0; [unfold cachedPhase in CP; rewrite S0 in CP; discriminate | lia].
    + intros m' RE. destruct (J m' RE) as [Q | (j & Q)]; [left; exact Q|]. right. exists j. rewrite WW.
      destruct (Nat.eqb_spec i j) as [<- |]; [congruence | exact Q].
    + intros j m' TT. rewrite WW in TT. destruct (Nat.eqb i j); [discriminate | exact (K j m' TT)].
    + intros j m' v m'' TT. rewrite WW in TT. destruct (Nat.eqb i j); [discriminate | exact (M j m' v m'' TT)].
  - (* register *) destruct (worker w i) eqn:W; try exact V. apply inv_other_permit; [exact V | reflexivity | exact I | discriminate].
  - (* try *) destruct (worker w i) as [| m v | | | |] eqn:W; try exact V.
    assert (R1 : registers one (PTry i (rm_md (mach w m)))) by exact I.
    apply inv_setP; auto.
    + apply inv_pstep; [exact (j_p _ V) | exact I | exact I].
    + apply threads_len.
    + intros j m' v' T. destruct (Nat.eq_dec i j) as [<- | NE]; [|rewrite others by (cbn; congruence); exact (j_got _ V j m' v' T)].
      rewrite W in T. injection T as <- <-. unfold pstep. rewrite (q_ok _ _ (j_p _ V)).
      destruct (j_got _ V i m v W) as [Q | (ch & Q)]; rewrite Q; [|right; exists ch; exact Q].
      rewrite (q_run _ _ (j_p _ V)). destruct (lookup _ _) as [(ch & z) |]; [|left; exact Q].
      right. exists ch. rewrite thread_upd, Nat.eqb_refl. rewrite (proj2 (Nat.ltb_lt i (List.length (p_threads (r_p w))))); [reflexivity|].
      rewrite <- (j_len _ V). apply worker_lt. congruence.
    + intros j m' T IN. destruct (Nat.eq_dec i j) as [<- | NE]; [rewrite W in IN; discriminate|].
      rewrite others by (cbn; congruence). exact (j_in _ V j m' T IN).
  - (* send *) destruct (worker w i) as [| m v | | | |] eqn:W; try exact V.
    assert (LW : i < List.length (r_ws w)) by (apply worker_lt; congruence).
    assert (P' : PInv one (pstep stale (r_p w) (PSend i))) by (apply inv_pstep; [exact (j_p _ V) | exact I | exact I]).
    assert (OTH : forall j, j <> i -> thread (pstep stale (r_p w) (PSend i)) j = thread (r_p w) j) by (intros j NE; apply others; cbn; congruence).
    assert (AT : thread (pstep stale (r_p w) (PSend i)) i = thread (r_p w) i \/
                 exists ch, thread (pstep stale (r_p w) (PSend i)) i = Holding (rm_md (mach w m)) ch).
    { unfold pstep. rewrite (q_ok _ _ (j_p _ V)). destruct (j_got _ V i m v W) as [Q | (ch & Q)]; rewrite Q; [left; exact Q|].
      destruct (c_closed _); [left; exact Q|]. destruct (Nat.ltb _ _); [|left; exact Q]. right. exists ch.
      rewrite thread_upd, Nat.eqb_refl. cbn [setChan p_threads]. rewrite (proj2 (Nat.ltb_lt i (List.length (p_threads (r_p w))))); [reflexivity|].
      rewrite <- (j_len _ V). exact LW. }
    set (p := pstep stale (r_p w) (PSend i)) in *.
    assert (STAY : thread p i = thread (r_p w) i -> RInv (setP w p)).
    { intros SAME. apply inv_setP; auto.
      - apply threads_len.
      - intros j m' v' T. destruct (Nat.eq_dec j i) as [-> | NE]; [rewrite SAME | rewrite OTH by exact NE]; exact (j_got _ V _ m' v' T).
      - intros j m' T IN. destruct (Nat.eq_dec j i) as [-> | NE]; [rewrite SAME | rewrite OTH by exact NE]; exact (j_in _ V _ m' T IN). }
    destruct AT as [SAME | (ch & HO)].
    + rewrite SAME. destruct (j_got _ V i m v W) as [Q | (ch & Q)]; rewrite Q; exact (STAY SAME).
    + rewrite HO. assert (WW := fun j => worker_setW (setP w p) i j (WIn m v) LW).
      destruct V as [A B C D E F G J K M O]. constructor; cbn [setW setP r_p r_ms]; auto.
      * cbn [setW setP r_ws]. rewrite upd_length, B. symmetry. apply threads_len.
      * intros j m' TT. rewrite WW in TT. destruct (Nat.eqb i j); [injection TT as <-; apply (C i); rewrite W; reflexivity | exact (C j m' TT)].
      * intros j m' v' TT. rewrite WW in TT. destruct (Nat.eqb_spec i j) as [<- |]; [discriminate|]. rewrite OTH by congruence. exact (D j m' v' TT).
      * intros j m' TT IN. rewrite WW in TT, IN. destruct (Nat.eqb_spec i j) as [<- |].
        -- injection TT as <-. exists ch. exact HO.
        -- rewrite OTH by congruence. exact (E j m' TT IN).
      * intros j m' v' TT VV. rewrite WW in TT, VV. destruct (Nat.eqb i j); [|exact (G j m' v' TT VV)].
        injection TT as <-. injection VV as <-. apply (G i); rewrite W; reflexivity.
      * intros m' RE. destruct (J m' RE) as [Q | (j & Q)]; [left; exact Q|]. right. exists j. rewrite WW.
        destruct (Nat.eqb_spec i j) as [<- |]; [congruence | exact Q].
      * intros j m' TT. rewrite WW in TT. destruct (Nat.eqb i j); [discriminate | exact (K j m' TT)].
      * intros j m' v' m'' TT. rewrite WW in TT. destruct (Nat.eqb i j); [discriminate | exact (M j m' v' m'' TT)].
  - (* give up *) destruct (worker w i) as [| m v | | | |] eqn:W; try exact V.
    assert (V1 : RInv (setW w i WIdle)) by (apply inv_leave; [exact V | reflexivity | rewrite W; discriminate]).
    change (RInv (setP (setW w i WIdle) (pstep stale (r_p (setW w i WIdle)) (PTimeout i)))).
    apply inv_other_permit; [exact V1 | exact I | exact I|]. intros j Q. injection Q as <-.
    rewrite worker_setW by (apply worker_lt; congruence). rewrite Nat.eqb_refl. reflexivity.
  - (* list *) destruct (worker w i) as [| | m v | | |] eqn:W; try exact V.
    destruct (canMarkMachineFailed (rm_md (mach w m)) (r_ms w)) eqn:CAN; [|apply inv_leave; [exact V | reflexivity | rewrite W; discriminate] ].
    assert (LW : i < List.length (r_ws w)) by (apply worker_lt; congruence).
    assert (WW := fun j => worker_setW w i j (WMark m v) LW).
    assert (NONE : forall m', rm_name (mach w m') = Some (rm_md (mach w m)) -> ~ replaced (mach w m')).
    { intros m' SAME RE. pose proof (replaced_lt _ _ RE) as LT.
      assert (MS : rm_mark (mach w m') <= rm_seen (mach w m')).
      { destruct (j_rep _ V m' RE) as [Q | (j & Q)]; [exact Q|]. exfalso.
        assert (i = j); [|congruence]. apply (alone w i j m m' V); try rewrite W; try rewrite Q; auto. symmetry. apply named_md. exact SAME. }
      pose proof (replaced_in_progress _ RE MS (proj1 (j_see _ V m'))) as Q1.
      unfold canMarkMachineFailed in CAN. apply Nat.ltb_lt in CAN.
      pose proof (sum_le (fun x => if selects (rm_md (mach w m)) x then inProgress1 (cachedPhase x) else 0) (r_ms w) (mach w m')
        (nth_In _ _ LT)) as Q2. cbn beta in Q2.
      assert (SEL : selects (rm_md (mach w m)) (mach w m') = true) by (unfold selects; rewrite SAME; apply String.eqb_refl).
      rewrite SEL in Q2. lia. }
    destruct V as [A B C D E F G J K M O]. constructor; cbn [setW r_p r_ms]; auto.
    + cbn [setW r_ws]. rewrite upd_length. exact B.
    + intros j m' TT. rewrite WW in TT. destruct (Nat.eqb i j); [injection TT as <-; apply (C i); rewrite W; reflexivity | exact (C j m' TT)].
    + intros j m' v' TT. rewrite WW in TT. destruct (Nat.eqb i j); [discriminate | exact (D j m' v' TT)].
    + intros j m' TT IN. rewrite WW in TT, IN. destruct (Nat.eqb_spec i j) as [<- |]; [|exact (E j m' TT IN)].
      injection TT as <-. apply (E i m); rewrite W; reflexivity.
    + intros j m' v' TT VV. rewrite WW in TT, VV. destruct (Nat.eqb i j); [|exact (G j m' v' TT VV)].
      injection TT as <-. injection VV as <-. apply (G i); rewrite W; reflexivity.
    + intros m' RE. destruct (J m' RE) as [Q | (j & Q)]; [left; exact Q|]. right. exists j. rewrite WW.
      destruct (Nat.eqb_spec i j) as [<- |]; [congruence | exact Q].
    + intros j m' TT. rewrite WW in TT. destruct (Nat.eqb i j); [discriminate | exact (K j m' TT)].
    + intros j m' v' m'' TT. rewrite WW in TT. destruct (Nat.eqb i j); [injection TT as <- <-; apply NONE | exact (M j m' v' m'' TT)].
  - (* write *) destruct (worker w i) as [| | | m v | |] eqn:W; try exact V.
    destruct (lands && Nat.eqb (List.length (rm_hist (mach w m))) v) eqn:LA;
      [|apply inv_leave; [exact V | reflexivity | rewrite W; discriminate] ].
    apply andb_prop in LA. destruct LA as (LA & LV). rewrite (PR LA). apply Nat.eqb_eq in LV.
    assert (LM : m < List.length (r_ms w)) by (apply (j_tgt _ V i); rewrite W; reflexivity).
    assert (LW : i < List.length (r_ws w)) by (apply worker_lt; congruence).
    set (x := mach w m) in *.
    assert (WW : forall j, worker (setW (setM w m (markFailed x)) i (WWait m)) j = if Nat.eqb i j then WWait m else worker w j)
      by (intros j; apply (worker_setW (setM w m (markFailed x))); exact LW).
    assert (MM : forall j, mach (setW (setM w m (markFailed x)) i (WWait m)) j = if Nat.eqb m j then markFailed x else mach w j)
      by (intros j; apply (mach_setM w m (markFailed x)); exact LM).
    assert (MD : forall j, rm_md (mach (setW (setM w m (markFailed x)) i (WWait m)) j) = rm_md (mach w j)).
    { intros j. rewrite MM. destruct (Nat.eqb_spec m j) as [<- |]; reflexivity. }
    assert (MN : forall j, rm_name (mach (setW (setM w m (markFailed x)) i (WWait m)) j) = rm_name (mach w j)).
    { intros j. rewrite MM. destruct (Nat.eqb_spec m j) as [<- |]; reflexivity. }
    assert (VER : 1 <= v <= rm_seen x /\ phaseAt x v = Some "Unknown") by (apply (j_ver _ V i); rewrite W; reflexivity).
    destruct VER as ((V1 & V2) & V3).
    assert (SE : rm_seen x = v) by (pose proof (proj1 (j_see _ V m)) as Q; fold x in Q; lia).
    assert (NONE : forall m', rm_name (mach w m') = Some (rm_md x) -> ~ replaced (mach w m')) by (intros m'; apply (j_mark _ V i m v m' W)).
    assert (PH : forall u, u <= v -> phaseAt (markFailed x) u = phaseAt x u) by (intros u Q; apply (phaseAt_app x (Some "Failed")); lia).
    pose proof V as V0. destruct V as [A B C D E F G J K M O].
    constructor; try (cbn [setW setM r_p]; exact A).
    + cbn [setW setM r_ws r_p]. rewrite upd_length. exact B.
    + intros j m' TT. rewrite WW in TT. cbn [setW setM r_ms]. rewrite upd_length. destruct (Nat.eqb i j); [injection TT as <-; exact LM | exact (C j m' TT)].
    + intros j m' v' TT. rewrite WW in TT. destruct (Nat.eqb i j); [discriminate|]. rewrite MD. exact (D j m' v' TT).
    + intros j m' TT IN. rewrite WW in TT, IN. rewrite MD. destruct (Nat.eqb_spec i j) as [<- |]; [|exact (E j m' TT IN)].
      injection TT as <-. apply (E i m); rewrite W; reflexivity.
    + intros m'. rewrite MM. destruct (Nat.eqb_spec m m') as [<- |]; [|exact (F m')].
      cbn [markFailed rm_seen rm_hist rm_mark]. rewrite app_length. cbn. lia.
    + intros j m' v' TT VV. rewrite WW in TT, VV. destruct (Nat.eqb i j); [discriminate|].
      destruct (G j m' v' TT VV) as (G1 & G2). rewrite MM. destruct (Nat.eqb_spec m m') as [<- |]; [|split; assumption].
      fold x in G1, G2. split; [exact G1|]. rewrite PH by lia. exact G2.
    + intros m' RE. rewrite MM in RE |- *. destruct (Nat.eqb_spec m m') as [EQ | NE].
      * right. exists i. rewrite WW, Nat.eqb_refl. congruence.
      * destruct (J m' RE) as [Q | (j & Q)]; [left; exact Q|]. right. exists j. rewrite WW.
        destruct (Nat.eqb_spec i j) as [<- |]; [congruence | exact Q].
    + intros j m' TT. rewrite WW in TT. destruct (Nat.eqb_spec i j) as [<- | NE].
      * injection TT as <-. rewrite MM, Nat.eqb_refl. cbn [markFailed rm_mark rm_seen]. split; [lia|]. right. split; [lia|].
        rewrite PH by lia. rewrite SE. exact V3.
      * rewrite MM. destruct (Nat.eqb_spec m m') as [<- |]; [|exact (K j m' TT)].
        exfalso. apply NE. apply (alone w i j m m V0); try rewrite W; try rewrite TT; reflexivity.
    + intros j m' v' m'' TT. rewrite WW in TT. destruct (Nat.eqb_spec i j) as [<- | NE]; [discriminate|].
      rewrite MD, MN. intros SAME RE. rewrite MM in RE. destruct (Nat.eqb_spec m m'') as [<- |]; [|exact (M j m' v' m'' TT SAME RE)].
      apply NE. apply (alone w i j m m' V0); try rewrite W; try rewrite TT; try reflexivity. apply named_md. exact SAME.
    + intros m1 m2 n R1 R2. rewrite !MN. intros N1 N2. rewrite MM in R1, R2.
      destruct (Nat.eqb_spec m m1) as [<- | X1], (Nat.eqb_spec m m2) as [<- | X2]; auto.
      * exfalso. apply (NONE m2); [rewrite N2; unfold x; rewrite (named_md _ _ N1); reflexivity | exact R2].
      * exfalso. apply (NONE m1); [rewrite N1; unfold x; rewrite (named_md _ _ N2); reflexivity | exact R1].
      * exact (O m1 m2 n R1 R2 N1 N2).
  - (* the cache has it *) destruct (worker w i) as [| | | | m |] eqn:W; try exact V.
    destruct (cacheUpdated (mach w m)) eqn:CU; [|exact V]. apply inv_leave; [exact V | reflexivity|].
    intros m' Q. rewrite W in Q. injection Q as <-. destruct (j_wait _ V i m W) as (_ & [Q | (Q1 & Q2)]); [exact Q|].
    exfalso. unfold cacheUpdated, cachedPhase in CU. rewrite Q2 in CU. discriminate.
  - (* timed out *) destruct (worker w i) as [| | | | m |] eqn:W; try exact V. apply inv_leave; [exact V | reflexivity|].
    intros m' Q. rewrite W in Q. injection Q as <-. exact PR.
  - (* release *) destruct (worker w i) as [| | | | |] eqn:W; try exact V.
    assert (V1 : RInv (setW w i WIdle)) by (apply inv_leave; [exact V | reflexivity | rewrite W; discriminate]).
    change (RInv (setP (setW w i WIdle) (pstep stale (r_p (setW w i WIdle)) (PRelease i)))).
    apply inv_other_permit; [exact V1 | exact I | exact I|]. intros j Q. injection Q as <-.
    rewrite worker_setW by (apply worker_lt; congruence). rewrite Nat.eqb_refl. reflexivity.
  - destruct (worker w i) eqn:W; try exact V. apply inv_other_permit; [exact V | exact I | exact I|].
    intros j Q. injection Q as <-. rewrite W. reflexivity.
  - apply inv_other_permit; [exact V | exact I | exact I | discriminate].
  - apply inv_other_permit; [exact V | exact I | exact PR | discriminate].
  - apply inv_other_permit; [exact V | exact I | exact I | discriminate].
  - (* somebody writes *)
    destruct (Nat.lt_ge_cases m (List.length (r_ms w))) as [LM | LM].
    2:{ unfold setM. rewrite upd_out by exact LM. destruct w; exact V. }
    set (x := mach w m) in *.
    assert (MM : forall j, mach (setM w m (write x ph)) j = if Nat.eqb m j then write x ph else mach w j) by (intros j; apply mach_setM; exact LM).
    assert (MD : forall j, rm_md (mach (setM w m (write x ph)) j) = rm_md (mach w j)).
    { intros j. rewrite MM. destruct (Nat.eqb_spec m j) as [<- |]; reflexivity. }
    assert (MN : forall j, rm_name (mach (setM w m (write x ph)) j) = rm_name (mach w j)).
    { intros j. rewrite MM. destruct (Nat.eqb_spec m j) as [<- |]; reflexivity. }
    assert (RR : forall j, replaced (mach (setM w m (write x ph)) j) -> replaced (mach w j)).
    { intros j. rewrite MM. destruct (Nat.eqb_spec m j) as [<- |]; auto. intros RE. apply (replaced_write x ph RE). exact (proj2 (j_see _ V m)). }
    assert (SM : forall j, rm_seen (mach (setM w m (write x ph)) j) = rm_seen (mach w j) /\ rm_mark (mach (setM w m (write x ph)) j) = rm_mark (mach w j)).
    { intros j. rewrite MM. destruct (Nat.eqb_spec m j) as [<- |]; split; reflexivity. }
    assert (PH : forall j u, u <= rm_seen (mach w j) -> phaseAt (mach (setM w m (write x ph)) j) u = phaseAt (mach w j) u).
    { intros j u Q. rewrite MM. destruct (Nat.eqb_spec m j) as [<- |]; [|reflexivity]. apply phaseAt_app. pose proof (proj1 (j_see _ V m)). fold x in H, Q |- *. lia. }
    destruct V as [A B C D E F G J K M O].
    constructor; try exact A; try exact B.
    + intros j m' TT. cbn [setM r_ms]. rewrite upd_length. exact (C j m' TT).
    + intros j m' v' TT. rewrite MD. exact (D j m' v' TT).
    + intros j m' TT IN. rewrite MD. exact (E j m' TT IN).
    + intros m'. destruct (SM m') as (-> & ->). destruct (F m') as (F1 & F2). rewrite MM.
      destruct (Nat.eqb_spec m m') as [<- |]; [|split; assumption]. fold x in F1, F2 |- *. cbn [write rm_hist]. rewrite app_length. lia.
    + intros j m' v' TT VV. destruct (G j m' v' TT VV) as (G1 & G2). destruct (SM m') as (-> & _). split; [exact G1|].
      rewrite PH by lia. exact G2.
    + intros m' RE. destruct (SM m') as (-> & ->). exact (J m' (RR _ RE)).
    + intros j m' TT. destruct (SM m') as (-> & ->). rewrite PH by lia. exact (K j m' TT).
    + intros j m' v' m'' TT. rewrite MD, MN. intros SAME RE. exact (M j m' v' m'' TT SAME (RR _ RE)).
    + intros m1 m2 n R1 R2. rewrite !MN. exact (O m1 m2 n (RR _ R1) (RR _ R2)).
  - (* a new machine *)
    assert (MM : forall j, j < List.length (r_ms w) -> nth j (r_ms w ++ [mkRM dep label [] 0 0]) noRM = mach w j) by (intros j Q; apply app_nth1; exact Q).
    assert (NEW : forall j, List.length (r_ms w) <= j -> nth j (r_ms w ++ [mkRM dep label [] 0 0]) noRM = mkRM dep label [] 0 0 \/ nth j (r_ms w ++ [mkRM dep label [] 0 0]) noRM = noRM).
    { intros j Q. rewrite app_nth2 by exact Q. destruct (j - List.length (r_ms w)) as [| [|]]; cbn; auto. }
    assert (RR : forall j, replaced (nth j (r_ms w ++ [mkRM dep label [] 0 0]) noRM) -> j < List.length (r_ms w)).
    { intros j RE. destruct (Nat.lt_ge_cases j (List.length (r_ms w))) as [|Q]; auto. exfalso.
      destruct (NEW j Q) as [H | H]; rewrite H in RE; destruct RE as (RE & _); cbn in RE; lia. }
    destruct V as [A B C D E F G J K M O]. constructor; unfold mach, worker in *; cbn [r_p r_ms r_ws] in *; auto.
    + intros j m TT. rewrite app_length. cbn. specialize (C j m TT). lia.
    + intros j m v TT. rewrite MM; [exact (D j m v TT)|]. apply (C j). rewrite TT. reflexivity.
    + intros j m TT IN. rewrite MM; [exact (E j m TT IN)|]. apply (C j m TT).
    + intros m. destruct (Nat.lt_ge_cases m (List.length (r_ms w))) as [Q | Q]; [rewrite MM by exact Q; exact (F m)|].
      destruct (NEW m Q) as [H | H]; rewrite H; cbn; lia.
    + intros j m v TT VV. rewrite MM; [exact (G j m v TT VV)|]. apply (C j m TT).
    + intros m RE. pose proof (RR _ RE) as Q. rewrite MM in RE |- * by exact Q. exact (J m RE).
    + intros j m TT. rewrite MM; [exact (K j m TT)|]. apply (C j). rewrite TT. reflexivity.
    + intros j m v m' TT SAME RE. pose proof (RR _ RE) as Q. rewrite (MM m' Q) in SAME, RE.
      rewrite MM in SAME by (apply (C j); rewrite TT; reflexivity). exact (M j m v m' TT SAME RE).
    + intros m m' n R1 R2. pose proof (RR _ R1) as Q1. pose proof (RR _ R2) as Q2. rewrite (MM m Q1) in R1 |- *. rewrite (MM m' Q2) in R2 |- *. exact (O m m' n R1 R2).
  - (* the cache sees *)
    destruct (Nat.ltb_spec (rm_seen (mach w m)) (List.length (rm_hist (mach w m)))) as [LT | LT]; [|exact V].
    assert (LM : m < List.length (r_ms w)).
    { destruct (Nat.lt_ge_cases m (List.length (r_ms w))); auto. rewrite noRM_not in LT by assumption. cbn in LT. lia. }
    set (x := mach w m) in *. set (x' := mkRM (rm_dep x) (rm_name x) (rm_hist x) (S (rm_seen x)) (rm_mark x)) in *.
    assert (MM : forall j, mach (setM w m x') j = if Nat.eqb m j then x' else mach w j) by (intros j; apply mach_setM; exact LM).
    assert (SAMEH : forall j, rm_hist (mach (setM w m x') j) = rm_hist (mach w j) /\ rm_mark (mach (setM w m x') j) = rm_mark (mach w j) /\ rm_md (mach (setM w m x') j) = rm_md (mach w j)).
    { intros j. rewrite MM. destruct (Nat.eqb_spec m j) as [<- |]; split; [|split| |split]; reflexivity. }
    assert (MN : forall j, rm_name (mach (setM w m x') j) = rm_name (mach w j)).
    { intros j. rewrite MM. destruct (Nat.eqb_spec m j) as [<- |]; reflexivity. }
    assert (RR : forall j, replaced (mach (setM w m x') j) -> replaced (mach w j)).
    { intros j. rewrite MM. destruct (Nat.eqb_spec m j) as [<- |]; auto. }
    assert (PH : forall j u, phaseAt (mach (setM w m x') j) u = phaseAt (mach w j) u).
    { intros j u. unfold phaseAt. destruct (SAMEH j) as (-> & _). reflexivity. }
    assert (SG : forall j, rm_seen (mach w j) <= rm_seen (mach (setM w m x') j)).
    { intros j. rewrite MM. destruct (Nat.eqb_spec m j) as [<- |]; [cbn; fold x; lia | lia]. }
    destruct V as [A B C D E F G J K M O].
    constructor; try exact A; try exact B.
    + intros j m' TT. cbn [setM r_ms]. rewrite upd_length. exact (C j m' TT).
    + intros j m' v' TT. destruct (SAMEH m') as (_ & _ & ->). exact (D j m' v' TT).
    + intros j m' TT IN. destruct (SAMEH m') as (_ & _ & ->). exact (E j m' TT IN).
    + intros m'. destruct (F m') as (F1 & F2). destruct (SAMEH m') as (-> & -> & _). split; [|exact F2]. rewrite MM.
      destruct (Nat.eqb_spec m m') as [<- |]; [|exact F1]. cbn [x' rm_seen]. fold x. lia.
    + intros j m' v' TT VV. destruct (G j m' v' TT VV) as (G1 & G2). rewrite PH. split; [|exact G2]. specialize (SG m'). lia.
    + intros m' RE. destruct (SAMEH m') as (_ & -> & _). destruct (J m' (RR _ RE)) as [Q | Q]; [left; specialize (SG m'); lia | right; exact Q].
    + intros j m' TT. destruct (K j m' TT) as (K1 & K2). destruct (SAMEH m') as (_ & -> & _). split; [exact K1|].
      destruct K2 as [K2 | (K2 & K3)]; [left; specialize (SG m'); lia|].
      rewrite PH, MM. destruct (Nat.eqb_spec m m') as [<- |]; [|right; split; assumption]. left. cbn [x' rm_seen]. fold x in K2 |- *. lia.
    + intros j m' v' m'' TT. destruct (SAMEH m') as (_ & _ & ->). rewrite MN. intros SAME RE. exact (M j m' v' m'' TT SAME (RR _ RE)).
    + intros m1 m2 n R1 R2. rewrite !MN. exact (O m1 m2 n (RR _ R1) (RR _ R2)).
Qed.

Lemma nth_repeat_idle i n : nth i (repeat WIdle n) WIdle = WIdle.
Proof. revert i. induction n; destruct i; cbn; auto. Qed.

Lemma inv_rinit now n : RInv (rinit now n).
Proof.
  assert (W : forall i, worker (rinit now n) i = WIdle) by (intros; apply nth_repeat_idle).
  assert (M : forall m, mach (rinit now n) m = noRM) by (intros [|m]; reflexivity).
  constructor.
  - apply inv_pinit.
  - cbn. rewrite !repeat_length. reflexivity.
  - intros i m. rewrite W. discriminate.
  - intros i m v. rewrite W. discriminate.
  - intros i m. rewrite W. discriminate.
  - intros m. rewrite M. cbn. lia.
  - intros i m v. rewrite W. discriminate.
  - intros m. rewrite M. intros RE. destruct (not_replaced_none RE).
  - intros i m. rewrite W. discriminate.
  - intros i m v m'. rewrite W. discriminate.
  - intros m m' nm. rewrite M. intros RE. destruct (not_replaced_none RE).
Qed.

Lemma inv_rrun stale : forall ops w, RInv w -> prompt_run stale w ops -> RInv (rrun stale w ops).
Proof.
  induction ops as [| op ops IH]; intros w V P; [exact V|]. destruct P as (P1 & P2).
  apply (IH (rstep stale w op)); auto. apply inv_rstep; auto.
Qed.
