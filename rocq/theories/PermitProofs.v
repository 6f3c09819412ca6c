(** Proofs about permits. *)
Require Import Coq.ZArith.ZArith Coq.Lists.List Coq.Strings.String Coq.Bool.Bool Coq.Arith.PeanoNat Coq.micromega.Lia.
From Verif Require Import PermitModel PermitSpec.
Import ListNotations.
Open Scope string_scope.
Open Scope list_scope.
Open Scope nat_scope.

Definition b2n (b : bool) : nat := if b then 1 else 0.
Definition cnt {A} (f : A -> bool) (l : list A) : nat := List.length (filter f l).

Lemma cnt_upd {A} (f : A -> bool) : forall l i (x d : A), i < List.length l ->
  cnt f (upd l i x) + b2n (f (nth i l d)) = cnt f l + b2n (f x).
Proof.
  unfold cnt. induction l as [| y l IH]; intros i x d H; cbn in H; [lia|]. destruct i; cbn [upd nth filter].
  - destruct (f x), (f y); cbn; lia.
  - specialize (IH i x d ltac:(lia)). destruct (f y); cbn in *; lia.
Qed.
Lemma upd_length {A} : forall (l : list A) i x, List.length (upd l i x) = List.length l.
Proof. induction l; intros [|i] x; cbn; auto. Qed.
Lemma nth_upd {A} : forall (l : list A) i j x d, i < List.length l -> nth j (upd l i x) d = if Nat.eqb i j then x else nth j l d.
Proof.
  induction l as [| y l IH]; intros i j x d H; cbn in H; [lia|]. destruct i, j; cbn; auto. apply IH. lia.
Qed.
Lemma upd_out {A} : forall (l : list A) i x, List.length l <= i -> upd l i x = l.
Proof. induction l as [| y l IH]; intros [|i] x H; cbn in *; auto; [lia|]. f_equal. apply IH. lia. Qed.
Lemma in_upd {A} : forall (l : list A) i x y, In y (upd l i x) -> y = x \/ In y l.
Proof.
  induction l as [| z l IH]; intros [|i] x y H; cbn in *; auto; destruct H as [H | H]; auto.
  destruct (IH _ _ _ H); auto.
Qed.

(** A permit taken from a channel. *)
Definition takes (ch : nat) (t : TS) : bool :=
  match t with Holding _ c | Releasing _ c => Nat.eqb ch c | _ => false end.

(** What a goroutine uses is what the map holds. *)
Definition linked (m : list (string * (nat * Z))) (t : TS) : Prop :=
  match t with
  | Waiting k ch | Holding k ch | Releasing k ch => exists z, lookup k m = Some (ch, z)
  | Idle => True
  | _ => False
  end.

Record PInv (n : string -> nat) (w : PW) : Prop := {
  q_map : forall k ch z, lookup k (p_map w) = Some (ch, z) -> ch < List.length (p_chans w) /\ c_key (chan w ch) = k;
  q_chan : forall ch, ch < List.length (p_chans w) ->
    c_closed (chan w ch) = false /\ c_cap (chan w ch) = n (c_key (chan w ch)) /\ c_len (chan w ch) <= c_cap (chan w ch) /\
    c_len (chan w ch) = cnt (takes ch) (p_threads w);
  q_thr : forall t, In t (p_threads w) -> linked (p_map w) t;
  q_ok : p_panic w = false;
  q_run : p_stop w = false }.

Lemma thread_in w i : i < List.length (p_threads w) -> In (thread w i) (p_threads w).
Proof. intros H. apply nth_In, H. Qed.
Lemma thread_lt w i : thread w i <> Idle -> i < List.length (p_threads w).
Proof. intros H. destruct (Nat.lt_ge_cases i (List.length (p_threads w))); auto. exfalso. apply H. apply nth_overflow. assumption. Qed.

Lemma lookup_remove k k' m : lookup k (remove k' m) = if String.eqb k k' then None else lookup k m.
Proof.
  unfold remove. induction m as [| (a & v) m IH]; cbn [filter lookup fst]; [destruct (String.eqb k k'); reflexivity|].
  destruct (String.eqb_spec k' a) as [-> | NE]; cbn [negb].
  - rewrite IH. destruct (String.eqb_spec k a); reflexivity.
  - cbn [lookup]. destruct (String.eqb_spec k a) as [-> | N2].
    + destruct (String.eqb_spec a k'); [congruence | reflexivity].
    + exact IH.
Qed.

(** A goroutine changes its state without touching a channel. *)
Lemma inv_thread n w i t : PInv n w -> i < List.length (p_threads w) -> linked (p_map w) t ->
  (forall ch, takes ch t = takes ch (thread w i)) -> PInv n (setThread w i t).
Proof.
  intros [A B C D E] L K T. constructor; cbn [setThread setChan setMap setJan p_map p_chans p_threads p_panic p_stop]; auto.
  - intros ch H. destruct (B ch H) as (B1 & B2 & B3 & B4). split; [exact B1|]. split; [exact B2|]. split; [exact B3|].
    change (chan (setThread w i t) ch) with (chan w ch). rewrite B4. unfold thread in T.
    pose proof (cnt_upd (takes ch) (p_threads w) i t Idle L) as Q. rewrite T in Q. lia.
  - intros t' I0. destruct (in_upd _ _ _ _ I0) as [-> | I1]; auto.
Qed.

(** A goroutine takes a permit or gives it back. *)
Lemma inv_both n w i t ch len : PInv n w -> i < List.length (p_threads w) -> linked (p_map w) t -> ch < List.length (p_chans w) ->
  len <= c_cap (chan w ch) -> 
  (forall c, c <> ch -> takes c t = takes c (thread w i)) ->
  len + b2n (takes ch (thread w i)) = c_len (chan w ch) + b2n (takes ch t) ->
  PInv n (setThread (setChan w ch (withLen (chan w ch) len)) i t).
Proof.
  intros [A B C D E] L K LC CAP T Q.
  assert (CH : forall c, chan (setThread (setChan w ch (withLen (chan w ch) len)) i t) c = if Nat.eqb ch c then withLen (chan w ch) len else chan w c).
  { intros c. unfold chan. cbn [setThread setChan p_chans]. apply nth_upd. exact LC. }
  constructor; cbn [setThread setChan setMap setJan p_map p_chans p_threads p_panic p_stop]; auto.
  - intros k c z H. rewrite upd_length. destruct (A k c z H) as (A1 & A2). split; [exact A1|]. rewrite CH.
    destruct (Nat.eqb_spec ch c) as [-> |]; exact A2.
  - intros c H. rewrite upd_length in H. rewrite CH. destruct (B c H) as (B1 & B2 & B3 & B4).
    pose proof (cnt_upd (takes c) (p_threads w) i t Idle L) as QQ. fold (thread w i) in QQ.
    destruct (Nat.eqb_spec ch c) as [-> | NE]; cbn [c_closed c_cap c_len c_key withLen].
    + repeat (split; [assumption|]). rewrite B4 in Q. lia.
    + repeat (split; [assumption|]). rewrite (T c (not_eq_sym NE)) in QQ. lia.
  - intros t' I0. destruct (in_upd _ _ _ _ I0) as [-> | I1]; auto.
Qed.

Lemma takes_le ch t l : In t l -> takes ch t = true -> 1 <= cnt (takes ch) l.
Proof. intros I0 T. unfold cnt. induction l; [destruct I0|]. cbn. destruct I0 as [-> | I0]; [rewrite T; cbn; lia|]. specialize (IHl I0). destruct (takes ch a); cbn; lia. Qed.

Lemma inv_pstep n stale w op : PInv n w -> registers n op -> calm w op -> PInv n (pstep stale w op).
Proof.
  intros V R CA. pose proof (q_ok _ _ V) as OK. pose proof (q_run _ _ V) as RUN. unfold pstep. rewrite OK.
  destruct op; cbn in R, CA; rewrite ?RUN.
  - (* register *) destruct (lookup k (p_map w)) as [e|] eqn:LK; [exact V|]. destruct V as [A B C D E]. subst n0.
    constructor; cbn [setThread setChan setMap setJan p_map p_chans p_threads p_panic p_stop]; auto.
    + intros k' ch z H. cbn [lookup] in H. rewrite app_length; cbn [List.length]. unfold chan; cbn [p_chans]. destruct (String.eqb_spec k' k) as [-> |].
      * injection H as <- <-. split; [lia|]. rewrite app_nth2, Nat.sub_diag by lia. reflexivity.
      * destruct (A _ _ _ H) as (A1 & A2). split; [lia|]. rewrite app_nth1 by exact A1. exact A2.
    + intros ch H. rewrite app_length in H; cbn in H. unfold chan; cbn [p_chans].
      destruct (Nat.eq_dec ch (List.length (p_chans w))) as [-> | NE].
      * rewrite app_nth2, Nat.sub_diag by lia. cbn. split; [reflexivity|]. split; [reflexivity|]. split; [lia|].
        (* nobody uses the new channel *)
        symmetry. unfold cnt. replace (filter (takes (List.length (p_chans w))) (p_threads w)) with (@nil TS); [reflexivity|].
        symmetry. clear -A C. induction (p_threads w) as [| t l IH]; [reflexivity|].
        cbn. assert (takes (List.length (p_chans w)) t = false) as ->.
        { specialize (C t (or_introl eq_refl)). destruct t; cbn in C |- *; auto; destruct C as (z & C);
          destruct (A _ _ _ C) as (A1 & _); apply Nat.eqb_neq; lia. }
        apply IH. intros t' I0. apply C. right. exact I0.
      * rewrite app_nth1 by lia. apply B. lia.
    + intros t I0. specialize (C t I0). destruct t; cbn [linked lookup] in C |- *; auto; destruct C as (z & C); exists z;
      match goal with |- context [String.eqb ?a k] => destruct (String.eqb_spec a k) as [-> |]; [congruence | exact C] end.
  - (* try *) destruct (thread w i) eqn:T; try exact V. destruct (lookup k (p_map w)) as [(ch & z) |] eqn:LK; [|exact V].
    destruct (Nat.lt_ge_cases i (List.length (p_threads w))) as [L | L].
    + apply inv_thread; auto; [exists z; exact LK|]. intros c. rewrite T. reflexivity.
    + unfold setThread. rewrite upd_out by exact L. destruct V as [A B C D E]; constructor; [exact A | exact B | exact C | first [exact D | exact OK] | first [exact E | exact RUN] ].
  - (* send *) destruct (thread w i) eqn:T; try exact V.
    assert (L : i < List.length (p_threads w)) by (apply thread_lt; congruence).
    pose proof (q_thr _ _ V _ (thread_in _ _ L)) as K. rewrite T in K. cbn in K. destruct K as (z & K).
    destruct (q_map _ _ V _ _ _ K) as (M1 & M2). destruct (q_chan _ _ V _ M1) as (B1 & B2 & B3 & B4).
    rewrite B1. destruct (Nat.ltb_spec (c_len (chan w ch)) (c_cap (chan w ch))); [|exact V].
    apply inv_both; auto.
    + exists z. exact K.
    + intros c NE. rewrite T. cbn. apply Nat.eqb_neq. exact NE.
    + rewrite T. cbn. rewrite Nat.eqb_refl. cbn. lia.
  - (* timeout *) destruct (thread w i) eqn:T; try exact V.
    apply inv_thread; [exact V | apply thread_lt; congruence | exact I | intros c; rewrite T; reflexivity].
  - destruct (thread w i) eqn:T; try exact V.
  - (* release *) destruct (thread w i) eqn:T; try exact V.
    assert (L : i < List.length (p_threads w)) by (apply thread_lt; congruence).
    pose proof (q_thr _ _ V _ (thread_in _ _ L)) as K. rewrite T in K. cbn in K. destruct K as (z & K). rewrite K.
    apply inv_thread; auto; [exists z; exact K|]. intros c. rewrite T. reflexivity.
  - (* receive *) destruct (thread w i) eqn:T; try exact V.
    assert (L : i < List.length (p_threads w)) by (apply thread_lt; congruence).
    pose proof (q_thr _ _ V _ (thread_in _ _ L)) as K. rewrite T in K. cbn in K. destruct K as (z & K).
    destruct (q_map _ _ V _ _ _ K) as (M1 & M2). destruct (q_chan _ _ V _ M1) as (B1 & B2 & B3 & B4).
    assert (POS : 1 <= c_len (chan w ch)).
    { rewrite B4. apply (takes_le ch (thread w i)); [apply thread_in, L|]. rewrite T. cbn. apply Nat.eqb_refl. }
    apply inv_both; [exact V | exact L | exact I | exact M1 | lia | |].
    + intros c NE. rewrite T. cbn. symmetry. apply Nat.eqb_neq. exact NE.
    + rewrite T. cbn. rewrite Nat.eqb_refl. cbn. lia.
  - (* check *) destruct (p_jan w); [exact V|]. destruct (lookup k (p_map w)) as [(ch & z) |]; [|exact V].
    destruct (_ && _); [|exact V]. destruct V as [A B C D E]; constructor; [exact A | exact B | exact C | first [exact D | exact OK] | first [exact E | exact RUN] ].
  - (* clean *) destruct (p_jan w) as [k|] eqn:J; [|exact V]. destruct V as [A B C D E]. constructor; cbn [setThread setChan setMap setJan p_map p_chans p_threads p_panic p_stop]; auto.
    + intros k' ch z H. rewrite lookup_remove in H. destruct (String.eqb k' k); [discriminate|]. apply (A k' ch z H).
    + intros t I0. specialize (C t I0).
      assert (U : uses k t = false). { unfold busy in CA. destruct (uses k t) eqn:U; [|reflexivity].
        assert (existsb (uses k) (p_threads w) = true) by (apply existsb_exists; eauto). congruence. }
      destruct t; cbn in *; auto; destruct C as (z & C); exists z; rewrite lookup_remove, String.eqb_sym, U; exact C.
  - destruct CA.
  - (* there are no deletions *) destruct (thread w i) eqn:T; try exact V. exfalso.
    pose proof (q_thr _ _ V _ (thread_in _ _ (thread_lt w i ltac:(congruence)))) as K. rewrite T in K. exact K.
  - destruct (thread w i) eqn:T; try exact V. exfalso.
    pose proof (q_thr _ _ V _ (thread_in _ _ (thread_lt w i ltac:(congruence)))) as K. rewrite T in K. exact K.
  - destruct CA.
  - destruct V as [A B C D E]; constructor; [exact A | exact B | exact C | first [exact D | reflexivity] | first [exact E | reflexivity] ].
Qed.

Lemma inv_pinit n now workers : PInv n (pinit now workers).
Proof.
  constructor; cbn; auto; try discriminate; try (intros; lia).
  intros t I0. apply repeat_spec in I0. subst t. exact I.
Qed.

Lemma inv_prun n stale : forall ops w, PInv n w -> Forall (registers n) ops -> calm_run stale w ops -> PInv n (prun stale w ops).
Proof.
  induction ops as [| op ops IH]; intros w V R C; [exact V|]. inversion R; subst. destruct C as (C1 & C2).
  apply (IH (pstep stale w op)); auto. apply inv_pstep; auto.
Qed.

Lemma cnt_le {A} (f g : A -> bool) l : (forall x, In x l -> f x = true -> g x = true) -> cnt f l <= cnt g l.
Proof.
  intros H. unfold cnt. induction l as [| x l IH]; [auto|]. assert (IH' : cnt f l <= cnt g l) by (apply IH; intros; apply H; auto; right; auto).
  unfold cnt in IH'. cbn. destruct (f x) eqn:F; [rewrite (H x (or_introl eq_refl) F); cbn; lia|]. destruct (g x); cbn; lia.
Qed.

Lemma exclusive n w k : PInv n w -> holders k w <= n k.
Proof.
  intros V. unfold holders.
  destruct (lookup k (p_map w)) as [(ch & z) |] eqn:LK.
  - destruct (q_map _ _ V _ _ _ LK) as (M1 & M2). destruct (q_chan _ _ V _ M1) as (_ & B2 & B3 & B4). rewrite M2 in B2.
    apply (Nat.le_trans _ (cnt (takes ch) (p_threads w))); [|lia].
    apply cnt_le. intros t I0 H. destruct t; try discriminate. cbn in H. apply String.eqb_eq in H. subst k0.
    pose proof (q_thr _ _ V _ I0) as (z' & K). rewrite LK in K. injection K as -> _. cbn. apply Nat.eqb_refl.
  - replace (filter (holds k) (p_threads w)) with (@nil TS); [cbn; lia|]. symmetry.
    pose proof (q_thr _ _ V) as C. induction (p_threads w) as [| t l IH]; [reflexivity|]. cbn.
    assert (holds k t = false) as ->.
    { specialize (C t (or_introl eq_refl)). destruct t; auto. cbn in *. destruct C as (z & C). destruct (String.eqb_spec k k0); [congruence | reflexivity]. }
    apply IH. intros; apply C; right; assumption.
Qed.

(** A waiting goroutine gets a permit as soon as fewer than [n] are out. *)
Lemma served n stale w i k ch : PInv n w -> thread w i = Waiting k ch ->
  cnt (fun t => match t with Holding k' _ | Releasing k' _ => String.eqb k k' | _ => false end) (p_threads w) < n k ->
  thread (pstep stale w (PSend i)) i = Holding k ch.
Proof.
  intros V T H. unfold pstep. rewrite (q_ok _ _ V), T.
  assert (L : i < List.length (p_threads w)) by (apply thread_lt; congruence).
  pose proof (q_thr _ _ V _ (thread_in _ _ L)) as K. rewrite T in K. cbn in K. destruct K as (z & K).
  destruct (q_map _ _ V _ _ _ K) as (M1 & M2). destruct (q_chan _ _ V _ M1) as (B1 & B2 & B3 & B4). rewrite B1, B4, B2, M2.
  destruct (Nat.ltb_spec (cnt (takes ch) (p_threads w)) (n k)) as [Q | Q].
  - unfold thread, setThread, setChan; cbn [p_threads]. rewrite nth_upd, Nat.eqb_refl by exact L. reflexivity.
  - exfalso. apply Nat.lt_nge in H. apply H. apply (Nat.le_trans _ _ _ Q). apply cnt_le. intros t I0 E.
    pose proof (q_thr _ _ V _ I0) as KK.
    destruct t; cbn in E; try discriminate; apply Nat.eqb_eq in E; subst ch0; cbn in KK; destruct KK as (z' & KK);
    destruct (q_map _ _ V _ _ _ KK) as (_ & M3); apply String.eqb_eq; congruence.
Qed.

(** Giving back takes one holder away and one value out of the channel of the key. *)
Lemma released n stale w i k ch : PInv n w -> thread w i = Holding k ch ->
  let w1 := pstep stale w (PRelease i) in
  let w2 := pstep stale w1 (PRecv i) in
  thread w2 i = Idle /\ S (holders k w2) = holders k w /\ S (c_len (chan w2 ch)) = c_len (chan w ch) /\
  (forall k', k' <> k -> holders k' w2 = holders k' w) /\ (forall c, c <> ch -> chan w2 c = chan w c) /\ p_map w2 = p_map w.
Proof.
  intros V T. cbv zeta.
  assert (L : i < List.length (p_threads w)) by (apply thread_lt; congruence).
  pose proof (q_thr _ _ V _ (thread_in _ _ L)) as K. rewrite T in K. cbn in K. destruct K as (z & K).
  destruct (q_map _ _ V _ _ _ K) as (M1 & M2). destruct (q_chan _ _ V _ M1) as (B1 & B2 & B3 & B4).
  assert (POS : 1 <= c_len (chan w ch)).
  { rewrite B4. apply (takes_le ch (thread w i)); [apply thread_in, L|]. rewrite T. cbn. apply Nat.eqb_refl. }
  assert (E1 : pstep stale w (PRelease i) = setThread w i (Releasing k ch)).
  { unfold pstep. rewrite (q_ok _ _ V), T, K. reflexivity. }
  rewrite E1.
  assert (T1 : thread (setThread w i (Releasing k ch)) i = Releasing k ch).
  { unfold thread, setThread; cbn [p_threads]. rewrite nth_upd, Nat.eqb_refl by exact L. reflexivity. }
  assert (E2 : pstep stale (setThread w i (Releasing k ch)) (PRecv i) =
    setThread (setChan (setThread w i (Releasing k ch)) ch (withLen (chan w ch) (Nat.pred (c_len (chan w ch))))) i Idle).
  { unfold pstep. rewrite T1. change (p_panic (setThread w i (Releasing k ch))) with (p_panic w). rewrite (q_ok _ _ V). reflexivity. }
  rewrite E2.
  assert (CH : forall c, chan (setThread (setChan (setThread w i (Releasing k ch)) ch (withLen (chan w ch) (Nat.pred (c_len (chan w ch))))) i Idle) c
    = if Nat.eqb ch c then withLen (chan w ch) (Nat.pred (c_len (chan w ch))) else chan w c).
  { intros c. unfold chan. cbn [setThread setChan p_chans]. apply nth_upd. exact M1. }
  assert (HO : forall k', holders k' (setThread (setChan (setThread w i (Releasing k ch)) ch (withLen (chan w ch) (Nat.pred (c_len (chan w ch))))) i Idle)
     + b2n (String.eqb k' k) = holders k' w).
  { intros k'. unfold holders. cbn [setThread setChan p_threads].
    pose proof (cnt_upd (holds k') (p_threads w) i (Releasing k ch) Idle L) as Q1.
    pose proof (cnt_upd (holds k') (upd (p_threads w) i (Releasing k ch)) i Idle Idle ltac:(rewrite upd_length; exact L)) as Q2.
    rewrite nth_upd, Nat.eqb_refl in Q2 by exact L. fold (thread w i) in Q1. rewrite T in Q1. unfold cnt in *. cbn [holds b2n] in *. lia. }
  split; [|split; [|split; [|split; [|split] ] ] ].
  - unfold thread, setThread, setChan; cbn [p_threads]. rewrite nth_upd, Nat.eqb_refl by (rewrite upd_length; exact L). reflexivity.
  - specialize (HO k). rewrite String.eqb_refl in HO. cbn [b2n] in HO. lia.
  - rewrite CH, Nat.eqb_refl. cbn [withLen c_len]. lia.
  - intros k' NE. specialize (HO k'). destruct (String.eqb_spec k' k); [contradiction|]. cbn [b2n] in HO. lia.
  - intros c NE. rewrite CH. destruct (Nat.eqb_spec ch c); [congruence | reflexivity].
  - reflexivity.
Qed.

(** The clean-up picks only keys for which nobody holds a permit. *)
Lemma picks_unheld n stale w k : PInv n w -> p_jan w = None -> p_jan (pstep stale w (PCheck k)) = Some k ->
  holders k w = 0.
Proof.
  intros V J. unfold pstep. rewrite (q_ok _ _ V), J. destruct (lookup k (p_map w)) as [(ch & z) |] eqn:LK; [|congruence].
  destruct (Nat.eqb_spec (c_len (chan w ch)) 0) as [Z0 | Z0]; [|rewrite andb_false_r; congruence]. intros _.
  destruct (q_map _ _ V _ _ _ LK) as (M1 & M2). destruct (q_chan _ _ V _ M1) as (_ & _ & _ & B4). rewrite Z0 in B4.
  unfold holders. assert (cnt (holds k) (p_threads w) <= cnt (takes ch) (p_threads w)); [|unfold cnt in *; lia].
  apply cnt_le. intros t I0 H. destruct t; try discriminate. cbn in H. apply String.eqb_eq in H. subst k0.
  pose proof (q_thr _ _ V _ I0) as (z' & K). rewrite LK in K. injection K as -> _. cbn. apply Nat.eqb_refl.
Qed.

(** Entries are not removed before they are stale. *)
Record Aged (stale : Z) (w : PW) : Prop := {
  g_jan : forall k, p_jan w = Some k -> exists ch t, lookup k (p_map w) = Some (ch, t) /\ (t + stale < p_now w)%Z;
  g_thr : forall t, In t (p_threads w) -> match t with Deleting _ _ | Removing _ => False | _ => True end }.

Lemma aged_thread stale w i t : Aged stale w -> match t with Deleting _ _ | Removing _ => False | _ => True end -> Aged stale (setThread w i t).
Proof.
  intros [A B] H. constructor; [exact A|]. intros t' I0. cbn [setThread p_threads] in I0.
  destruct (in_upd _ _ _ _ I0) as [-> | I1]; [exact H | exact (B _ I1)].
Qed.
Lemma aged_chan stale w ch c : Aged stale w -> Aged stale (setChan w ch c).
Proof. intros [A B]. constructor; assumption. Qed.
Lemma aged_panicked stale w : Aged stale w -> Aged stale (panicked w).
Proof. intros [A B]. constructor; assumption. Qed.
Lemma aged_doing stale w i : Aged stale w -> match thread w i with Deleting _ _ | Removing _ => False | _ => True end.
Proof.
  intros G. destruct (Nat.lt_ge_cases i (List.length (p_threads w))) as [L | L].
  - apply (g_thr _ _ G). apply thread_in, L.
  - unfold thread. rewrite nth_overflow by exact L. exact I.
Qed.

Lemma aged_step stale w op : Aged stale w -> undeleted op -> Aged stale (pstep stale w op).
Proof.
  intros G U. pose proof (fun i => aged_doing stale w i G) as D. unfold pstep. destruct (p_panic w); [exact G|].
  destruct op; cbn [undeleted] in U; try contradiction; try specialize (D i).
  - destruct (p_stop w); [exact G|]. destruct (lookup k (p_map w)) as [e|] eqn:LK; [exact G|]. destruct G as [A B]. constructor; [|exact B].
    intros k' J. cbn in J. destruct (A k' J) as (ch & t & L & T). exists ch, t. cbn [p_map lookup p_now]. split; [|exact T].
    destruct (String.eqb_spec k' k) as [-> |]; [congruence|exact L].
  - destruct (thread w i); auto. destruct (p_stop w); auto. destruct (lookup k (p_map w)) as [[ch z]|]; auto. apply aged_thread; [exact G|exact I].
  - destruct (thread w i); auto. destruct (c_closed _); [apply aged_panicked, G|]. destruct (Nat.ltb _ _); auto. apply aged_thread; [apply aged_chan, G|exact I].
  - destruct (thread w i); auto. apply aged_thread; [exact G|exact I].
  - destruct (thread w i); auto. destruct (p_stop w); auto. apply aged_thread; [exact G|exact I].
  - destruct (thread w i); auto. destruct (lookup k (p_map w)) as [[c z]|]; apply aged_thread; auto; exact I.
  - destruct (thread w i); auto. apply aged_thread; [apply aged_chan, G|exact I].
  - destruct (p_jan w) eqn:J; auto. destruct (lookup k (p_map w)) as [[ch z]|] eqn:LK; auto.
    destruct ((0 <? p_now w - stale - z)%Z && Nat.eqb (c_len (chan w ch)) 0) eqn:E; auto. destruct G as [A B]. constructor; [|exact B].
    cbn [setJan p_jan p_map p_now]. intros k' Q. injection Q as <-. exists ch, z. split; [exact LK|]. lia.
  - destruct (p_jan w) eqn:J; auto. destruct G as [A B]. constructor; [|exact B]. cbn [setJan setMap p_jan]. discriminate.
  - destruct (thread w i) eqn:T; auto. contradiction.
  - destruct (thread w i) eqn:T; auto. contradiction.
  - destruct (p_stop w); [apply aged_panicked, G|]. destruct (existsb _ _); [apply aged_panicked, G|]. destruct G as [A B]. constructor; assumption.
  - destruct G as [A B]. constructor; [|exact B]. cbn [p_jan p_map p_now]. intros k Q. destruct (A k Q) as (ch & t & L & T). exists ch, t. split; [exact L|]. lia.
Qed.
Lemma aged_run stale : forall ops w, Aged stale w -> Forall undeleted ops -> Aged stale (prun stale w ops).
Proof. induction ops as [|op r IH]; intros w G F; [exact G|]. inversion F; subst. cbn. apply IH; [apply aged_step|]; assumption. Qed.
Lemma aged_init stale now workers : Aged stale (pinit now workers).
Proof. constructor; cbn; [discriminate|]. intros t I0. apply repeat_spec in I0. subst t. exact I. Qed.

Lemma fresh_kept stale w op k ch t : Aged stale w -> undeleted op -> lookup k (p_map w) = Some (ch, t) -> (p_now w <= t + stale)%Z ->
  lookup k (p_map (pstep stale w op)) = Some (ch, t).
Proof.
  intros G U L T. pose proof (fun i => aged_doing stale w i G) as D. unfold pstep. destruct (p_panic w); [exact L|].
  destruct op; cbn [undeleted] in U; try contradiction; try specialize (D i).
  - destruct (p_stop w); [exact L|]. destruct (lookup k0 (p_map w)) as [e|] eqn:LK; [exact L|]. cbn [p_map lookup].
    destruct (String.eqb_spec k k0) as [-> |]; [congruence|exact L].
  - destruct (thread w i); auto. destruct (p_stop w); auto. destruct (lookup k0 (p_map w)) as [[c z]|]; auto.
  - destruct (thread w i); auto. destruct (c_closed _); auto. destruct (Nat.ltb _ _); auto.
  - destruct (thread w i); auto.
  - destruct (thread w i); auto. destruct (p_stop w); auto.
  - destruct (thread w i); auto. destruct (lookup k0 (p_map w)) as [[c z]|]; auto.
  - destruct (thread w i); auto.
  - destruct (p_jan w) eqn:J; auto. destruct (lookup k0 (p_map w)) as [[c z]|] eqn:LK; auto. destruct (_ && _); auto.
  - destruct (p_jan w) as [k0|] eqn:J; auto. cbn [setJan setMap p_map]. rewrite lookup_remove. destruct (String.eqb_spec k k0) as [-> |]; [|exact L].
    exfalso. destruct (g_jan _ _ G _ J) as (c & z & L2 & T2). rewrite L in L2. injection L2 as <- <-. lia.
  - destruct (thread w i) eqn:TT; auto; destruct D.
  - destruct (thread w i) eqn:TT; auto. contradiction.
  - destruct (p_stop w); auto. destruct (existsb _ _); auto.
  - exact L.
Qed.

(** A closed giver. *)
Lemma closing_spec : forall m cs, (forall e, In e m -> fst (snd e) < List.length cs) ->
  let cs' := fold_left (fun cs (e : string * (nat * Z)) => upd cs (fst (snd e)) (closed (nth (fst (snd e)) cs (mkChan "" 0 0 false)))) m cs in
  List.length cs' = List.length cs /\
  (forall c, (nth c cs' (mkChan "" 0 0 false)) = nth c cs (mkChan "" 0 0 false) \/ nth c cs' (mkChan "" 0 0 false) = closed (nth c cs (mkChan "" 0 0 false))) /\
  (forall e, In e m -> c_closed (nth (fst (snd e)) cs' (mkChan "" 0 0 false)) = true) /\
  (forall c, ~ In c (map (fun e => fst (snd e)) m) -> nth c cs' (mkChan "" 0 0 false) = nth c cs (mkChan "" 0 0 false)).
Proof.
  induction m as [|e m IH]; intros cs B; cbn [fold_left]; [cbn; repeat split; auto; intros ? []|].
  assert (L0 : fst (snd e) < List.length cs) by (apply B; left; reflexivity).
  specialize (IH (upd cs (fst (snd e)) (closed (nth (fst (snd e)) cs (mkChan "" 0 0 false))))). cbv zeta in IH |- *.
  rewrite upd_length in IH. specialize (IH (fun x Hx => B x (or_intror Hx))). destruct IH as (I1 & I2 & I3 & I4).
  split; [exact I1|]. split.
  { intros c. destruct (I2 c) as [E | E]; rewrite E, (nth_upd _ _ _ _ _ L0); destruct (Nat.eqb_spec (fst (snd e)) c) as [<- |]; auto. }
  split.
  { intros x [<- | Hx]; [|apply I3, Hx]. destruct (I2 (fst (snd e))) as [E | E]; rewrite E, (nth_upd _ _ _ _ _ L0), Nat.eqb_refl; reflexivity. }
  intros c NI. cbn [map In] in NI. rewrite I4 by tauto. rewrite (nth_upd _ _ _ _ _ L0). destruct (Nat.eqb_spec (fst (snd e)) c) as [E |]; [tauto|reflexivity].
Qed.

Lemma stopped_step stale w op : p_stop w = true -> p_stop (pstep stale w op) = true /\
  (forall i, thread w i = Idle -> thread (pstep stale w op) i = Idle) /\
  (forall k, lookup k (p_map w) = None -> lookup k (p_map (pstep stale w op)) = None) /\
  (forall c, c_closed (chan w c) = true -> c_closed (chan (pstep stale w op) c) = true).
Proof.
  intros S. assert (TH : forall i j t, thread w i = Idle -> thread w j <> Idle -> nth i (upd (p_threads w) j t) Idle = Idle).
  { intros i j t A B. rewrite nth_upd by (apply thread_lt, B). destruct (Nat.eqb_spec j i) as [-> |]; [congruence|exact A]. }
  assert (CL : forall c ch x, c_closed (chan w c) = true -> c_closed x = c_closed (chan w ch) \/ c_closed x = true -> c_closed (nth c (upd (p_chans w) ch x) (mkChan "" 0 0 false)) = true).
  { intros c ch x A B. destruct (Nat.lt_ge_cases ch (List.length (p_chans w))) as [L | L].
    - rewrite nth_upd by exact L. destruct (Nat.eqb_spec ch c) as [-> |]; [destruct B; congruence|exact A].
    - rewrite upd_out by exact L. exact A. }
  unfold pstep. destruct (p_panic w); [auto|]. destruct op; rewrite ?S; auto.
  - destruct (thread w i); auto.
  - destruct (thread w i) eqn:T; auto. destruct (c_closed (chan w ch)) eqn:E; [auto|]. destruct (Nat.ltb _ _); auto.
    split; [exact S|]. split; [intros j J; apply TH; [exact J|congruence]|]. split; [auto|]. intros c H. apply CL; auto.
  - destruct (thread w i) eqn:T; auto. split; [exact S|]. split; [intros j J; apply TH; [exact J|congruence]|]. auto.
  - destruct (thread w i) eqn:T; auto. split; [exact S|]. split; [intros j J; apply TH; [exact J|congruence]|]. auto.
  - destruct (thread w i) eqn:T; auto. destruct (lookup k (p_map w)) as [[c z]|]; split; [exact S| |exact S|];
      (split; [intros j J; apply TH; [exact J|congruence]|]; auto).
  - destruct (thread w i) eqn:T; auto. split; [exact S|]. split; [intros j J; apply TH; [exact J|congruence]|]. split; [auto|]. intros c H. apply CL; auto.
  - destruct (p_jan w); auto. destruct (lookup k (p_map w)) as [[c z]|]; auto. destruct (_ && _); auto.
  - destruct (p_jan w) as [k0|]; auto. split; [exact S|]. split; [auto|]. split; [|auto]. intros k H. cbn. rewrite lookup_remove. destruct (String.eqb k k0); auto.
  - destruct (thread w i); auto.
  - destruct (thread w i) eqn:T; auto. destruct (c_closed (chan w ch)) eqn:E; [auto|].
    split; [exact S|]. split; [intros j J; apply TH; [exact J|congruence]|]. split; [auto|]. intros c H. apply CL; auto.
  - destruct (thread w i) eqn:T; auto. split; [exact S|]. split; [intros j J; apply TH; [exact J|congruence]|]. split; [|auto].
    intros k0 H. cbn. rewrite lookup_remove. destruct (String.eqb k0 k); auto.
Qed.
Lemma stopped_run stale : forall ops w, p_stop w = true -> p_stop (prun stale w ops) = true /\
  (forall i, thread w i = Idle -> thread (prun stale w ops) i = Idle) /\
  (forall k, lookup k (p_map w) = None -> lookup k (p_map (prun stale w ops)) = None) /\
  (forall c, c_closed (chan w c) = true -> c_closed (chan (prun stale w ops) c) = true).
Proof.
  induction ops as [|op r IH]; intros w S; [cbn; auto|]. cbn [prun fold_left]. destruct (stopped_step stale w op S) as (A & B & C & D).
  destruct (IH _ A) as (E & F & G & H). unfold prun in *. repeat split; auto.
Qed.

Lemma lookup_in k : forall m ch t, lookup k m = Some (ch, t) -> In (k, (ch, t)) m.
Proof.
  induction m as [|(a & v) m IH]; intros ch t H; cbn in H; [discriminate|]. destruct (String.eqb_spec k a) as [-> |]; [injection H as ->; left; reflexivity|].
  right. apply IH, H.
Qed.

(** Entries of the map are unique, so each is found by its key. *)
Definition keyed (w : PW) : Prop := NoDup (map fst (p_map w)).
Lemma nodup_filter_map {A B} (f : A -> B) (g : A -> bool) : forall l, NoDup (map f l) -> NoDup (map f (filter g l)).
Proof.
  induction l as [|x l IH]; cbn; intros H; [constructor|]. inversion H as [|? ? NI N]; subst. destruct (g x); cbn; [|auto].
  constructor; [|auto]. intros I0. apply NI. apply in_map_iff in I0. destruct I0 as (y & <- & Iy). apply filter_In in Iy. apply in_map. tauto.
Qed.
Lemma lookup_none k : forall m, lookup k m = None -> ~ In k (map fst m).
Proof.
  induction m as [|(a & v) m IH]; cbn; intros H; [auto|]. destruct (String.eqb_spec k a) as [-> |NE]; [discriminate|]. intros [-> | I0]; [congruence|]. exact (IH H I0).
Qed.
Lemma keyed_step stale w op : keyed w -> keyed (pstep stale w op).
Proof.
  unfold keyed, pstep. intros N. destruct (p_panic w); [exact N|].
  destruct op; [destruct (p_stop w); [exact N|]; destruct (lookup k (p_map w)) eqn:LK; [exact N|];
                cbn [p_map map fst]; constructor; [apply lookup_none; exact LK | exact N] | ..];
    repeat match goal with
           | |- NoDup (map fst (p_map (match ?x with _ => _ end))) => destruct x
           end; cbn [setThread setChan setMap setJan panicked p_map]; auto; apply nodup_filter_map; exact N.
Qed.
Lemma keyed_run stale : forall ops w, keyed w -> keyed (prun stale w ops).
Proof. induction ops as [|op r IH]; intros w N; [exact N|]. cbn. apply IH, keyed_step, N. Qed.
Lemma nodup_lookup k v : forall m, NoDup (map fst m) -> In (k, v) m -> lookup k m = Some v.
Proof.
  induction m as [|(a & u) m IH]; intros N H; [destruct H|]. cbn in N. inversion N as [|? ? NI N2]; subst. cbn. destruct H as [E | H].
  - injection E as -> ->. rewrite String.eqb_refl. reflexivity.
  - destruct (String.eqb_spec k a) as [-> |]; [|auto]. exfalso. apply NI. change a with (fst (a, v)). apply in_map, H.
Qed.

Lemma closed_well n stale w : PInv n w -> keyed w ->
  let w' := pstep stale w PClose in
  p_panic w' = false /\ p_stop w' = true /\ p_map w' = p_map w /\ p_threads w' = p_threads w /\
  (forall k ch t, lookup k (p_map w) = Some (ch, t) -> c_closed (chan w' ch) = true) /\
  (forall ch, (forall k t, lookup k (p_map w) <> Some (ch, t)) -> chan w' ch = chan w ch).
Proof.
  intros V N. cbv zeta. unfold pstep. rewrite (q_ok _ _ V), (q_run _ _ V).
  assert (B : forall e, In e (p_map w) -> fst (snd e) < List.length (p_chans w)).
  { intros (k & ch & t) H. apply (nodup_lookup _ _ _ N) in H. exact (proj1 (q_map _ _ V _ _ _ H)). }
  destruct (existsb _ (p_map w)) eqn:E.
  { exfalso. apply existsb_exists in E. destruct E as (e & I0 & C). rewrite (proj1 (q_chan _ _ V _ (B e I0))) in C. discriminate. }
  destruct (closing_spec (p_map w) (p_chans w) B) as (I1 & I2 & I3 & I4).
  cbn [p_panic p_stop p_map p_threads]. repeat split.
  - intros k ch t H. exact (I3 _ (lookup_in _ _ _ _ H)).
  - intros ch H. unfold chan; cbn [p_chans]. apply I4. intros I0. apply in_map_iff in I0. destruct I0 as ((k & c & t) & Q & I5). cbn in Q. subst c.
    exact (H k t (nodup_lookup _ _ _ N I5)).
Qed.

Lemma deleted_well n stale w i k ch t : PInv n w -> thread w i = Idle -> i < List.length (p_threads w) -> lookup k (p_map w) = Some (ch, t) ->
  let w' := prun stale w [PDelete i k; PDeleteClose i; PRemove i] in
  p_panic w' = false /\ thread w' i = Idle /\ lookup k (p_map w') = None /\ c_closed (chan w' ch) = true /\
  (forall k', k' <> k -> lookup k' (p_map w') = lookup k' (p_map w)) /\ (forall c, c <> ch -> chan w' c = chan w c) /\
  (forall j, j <> i -> thread w' j = thread w j).
Proof.
  intros V T L K. cbv zeta. destruct (q_map _ _ V _ _ _ K) as (LC & KC). destruct (q_chan _ _ V _ LC) as (OP & _).
  assert (S1 : pstep stale w (PDelete i k) = setThread w i (Deleting k ch)). { unfold pstep. rewrite (q_ok _ _ V), (q_run _ _ V), T, K. reflexivity. }
  cbn [prun fold_left]. rewrite S1.
  assert (T1 : thread (setThread w i (Deleting k ch)) i = Deleting k ch). { unfold thread; cbn. rewrite nth_upd by exact L. rewrite Nat.eqb_refl. reflexivity. }
  assert (S2 : pstep stale (setThread w i (Deleting k ch)) (PDeleteClose i) = setThread (setChan (setThread w i (Deleting k ch)) ch (closed (chan w ch))) i (Removing k)).
  { unfold pstep. cbn [p_panic setThread]. rewrite (q_ok _ _ V). fold (setThread w i (Deleting k ch)). rewrite T1.
    change (chan (setThread w i (Deleting k ch)) ch) with (chan w ch). rewrite OP. reflexivity. }
  rewrite S2. remember (setThread (setChan (setThread w i (Deleting k ch)) ch (closed (chan w ch))) i (Removing k)) as w2 eqn:E2.
  assert (T2 : thread w2 i = Removing k). { subst w2. unfold thread; cbn. rewrite nth_upd by (rewrite upd_length; exact L). rewrite Nat.eqb_refl. reflexivity. }
  assert (P2 : p_panic w2 = false) by (subst w2; exact (q_ok _ _ V)).
  assert (S3 : pstep stale w2 (PRemove i) = setThread (setMap w2 (remove k (p_map w2))) i Idle). { unfold pstep. rewrite P2, T2. reflexivity. }
  rewrite S3. assert (M2 : p_map w2 = p_map w) by (subst w2; reflexivity). assert (C2 : p_chans w2 = upd (p_chans w) ch (closed (chan w ch))) by (subst w2; reflexivity).
  assert (L2 : p_threads w2 = upd (upd (p_threads w) i (Deleting k ch)) i (Removing k)) by (subst w2; reflexivity).
  cbn [setThread setMap p_panic p_map]. rewrite M2. split; [exact P2|]. split.
  { unfold thread; cbn. rewrite L2, nth_upd by (rewrite !upd_length; exact L). rewrite Nat.eqb_refl. reflexivity. }
  split; [rewrite lookup_remove, String.eqb_refl; reflexivity|]. split.
  { unfold chan; cbn. rewrite C2, nth_upd by exact LC. rewrite Nat.eqb_refl. reflexivity. }
  split; [intros k' NE; rewrite lookup_remove; destruct (String.eqb_spec k' k); [congruence|reflexivity]|]. split.
  { intros c NE. unfold chan; cbn. rewrite C2, nth_upd by exact LC. destruct (Nat.eqb_spec ch c); [congruence|reflexivity]. }
  intros j NE. unfold thread; cbn. rewrite L2, !nth_upd by (rewrite ?upd_length; exact L). destruct (Nat.eqb_spec i j); [congruence|reflexivity].
Qed.

Lemma stale_picked stale w k ch t : p_panic w = false -> p_jan w = None -> lookup k (p_map w) = Some (ch, t) ->
  p_jan (pstep stale w (PCheck k)) = Some k <-> (t + stale < p_now w)%Z /\ c_len (chan w ch) = 0.
Proof.
  intros P J L. unfold pstep. rewrite P, J, L. destruct ((0 <? p_now w - stale - t)%Z && Nat.eqb (c_len (chan w ch)) 0) eqn:E.
  - cbn. apply andb_prop in E. destruct E as (E1 & E2). apply Nat.eqb_eq in E2. split; [intros _; split; [lia|exact E2]|reflexivity].
  - rewrite J. split; [discriminate|]. intros (A & B). rewrite B in E. cbn in E. rewrite andb_true_r in E. lia.
Qed.
