(** Proofs about edit distance and the suppression of status writes. *)
Require Import Coq.ZArith.ZArith Coq.Lists.List Coq.Strings.String Coq.Strings.Ascii Coq.Bool.Bool Coq.micromega.Lia Coq.Arith.Arith.
Require Import Coq.micromega.ZifyBool.
From Verif Require Import MachModel LevModel LevSpec.
Import ListNotations.
Open Scope list_scope.
Open Scope Z_scope.

(** ** distance of lists, recursive *)
Definition cost (a b : ascii) : Z := if Ascii.eqb a b then 0 else 1.

Fixpoint lev (s : list ascii) : list ascii -> Z :=
  fix go (t : list ascii) : Z :=
    match s, t with
    | [], _ => Z.of_nat (List.length t)
    | _, [] => Z.of_nat (List.length s)
    | a :: s', b :: t' => Z.min (Z.min (lev s' t + 1) (go t' + 1)) (lev s' t' + cost a b)
    end.

Lemma lev_nil_l : forall t, lev [] t = Z.of_nat (List.length t).
Proof. destruct t; reflexivity. Qed.
Lemma lev_nil_r : forall s, lev s [] = Z.of_nat (List.length s).
Proof. destruct s; reflexivity. Qed.
Lemma lev_cons : forall a s b t,
  lev (a :: s) (b :: t) = Z.min (Z.min (lev s (b :: t) + 1) (lev (a :: s) t + 1)) (lev s t + cost a b).
Proof. reflexivity. Qed.

Lemma lev_nonneg : forall s t, 0 <= lev s t.
Proof.
  induction s as [|a s IH]; intros t; [rewrite lev_nil_l; lia|].
  induction t as [|b t IHt]; [rewrite lev_nil_r; lia|].
  rewrite lev_cons. pose proof (IH (b :: t)). pose proof (IH t). unfold cost. destruct (Ascii.eqb a b); lia.
Qed.

Lemma lev_refl : forall s, lev s s = 0.
Proof.
  induction s as [|a s IH]; [reflexivity|].
  rewrite lev_cons, IH. unfold cost. rewrite Ascii.eqb_refl.
  pose proof (lev_nonneg s (a :: s)). pose proof (lev_nonneg (a :: s) s). lia.
Qed.

Lemma lev_sym : forall s t, lev s t = lev t s.
Proof.
  induction s as [|a s IH]; intros t; [rewrite lev_nil_l, lev_nil_r; reflexivity|].
  induction t as [|b t IHt]; [rewrite lev_nil_l, lev_nil_r; reflexivity|].
  rewrite !lev_cons, IH, IHt, (IH t). unfold cost. rewrite (Ascii.eqb_sym b a). lia.
Qed.

Lemma lev_del_l : forall a s t, lev (a :: s) t <= lev s t + 1.
Proof.
  intros a s [|b t]; [rewrite !lev_nil_r; cbn [List.length]; lia|].
  rewrite lev_cons. lia.
Qed.

Lemma lev_ins_l : forall a s t, lev s t <= lev (a :: s) t + 1.
Proof.
  intros a s t. revert s. induction t as [|b t IHt]; intros s; [rewrite !lev_nil_r; cbn [List.length]; lia|].
  rewrite lev_cons.
  (* lev s (b::t) <= lev (a::s) t + 1 + 1, lev s t + cost + 1 *)
  assert (D : lev s (b :: t) <= lev s t + 1).
  { rewrite lev_sym, (lev_sym s t). apply lev_del_l. }
  pose proof (IHt s). unfold cost. destruct (Ascii.eqb a b); lia.
Qed.

Lemma lev_del_r : forall b s t, lev s (b :: t) <= lev s t + 1.
Proof. intros. rewrite lev_sym, (lev_sym s t). apply lev_del_l. Qed.

Lemma lev_ins_r : forall b s t, lev s t <= lev s (b :: t) + 1.
Proof. intros. rewrite lev_sym, (lev_sym s (b :: t)). apply lev_ins_l. Qed.

(** one edit on the right changes the distance by at most one *)
Lemma lev_edit_ins : forall a c b s, lev s (a ++ c :: b) <= lev s (a ++ b) + 1.
Proof.
  induction a as [|x a IH]; intros c b s; cbn [app]; [apply lev_del_r|].
  induction s as [|y s IHs].
  - rewrite !lev_nil_l. cbn [List.length]. rewrite !app_length. cbn [List.length]. lia.
  - rewrite !lev_cons. pose proof (IH c b (y :: s)). pose proof (IH c b s). lia.
Qed.

Lemma lev_edit_del : forall a c b s, lev s (a ++ b) <= lev s (a ++ c :: b) + 1.
Proof.
  induction a as [|x a IH]; intros c b s; cbn [app]; [apply lev_ins_r|].
  induction s as [|y s IHs].
  - rewrite !lev_nil_l. cbn [List.length]. rewrite !app_length. cbn [List.length]. lia.
  - rewrite !lev_cons. pose proof (IH c b (y :: s)). pose proof (IH c b s). lia.
Qed.

Lemma lev_rep_head : forall c d b s, lev s (d :: b) <= lev s (c :: b) + 1.
Proof.
  induction s as [|y s IHs].
  - rewrite !lev_nil_l. cbn [List.length]. lia.
  - rewrite !lev_cons. unfold cost. destruct (Ascii.eqb y d), (Ascii.eqb y c); lia.
Qed.

Lemma lev_edit_rep : forall a c d b s, lev s (a ++ d :: b) <= lev s (a ++ c :: b) + 1.
Proof.
  induction a as [|x a IH]; intros c d b s; cbn [app]; [apply lev_rep_head|].
  induction s as [|y s IHs].
  - rewrite !lev_nil_l. cbn [List.length]. rewrite !app_length. cbn [List.length]. lia.
  - rewrite !lev_cons. pose proof (IH c d b (y :: s)). pose proof (IH c d b s). lia.
Qed.

Definition la := list_ascii_of_string.

Lemma la_app : forall a b, la (a ++ b)%string = la a ++ la b.
Proof. induction a; cbn; intros; [reflexivity | unfold la in *; rewrite IHa; reflexivity]. Qed.

Lemma lev_edit : forall s t u, edit t u -> lev (la s) (la u) <= lev (la s) (la t) + 1.
Proof.
  intros s t u E. destruct E; rewrite !la_app; cbn [la list_ascii_of_string].
  - apply lev_edit_ins.
  - apply lev_edit_del.
  - apply lev_edit_rep.
Qed.

Lemma lev_lower : forall n s t, edits n s t -> lev (la s) (la t) <= Z.of_nat n.
Proof.
  induction 1 as [|n s t u E IH Ed]; [rewrite lev_refl; lia|].
  pose proof (lev_edit s t u Ed). lia.
Qed.

(** ** the distance is reached *)
Lemma edits_trans : forall m t u, edits m t u -> forall n s, edits n s t -> edits (m + n) s u.
Proof.
  induction 1; intros; cbn; auto. econstructor; eauto.
Qed.

Lemma edit_cons : forall c s t, edit s t -> edit (String c s) (String c t).
Proof.
  intros c s t E. destruct E.
  - exact (e_ins (String c a) c0 b).
  - exact (e_del (String c a) c0 b).
  - exact (e_rep (String c a) c0 d b).
Qed.

Lemma edits_cons : forall c n s t, edits n s t -> edits n (String c s) (String c t).
Proof. induction 1; [constructor | econstructor; eauto using edit_cons]. Qed.

Definition sa := string_of_list_ascii.

Lemma reach_nil : forall t, edits (List.length t) EmptyString (sa t).
Proof.
  induction t as [|c t IH]; [constructor|].
  cbn. apply es_S with (t := sa t); auto. exact (e_ins EmptyString c (sa t)).
Qed.

Lemma reach_nil_r : forall s, edits (List.length s) (sa s) EmptyString.
Proof.
  induction s as [|c t IH]; [constructor|].
  cbn. replace (S (List.length t)) with (List.length t + 1)%nat by lia.
  apply edits_trans with (t := sa t); auto.
  econstructor; [constructor|]. exact (e_del EmptyString c (sa t)).
Qed.

Lemma reach : forall s t, edits (Z.to_nat (lev s t)) (sa s) (sa t).
Proof.
  induction s as [|a s IH]; intros t.
  - rewrite lev_nil_l, Nat2Z.id. apply reach_nil.
  - induction t as [|b t IHt].
    + rewrite lev_nil_r, Nat2Z.id. apply reach_nil_r.
    + rewrite lev_cons.
      pose proof (lev_nonneg s (b :: t)). pose proof (lev_nonneg (a :: s) t). pose proof (lev_nonneg s t).
      assert (C0 : 0 <= cost a b) by (unfold cost; destruct (Ascii.eqb a b); lia).
      assert (A1 : edits (Z.to_nat (lev s (b :: t) + 1)) (sa (a :: s)) (sa (b :: t))).
      { replace (Z.to_nat (lev s (b :: t) + 1)) with (Z.to_nat (lev s (b :: t)) + 1)%nat by lia.
        apply edits_trans with (t := sa s); [apply IH|].
        econstructor; [constructor|]. exact (e_del EmptyString a (sa s)). }
      assert (A2 : edits (Z.to_nat (lev (a :: s) t + 1)) (sa (a :: s)) (sa (b :: t))).
      { replace (Z.to_nat (lev (a :: s) t + 1)) with (S (Z.to_nat (lev (a :: s) t))) by lia.
        apply es_S with (t := sa t); [exact IHt|]. exact (e_ins EmptyString b (sa t)). }
      assert (A3 : edits (Z.to_nat (lev s t + cost a b)) (sa (a :: s)) (sa (b :: t))).
      { unfold cost. destruct (Ascii.eqb a b) eqn:E.
        - apply Ascii.eqb_eq in E. subst b. rewrite Z.add_0_r. cbn. apply edits_cons, IH.
        - replace (Z.to_nat (lev s t + 1)) with (S (Z.to_nat (lev s t))) by lia.
          apply es_S with (t := String a (sa t)); [cbn; apply edits_cons, IH|].
          exact (e_rep EmptyString a b (sa t)). }
      destruct (Z.min_spec (lev s (b :: t) + 1) (lev (a :: s) t + 1)) as [[_ ->] | [_ ->]];
      match goal with |- edits (Z.to_nat (Z.min ?x ?y)) _ _ => destruct (Z.min_spec x y) as [[_ ->] | [_ ->]] end; assumption.
Qed.

Lemma sa_la : forall s, sa (la s) = s.
Proof. apply string_of_list_ascii_of_string. Qed.

Lemma lev_distance : forall s t, distance s t (Z.to_nat (lev (la s) (la t))).
Proof.
  intros s t. split.
  - pose proof (reach (la s) (la t)). rewrite !sa_la in H. exact H.
  - intros m E. apply lev_lower in E. lia.
Qed.

(** ** reversal *)
Lemma edits_rev1 : forall s t, edit s t -> edit (sa (rev (la s))) (sa (rev (la t))).
Proof.
  assert (SA : forall a b, sa (a ++ b) = (sa a ++ sa b)%string)
    by (induction a; cbn; intros; [reflexivity | unfold sa in *; rewrite IHa; reflexivity]).
  intros s t E. destruct E; rewrite !la_app; cbn [la list_ascii_of_string]; rewrite !rev_app_distr; cbn [rev];
    rewrite <- ?app_assoc; cbn [app]; rewrite !SA; cbn [sa string_of_list_ascii].
  - apply e_ins.
  - apply e_del.
  - apply e_rep.
Qed.

Lemma edits_rev : forall n s t, edits n s t -> edits n (sa (rev (la s))) (sa (rev (la t))).
Proof. induction 1; [constructor | econstructor; eauto using edits_rev1]. Qed.

Lemma la_sa : forall l, la (sa l) = l.
Proof. apply list_ascii_of_string_of_list_ascii. Qed.

Lemma lev_rev : forall s t, lev (rev s) (rev t) = lev s t.
Proof.
  assert (H : forall s t, lev (rev s) (rev t) <= lev s t).
  { intros s t. pose proof (edits_rev _ _ _ (reach s t)) as E. rewrite !la_sa in E.
    apply lev_lower in E. rewrite !la_sa in E. pose proof (lev_nonneg s t). lia. }
  intros s t. pose proof (H s t). pose proof (H (rev s) (rev t)). rewrite !rev_involutive in H1. lia.
Qed.

(** ** the columns *)
Lemma minimum_min : forall a b c, minimum a b c = Z.min (Z.min a b) c.
Proof. intros. unfold minimum. destruct (a <? b) eqn:A, (a <? c) eqn:B, (b <? c) eqn:C; lia. Qed.

(** distances of all longer and longer prefixes of the first text, beyond [p] (reversed) *)
Fixpoint column (p s1 t : list ascii) : list Z :=
  match s1 with
  | [] => []
  | c :: r => lev (c :: p) t :: column (c :: p) r t
  end.

Lemma first_column : forall s1 p, firstColumn (Z.of_nat (List.length p) + 1) s1 = column p s1 [].
Proof.
  induction s1 as [|c r IH]; intros p; cbn [firstColumn column]; [reflexivity|].
  rewrite lev_nil_r. f_equal; [cbn [List.length]; lia|].
  rewrite <- (IH (c :: p)). f_equal. cbn [List.length]. lia.
Qed.

Lemma inner_column : forall s1 p c2 t, inner c2 s1 (column p s1 t) (lev p (c2 :: t)) (lev p t) = column p s1 (c2 :: t).
Proof.
  induction s1 as [|c r IH]; intros p c2 t; cbn [inner column]; [reflexivity|].
  assert (E : minimum (lev (c :: p) t + 1) (lev p (c2 :: t) + 1) (lev p t + (if Ascii.eqb c c2 then 0 else 1)) = lev (c :: p) (c2 :: t)).
  { rewrite minimum_min, lev_cons. fold (cost c c2). lia. }
  rewrite E. f_equal. apply IH.
Qed.

Lemma outer_column : forall s2 s1 t, 
  outer (Z.of_nat (List.length t) + 1) s2 s1 (column [] s1 t) = column [] s1 (rev s2 ++ t).
Proof.
  induction s2 as [|c r IH]; intros s1 t; cbn [outer rev app]; [reflexivity|].
  replace (Z.of_nat (List.length t) + 1) with (lev [] (c :: t)) at 2 by (rewrite lev_nil_l; cbn [List.length]; lia).
  replace (Z.of_nat (List.length t) + 1 - 1) with (lev [] t) by (rewrite lev_nil_l; lia).
  rewrite inner_column. rewrite <- app_assoc. cbn [app]. rewrite <- (IH s1 (c :: t)).
  f_equal. cbn [List.length]. lia.
Qed.

Lemma last_column : forall s1 p t d, last (column p s1 t) d = match s1 with [] => d | _ => lev (rev s1 ++ p) t end.
Proof.
  induction s1 as [|c r IH]; intros p t d; cbn [column]; [reflexivity|].
  destruct r as [|c' r]; [reflexivity|].
  change (last (lev (c :: p) t :: column (c :: p) (c' :: r) t) d) with (last (column (c :: p) (c' :: r) t) d).
  rewrite IH. cbn [rev]. rewrite <- !app_assoc. reflexivity.
Qed.

Lemma Levenshtein_lev : forall s t, Levenshtein s t = lev (la s) (la t).
Proof.
  intros s t. unfold Levenshtein. fold (la s). fold (la t).
  pose proof (first_column (la s) []) as F. cbn [List.length] in F. change (Z.of_nat 0 + 1) with 1 in F. rewrite F.
  pose proof (outer_column (la t) (la s) []) as O. cbn [List.length] in O. change (Z.of_nat 0 + 1) with 1 in O. rewrite O.
  rewrite last_column, !app_nil_r.
  destruct (la s) eqn:E; [rewrite lev_nil_l; reflexivity|].
  rewrite <- E, lev_rev. reflexivity.
Qed.

Lemma Levenshtein_distance : forall s t, distance s t (Z.to_nat (Levenshtein s t)) /\ 0 <= Levenshtein s t.
Proof. intros. rewrite Levenshtein_lev. split; [apply lev_distance | apply lev_nonneg]. Qed.

Lemma Levenshtein_sym : forall s t, Levenshtein s t = Levenshtein t s.
Proof. intros. rewrite !Levenshtein_lev. apply lev_sym. Qed.

(** ** lower bounds *)
Lemma lev_length : forall s t, Z.of_nat (List.length s) - Z.of_nat (List.length t) <= lev s t.
Proof.
  induction s as [|a s IH]; intros t; [pose proof (lev_nonneg [] t); cbn [List.length]; lia|].
  induction t as [|b t IHt]; [rewrite lev_nil_r; cbn [List.length]; lia|].
  rewrite lev_cons. pose proof (IH (b :: t)). pose proof (IH t). cbn [List.length] in *. unfold cost.
  destruct (Ascii.eqb a b); lia.
Qed.

Lemma lev_filter : forall f s t, lev (filter f s) (filter f t) <= lev s t.
Proof.
  intros f. induction s as [|a s IH]; intros t.
  - cbn [filter]. rewrite !lev_nil_l. induction t as [|b t IHt]; cbn [filter]; [lia|].
    destruct (f b); cbn [List.length]; lia.
  - induction t as [|b t IHt].
    + rewrite lev_nil_r. cbn [filter]. rewrite lev_nil_r.
      assert (List.length (filter f s) <= List.length s)%nat.
      { clear. induction s as [|c s IH]; cbn [filter]; [lia|]. destruct (f c); cbn [List.length]; lia. }
      destruct (f a); cbn [List.length]; lia.
    + rewrite lev_cons.
      pose proof (IH (b :: t)) as H1. pose proof (IH t) as H2.
      assert (G1 : lev (filter f (a :: s)) (filter f (b :: t)) <= lev (filter f s) (filter f (b :: t)) + 1).
      { cbn [filter]. destruct (f a); [apply lev_del_l | lia]. }
      assert (G2 : lev (filter f (a :: s)) (filter f (b :: t)) <= lev (filter f (a :: s)) (filter f t) + 1).
      { cbn [filter]. destruct (f b); [apply lev_del_r | lia]. }
      assert (G3 : lev (filter f (a :: s)) (filter f (b :: t)) <= lev (filter f s) (filter f t) + cost a b).
      { unfold cost. destruct (Ascii.eqb a b) eqn:E.
        - apply Ascii.eqb_eq in E. subst b. cbn [filter]. destruct (f a); [|lia].
          rewrite lev_cons. unfold cost. rewrite Ascii.eqb_refl. lia.
        - cbn [filter]. destruct (f a), (f b); try lia.
          + rewrite lev_cons. unfold cost. rewrite E. lia.
          + apply lev_del_l.
          + apply lev_del_r. }
      lia.
Qed.

(** ** suppression *)
Lemma similar_spec : forall now s1 s2, isMachineStatusSimilar now s1 s2 = true <->
  (now - 1800 <= lo_time (ms_op s1) /\ now - 1800 <= lo_time (ms_op s2)) /\
  (lo_desc (ms_op s1) = lo_desc (ms_op s2) \/
   8 * Levenshtein (lo_desc (ms_op s1)) (lo_desc (ms_op s2)) < len (lo_desc (ms_op s1)) + len (lo_desc (ms_op s2))) /\
  lo_code (ms_op s1) = lo_code (ms_op s2) /\ lo_state (ms_op s1) = lo_state (ms_op s2) /\
  lo_type (ms_op s1) = lo_type (ms_op s2) /\ cs_phase (ms_cur s1) = cs_phase (ms_cur s2) /\
  cs_timeoutActive (ms_cur s1) = cs_timeoutActive (ms_cur s2).
Proof.
  intros now s1 s2. unfold isMachineStatusSimilar, similar.
  destruct ((lo_time (ms_op s1) <? now - 1800) || (lo_time (ms_op s2) <? now - 1800)) eqn:T.
  - split; [discriminate|]. intros [[A B] _]. lia.
  - rewrite !andb_true_iff, orb_true_iff, !String.eqb_eq, eqb_true_iff.
    rewrite Z.ltb_lt. rewrite orb_false_iff in T. intuition lia.
Qed.

Lemma distance_Levenshtein : forall s t n, distance s t n -> Z.of_nat n = Levenshtein s t.
Proof.
  intros s t n [E L]. destruct (Levenshtein_distance s t) as [[E' L'] P].
  pose proof (L _ E'). pose proof (L' _ E). lia.
Qed.

Lemma skipped_iff : forall now m op cur lks, machineStatusUpdate now m op cur lks = None <->
  (now - 1800 <= lo_time op /\ now - 1800 <= lo_time (ms_op (mo_status m))) /\
  (lo_desc op = lo_desc (ms_op (mo_status m)) \/
   forall n, distance (lo_desc op) (lo_desc (ms_op (mo_status m))) n ->
     8 * Z.of_nat n < Z.of_nat (String.length (lo_desc op)) + Z.of_nat (String.length (lo_desc (ms_op (mo_status m))))) /\
  lo_code op = lo_code (ms_op (mo_status m)) /\ lo_state op = lo_state (ms_op (mo_status m)) /\
  lo_type op = lo_type (ms_op (mo_status m)) /\ cs_phase cur = cs_phase (ms_cur (mo_status m)) /\
  cs_timeoutActive cur = cs_timeoutActive (ms_cur (mo_status m)).
Proof.
  intros now m op cur lks. unfold machineStatusUpdate.
  pose proof (similar_spec now (mkMS (ms_conds (mo_status m)) op cur lks) (mo_status m)) as H.
  cbn [ms_op ms_cur] in H.
  assert (D : (8 * Levenshtein (lo_desc op) (lo_desc (ms_op (mo_status m))) < len (lo_desc op) + len (lo_desc (ms_op (mo_status m)))) <->
    (forall n, distance (lo_desc op) (lo_desc (ms_op (mo_status m))) n ->
     8 * Z.of_nat n < Z.of_nat (String.length (lo_desc op)) + Z.of_nat (String.length (lo_desc (ms_op (mo_status m)))))).
  { unfold len. split.
    - intros A n Dn. rewrite (distance_Levenshtein _ _ _ Dn). exact A.
    - intros A. destruct (Levenshtein_distance (lo_desc op) (lo_desc (ms_op (mo_status m)))) as [Dn P].
      specialize (A _ Dn). rewrite Z2Nat.id in A; auto. }
  rewrite D in H. rewrite <- H.
  destruct (isMachineStatusSimilar _ _ _); split; congruence.
Qed.

Lemma written_status : forall now m op cur lks s, machineStatusUpdate now m op cur lks = Some s ->
  ms_op s = op /\ ms_cur s = cur /\ ms_lks s = lks /\ ms_conds s = ms_conds (mo_status m).
Proof.
  intros now m op cur lks s. unfold machineStatusUpdate. destruct (isMachineStatusSimilar _ _ _); [discriminate|].
  intros H. injection H as <-. auto.
Qed.
