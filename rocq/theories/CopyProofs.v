Require Import Coq.ZArith.ZArith Coq.Lists.List Coq.Strings.String Coq.Strings.Ascii Coq.Bool.Bool Coq.micromega.Lia.
Require Import Coq.Numbers.DecimalString Coq.Numbers.DecimalZ Coq.Numbers.DecimalFacts.
From Verif Require RevisionModel.
From Verif Require Import MetaModel MetaSpec MetaProofs TmplModel CopyModel CopySpec.
Import ListNotations.
Open Scope string_scope.
Open Scope list_scope.
Open Scope Z_scope.

Lemma skip_spec : forall k, skipCopyAnnotation k = true <-> In k ownKeys.
Proof.
  intros k. unfold skipCopyAnnotation. rewrite existsb_exists. split.
  - intros (x & I & E). apply String.eqb_eq in E. subst x. exact I.
  - intros I. exists k. split; [exact I | apply String.eqb_refl].
Qed.
Lemma skip_false : forall k, skipCopyAnnotation k = false <-> shared k.
Proof. intros k. rewrite <- not_true_iff_false, skip_spec. unfold shared. tauto. Qed.

Definition InRange (z : Z) : Prop := -9223372036854775808 <= z <= 9223372036854775807.
Lemma wrap_range : forall z, InRange (RevisionModel.wrap64 z).
Proof.
  intros z. unfold RevisionModel.wrap64, InRange.
  pose proof (Z.mod_pos_bound (z + 9223372036854775808) 18446744073709551616). lia.
Qed.

Lemma to_int_not_nil : forall z, Z.to_int z <> Decimal.Pos Decimal.Nil /\ Z.to_int z <> Decimal.Neg Decimal.Nil.
Proof.
  intros z. destruct z as [| p | p]; cbn; split; try discriminate; intros E; injection E as E;
    apply (DecimalPos.Unsigned.to_uint_nonnil p E).
Qed.

Lemma format_head : forall z r, FormatInt z <> String "+" r.
Proof.
  intros z r. unfold FormatInt. destruct (to_int_not_nil z) as (A & B). destruct (Z.to_int z) as [u | u]; cbn.
  - destruct u; cbn; try discriminate.
  - discriminate.
Qed.

Lemma parse_format : forall z, InRange z -> ParseInt (FormatInt z) = Some z.
Proof.
  intros z R. unfold ParseInt.
  assert (E : match FormatInt z with String "+" r => match r with String "-" _ => None | _ => Some r end | _ => Some (FormatInt z) end = Some (FormatInt z)).
  { destruct (FormatInt z) as [| a s] eqn:F; [reflexivity|]. pose proof (format_head z s) as H. rewrite F in H.
    destruct a as [b0 b1 b2 b3 b4 b5 b6 b7].
    destruct b0, b1, b2, b3, b4, b5, b6, b7; try reflexivity. contradiction H. reflexivity. }
  rewrite E. unfold FormatInt. destruct (to_int_not_nil z) as (A & B). rewrite NilZero.isi by assumption.
  rewrite DecimalZ.of_to. unfold InRange in R.
  replace (-9223372036854775808 <=? z) with true by (symmetry; apply Z.leb_le; lia).
  replace (z <=? 9223372036854775807) with true by (symmetry; apply Z.leb_le; lia). reflexivity.
Qed.

Lemma at_put : forall k k' v m, at_ k (put k' v m) = if String.eqb k k' then v else at_ k m.
Proof. intros. unfold at_. rewrite get_put. destruct (String.eqb k k'); reflexivity. Qed.

(** *** Copying annotations *)
Lemma copy_get : forall d is k, isMap d ->
  get k (fst (copyAnnotations d is)) =
    if skipCopyAnnotation k then get k is
    else match get k d with
         | None => get k is
         | Some v => if String.eqb (at_ k is) v then get k is else Some v
         end.
Proof.
  induction d as [| (k', v) d IH]; intros is k M; cbn [copyAnnotations MetaModel.get].
  - destruct (skipCopyAnnotation k); reflexivity.
  - unfold isMap in M. cbn in M. inversion M as [| ? ? N M']; subst.
    assert (ND : get k' d = None) by (apply get_None; exact N).
    destruct (skipCopyAnnotation k' || String.eqb (at_ k' is) v) eqn:S.
    + rewrite IH by exact M'. destruct (String.eqb_spec k k') as [-> | NE]; [|reflexivity]. rewrite ND.
      destruct (skipCopyAnnotation k'); [reflexivity|]. cbn in S. rewrite S. reflexivity.
    + cbn [fst]. rewrite IH by exact M'. rewrite at_put, get_put.
      destruct (String.eqb_spec k k') as [-> | NE]; [|reflexivity]. rewrite ND. apply orb_false_iff in S as (-> & ->). reflexivity.
Qed.

Lemma copy_map : forall d is, isMap is -> isMap (fst (copyAnnotations d is)).
Proof.
  induction d as [| (k, v) d IH]; intros is M; [exact M|]. cbn [copyAnnotations].
  destruct (_ || _); [apply IH, M|]. cbn [fst]. apply IH, isMap_put, M.
Qed.

Lemma copy_false : forall d is, snd (copyAnnotations d is) = false -> fst (copyAnnotations d is) = is.
Proof.
  induction d as [| (k, v) d IH]; intros is H; [reflexivity|]. cbn [copyAnnotations] in *.
  destruct (_ || _); [apply IH, H | discriminate].
Qed.

Lemma copy_quiet : forall d is, (forall k v, In (k, v) d -> shared k -> at_ k is = v) -> copyAnnotations d is = (is, false).
Proof.
  induction d as [| (k, v) d IH]; intros is H; [reflexivity|]. cbn [copyAnnotations].
  assert (E : skipCopyAnnotation k || String.eqb (at_ k is) v = true).
  { destruct (skipCopyAnnotation k) eqn:S; [reflexivity|]. apply skip_false in S. cbn. apply String.eqb_eq, H; [left; reflexivity | exact S]. }
  rewrite E. apply IH. intros k' v' I. apply H. right. exact I.
Qed.

(** *** Revisions *)
Lemma rev_own : skipCopyAnnotation RevisionAnnotation = true. Proof. reflexivity. Qed.
Lemma hist_own : skipCopyAnnotation RevisionHistoryAnnotation = true. Proof. reflexivity. Qed.

Lemma setRevision_others : forall ch n a k, k <> revisionKey -> k <> historyKey ->
  get k (fst (setRevision ch n None a)) = get k a.
Proof.
  intros ch n a k N1 N2. unfold setRevision.
  destruct (match ParseInt (at_ RevisionAnnotation a) with Some z => Some z | None => if String.eqb (at_ RevisionAnnotation a) "" then Some 0 else None end) as [o|]; [|reflexivity].
  destruct (ParseInt n) as [m|]; [|reflexivity]. cbn [fst].
  assert (E1 : String.eqb k RevisionAnnotation = false) by (apply String.eqb_neq; exact N1).
  assert (E2 : String.eqb k RevisionHistoryAnnotation = false) by (apply String.eqb_neq; exact N2).
  destruct (_ && _); [rewrite get_put, E2|]; (destruct (o <? m); [rewrite get_put, E1|]; reflexivity).
Qed.

(** The number of the revision annotation. *)
Definition revOf (a : Map) : option Z :=
  match ParseInt (at_ RevisionAnnotation a) with Some z => Some z | None => if String.eqb (at_ RevisionAnnotation a) "" then Some 0 else None end.

Lemma good_rev : forall a, goodRevision a -> revOf a <> None.
Proof.
  intros a G. unfold goodRevision in G. unfold revOf, at_. unfold revisionKey in G.
  destruct (get RevisionAnnotation a) as [v|]; [|discriminate]. destruct G as [-> | (z & ->)]; discriminate.
Qed.

Lemma setRevision_rev : forall ch z a o, InRange z -> revOf a = Some o ->
  snd (setRevision ch (FormatInt z) None a) = ch || (o <? z) /\
  revOf (fst (setRevision ch (FormatInt z) None a)) = Some (Z.max o z).
Proof.
  intros ch z a o R H. unfold setRevision. fold (revOf a). rewrite H, parse_format by exact R. cbn [fst snd].
  split; [reflexivity|].
  assert (E : forall b h, revOf (put RevisionHistoryAnnotation h b) = revOf b).
  { intros b h. unfold revOf. rewrite at_put. reflexivity. }
  assert (F : revOf (if o <? z then put RevisionAnnotation (FormatInt z) a else a) = Some (Z.max o z)).
  { destruct (o <? z) eqn:L.
    - unfold revOf. rewrite at_put. cbn [String.eqb]. change (String.eqb RevisionAnnotation RevisionAnnotation) with true. cbn.
      rewrite parse_format by exact R. f_equal. lia.
    - rewrite H. f_equal. lia. }
  destruct (_ && _); [rewrite E|]; exact F.
Qed.

Lemma setRevision_bad : forall ch n a, revOf a = None -> setRevision ch n None a = (a, false).
Proof. intros ch n a H. unfold setRevision. fold (revOf a). rewrite H. reflexivity. Qed.

Lemma setRevision_quiet : forall z a o, InRange z -> revOf a = Some o -> z <= o -> setRevision false (FormatInt z) None a = (a, false).
Proof.
  intros z a o R H L. unfold setRevision. fold (revOf a). rewrite H, parse_format by exact R.
  replace (o <? z) with false by (symmetry; apply Z.ltb_ge; lia). cbn. rewrite andb_false_r. reflexivity.
Qed.

Lemma copyNode_spec : forall d t, t_node (fst (copyNode d t)) = t_node d /\ (snd (copyNode d t) = false -> fst (copyNode d t) = t) /\
  t_conf (fst (copyNode d t)) = t_conf t /\ t_kind (fst (copyNode d t)) = t_kind t /\ sameRest (fst (copyNode d t)) t.
Proof.
  intros d t. unfold copyNode, sameRest. destruct (String.eqb_spec (t_node d) (t_node t)) as [E | E]; cbn; repeat split; try congruence.
Qed.
Lemma copyConf_spec : forall d t, t_conf (fst (copyConf d t)) = t_conf d /\ (snd (copyConf d t) = false -> fst (copyConf d t) = t) /\
  t_node (fst (copyConf d t)) = t_node t /\ t_kind (fst (copyConf d t)) = t_kind t /\ sameRest (fst (copyConf d t)) t.
Proof.
  intros d t. unfold copyConf, sameRest. destruct (String.eqb_spec (t_conf d) (t_conf t)) as [E | E]; cbn; repeat split; try congruence.
Qed.
Lemma copyKind_spec : forall d t, t_kind (fst (copyKind d t)) = t_kind d /\ (snd (copyKind d t) = false -> fst (copyKind d t) = t) /\
  t_node (fst (copyKind d t)) = t_node t /\ t_conf (fst (copyKind d t)) = t_conf t /\ sameRest (fst (copyKind d t)) t.
Proof.
  intros d t. unfold copyKind, sameRest. destruct (String.eqb_spec (t_kind d) (t_kind t)) as [E | E]; cbn; repeat split; try congruence.
Qed.

Lemma rest_trans : forall a b c, sameRest a b -> sameRest b c -> sameRest a c.
Proof. unfold sameRest. intros a b c (?&?&?&?&?&?) (?&?&?&?&?&?). repeat split; congruence. Qed.

(** *** A pass *)
Definition tmpl3 (d is : Template) : Template := fst (copyKind d (fst (copyConf d (fst (copyNode d is))))).

Lemma takeOver_spec : forall d m is,
  let z := RevisionModel.wrap64 (m + 1) in
  let a0 := fst (copyAnnotations (c_annots d) (c_annots is)) in
  let c0 := snd (copyAnnotations (c_annots d) (c_annots is)) in
  let c1 := snd (copyNode (c_tmpl d) (c_tmpl is)) in
  let c2 := snd (copyConf (c_tmpl d) (fst (copyNode (c_tmpl d) (c_tmpl is)))) in
  let c3 := snd (copyKind (c_tmpl d) (fst (copyConf (c_tmpl d) (fst (copyNode (c_tmpl d) (c_tmpl is)))))) in
  exists a3,
    takeOver d m is = (mkC a3 (if snd (takeOver d m is) then c_min d else c_min is) (tmpl3 (c_tmpl d) (c_tmpl is)), snd (takeOver d m is)) /\
    (forall k, k <> revisionKey -> k <> historyKey -> get k a3 = get k a0) /\
    (forall o, revOf a0 = Some o -> revOf a3 = Some (Z.max o z) /\
       (snd (takeOver d m is) = false -> c0 = false /\ c1 = false /\ c2 = false /\ c3 = false /\ c_min is = c_min d /\ z <= o)) /\
    (revOf a0 = None -> a3 = a0 /\ snd (takeOver d m is) = negb (c_min is =? c_min d) || c3).
Proof.
  intros d m is z a0 c0 c1 c2 c3. unfold takeOver, tmpl3. fold z.
  pose proof (wrap_range (m + 1)) as R. fold z in R.
  destruct (copyAnnotations (c_annots d) (c_annots is)) as (x0, y0) eqn:CA. cbn [fst snd] in a0, c0. subst a0 c0.
  destruct (copyNode (c_tmpl d) (c_tmpl is)) as (t1, y1) eqn:CN. cbn [fst snd] in *.
  destruct (copyConf (c_tmpl d) t1) as (t2, y2) eqn:CC. cbn [fst snd] in *.
  destruct (copyKind (c_tmpl d) t2) as (t3, y3) eqn:CK. cbn [fst snd] in *.
  destruct (setRevision y0 (FormatInt z) None x0) as (a1, u1) eqn:S1.
  destruct (setRevision y1 (FormatInt z) None a1) as (a2, u2) eqn:S2.
  destruct (setRevision y2 (FormatInt z) None a2) as (a3, u3) eqn:S3.
  exists a3. split; [destruct (u1 || _ || u2 || u3 || y3); reflexivity|]. split; [|split].
  - intros k N1 N2. pose proof (setRevision_others y0 (FormatInt z) x0 k N1 N2) as E1. pose proof (setRevision_others y1 (FormatInt z) a1 k N1 N2) as E2.
    pose proof (setRevision_others y2 (FormatInt z) a2 k N1 N2) as E3. rewrite S1 in E1. rewrite S2 in E2. rewrite S3 in E3. cbn [fst] in *. congruence.
  - intros o O. destruct (setRevision_rev y0 z x0 o R O) as (U1 & V1). rewrite S1 in U1, V1. cbn [fst snd] in U1, V1.
    destruct (setRevision_rev y1 z a1 _ R V1) as (U2 & V2). rewrite S2 in U2, V2. cbn [fst snd] in U2, V2.
    destruct (setRevision_rev y2 z a2 _ R V2) as (U3 & V3). rewrite S3 in U3, V3. cbn [fst snd] in U3, V3.
    split; [rewrite V3; f_equal; lia|].
    intros W. destruct (u1 || negb (c_min is =? c_min d) || u2 || u3 || y3) eqn:Q; [discriminate|].
    rewrite !orb_false_iff in Q. destruct Q as ((((Q1 & Q2) & Q3) & Q4) & Q5).
    rewrite Q1 in U1. rewrite Q3 in U2. rewrite Q4 in U3. symmetry in U1, U2, U3. apply orb_false_iff in U1, U2, U3.
    apply negb_false_iff in Q2. apply Z.eqb_eq in Q2. destruct U1 as (X1 & Y1). apply Z.ltb_ge in Y1. repeat split; try tauto.
  - intros O. rewrite (setRevision_bad _ _ _ O) in S1. injection S1 as <- <-. rewrite (setRevision_bad _ _ _ O) in S2. injection S2 as <- <-.
    rewrite (setRevision_bad _ _ _ O) in S3. injection S3 as <- <-. split; [reflexivity|]. cbn. destruct (c_min is =? c_min d), y3; reflexivity.
Qed.

Lemma tmpl3_spec : forall d t, t_node (tmpl3 d t) = t_node d /\ t_conf (tmpl3 d t) = t_conf d /\ t_kind (tmpl3 d t) = t_kind d /\ sameRest (tmpl3 d t) t.
Proof.
  intros d t. unfold tmpl3. destruct (copyNode_spec d t) as (A1 & _ & A2 & A3 & A4).
  destruct (copyConf_spec d (fst (copyNode d t))) as (B1 & _ & B2 & B3 & B4).
  destruct (copyKind_spec d (fst (copyConf d (fst (copyNode d t))))) as (C1 & _ & C2 & C3 & C4).
  repeat split; try congruence; unfold sameRest in *; intuition congruence.
Qed.

Lemma rev_a0 : forall d is, isMap d -> revOf (fst (copyAnnotations d is)) = revOf is.
Proof.
  intros d is M. unfold revOf, at_. rewrite copy_get by exact M. rewrite rev_own. reflexivity.
Qed.

Lemma stored_is : forall d m is, isMap (c_annots d) -> goodRevision (c_annots is) ->
  exists a3, c_annots (stored d m true is) = a3 /\
    (forall k, k <> revisionKey -> k <> historyKey -> get k a3 = get k (fst (copyAnnotations (c_annots d) (c_annots is)))) /\
    c_tmpl (stored d m true is) = tmpl3 (c_tmpl d) (c_tmpl is) /\ c_min (stored d m true is) = c_min d /\
    exists o, revOf a3 = Some o /\ RevisionModel.wrap64 (m + 1) <= o.
Proof.
  intros d m is M G. destruct (takeOver_spec d m is) as (a3 & E & O & Gd & _). apply good_rev in G.
  pose proof (rev_a0 (c_annots d) (c_annots is) M) as RA. destruct (revOf (c_annots is)) as [o|] eqn:RO; [|congruence].
  destruct (Gd o RA) as (R3 & W). unfold stored. rewrite E. destruct (snd (takeOver d m is)) eqn:Wr; cbn [andb].
  - exists a3. split; [reflexivity|]. split; [exact O|]. split; [reflexivity|]. split; [reflexivity|]. eexists. split; [exact R3|]. lia.
  - destruct (W eq_refl) as (W0 & W1 & W2 & W3 & W4 & W5). exists (c_annots is). split; [reflexivity|]. split.
    + intros k _ _. rewrite copy_false by exact W0. reflexivity.
    + assert (T : tmpl3 (c_tmpl d) (c_tmpl is) = c_tmpl is).
      { unfold tmpl3. destruct (copyNode_spec (c_tmpl d) (c_tmpl is)) as (_ & X & _). rewrite (X W1) in *.
        destruct (copyConf_spec (c_tmpl d) (c_tmpl is)) as (_ & Y & _). rewrite (Y W2) in *.
        destruct (copyKind_spec (c_tmpl d) (c_tmpl is)) as (_ & V & _). exact (V W3). }
      split; [congruence|]. split; [exact W4|]. exists o. split; [exact RO | exact W5].
Qed.

(** *** The second pass *)
Lemma tmpl_quiet : forall d t, t_node t = t_node d -> t_conf t = t_conf d -> t_kind t = t_kind d ->
  copyNode d t = (t, false) /\ copyConf d t = (t, false) /\ copyKind d t = (t, false).
Proof. intros d t A B C. unfold copyNode, copyConf, copyKind. rewrite A, B, C, !String.eqb_refl. auto. Qed.

Lemma pass_quiet : forall d m is, (forall k v, In (k, v) (c_annots d) -> shared k -> at_ k (c_annots is) = v) ->
  t_kind (c_tmpl is) = t_kind (c_tmpl d) -> c_min is = c_min d ->
  (revOf (c_annots is) = None \/
   (t_node (c_tmpl is) = t_node (c_tmpl d) /\ t_conf (c_tmpl is) = t_conf (c_tmpl d) /\ exists o, revOf (c_annots is) = Some o /\ RevisionModel.wrap64 (m + 1) <= o)) ->
  snd (takeOver d m is) = false.
Proof.
  intros d m is A K Mn H. unfold takeOver. rewrite (copy_quiet _ _ A).
  destruct H as [H | (T1 & T2 & o & O & L)].
  - rewrite (setRevision_bad _ _ _ H). destruct (copyNode (c_tmpl d) (c_tmpl is)) as (t1, y1) eqn:CN.
    rewrite (setRevision_bad _ _ _ H). destruct (copyConf (c_tmpl d) t1) as (t2, y2) eqn:CC. rewrite (setRevision_bad _ _ _ H).
    destruct (copyNode_spec (c_tmpl d) (c_tmpl is)) as (_ & _ & _ & X & _). rewrite CN in X. cbn [fst] in X.
    destruct (copyConf_spec (c_tmpl d) t1) as (_ & _ & _ & Y & _). rewrite CC in Y. cbn [fst] in Y.
    unfold copyKind. rewrite Y, X, K, String.eqb_refl. cbn. rewrite Mn, Z.eqb_refl. reflexivity.
  - destruct (tmpl_quiet (c_tmpl d) (c_tmpl is) T1 T2 K) as (E1 & E2 & E3). pose proof (wrap_range (m + 1)) as R.
    rewrite (setRevision_quiet _ _ _ R O L), E1, (setRevision_quiet _ _ _ R O L), E2, (setRevision_quiet _ _ _ R O L), E3.
    rewrite Mn, Z.eqb_refl. reflexivity.
Qed.

Lemma at_copied : forall d is k v, isMap d -> In (k, v) d -> shared k -> at_ k (fst (copyAnnotations d is)) = v.
Proof.
  intros d is k v M I S. unfold at_. rewrite copy_get by exact M. apply skip_false in S. rewrite S. rewrite (In_get k v d M I).
  destruct (String.eqb_spec (at_ k is) v) as [E | E]; [exact E | reflexivity].
Qed.

Lemma shared_ne : forall k, shared k -> k <> revisionKey /\ k <> historyKey.
Proof. intros k S. split; intros ->; apply S; cbn; auto. Qed.

Lemma quiet_lemma : forall d m is, isMap (c_annots d) -> snd (takeOver d m (stored d m true is)) = false.
Proof.
  intros d m is M. destruct (revOf (c_annots is)) as [o|] eqn:RO.
  - assert (G : goodRevision (c_annots is)).
    { unfold goodRevision. unfold revOf, at_ in RO. change revisionKey with RevisionAnnotation.
      destruct (get RevisionAnnotation (c_annots is)) as [v|]; [|exact I].
      destruct (ParseInt v) as [z|] eqn:P; [right; exists z; reflexivity|]. destruct (String.eqb_spec v ""); [left; assumption | discriminate]. }
    destruct (stored_is d m is M G) as (a3 & E1 & E2 & E3 & E4 & o' & E5 & E6).
    destruct (tmpl3_spec (c_tmpl d) (c_tmpl is)) as (T1 & T2 & T3 & _).
    apply pass_quiet; [| congruence | exact E4 | right; split; [congruence|]; split; [congruence|]; exists o'; rewrite E1; auto].
    intros k v I S. rewrite E1. destruct (shared_ne k S) as (N1 & N2). unfold at_. rewrite E2 by assumption. apply (at_copied _ _ _ _ M I S).
  - destruct (takeOver_spec d m is) as (a3 & E & O & _ & Bd). rewrite <- (rev_a0 (c_annots d) (c_annots is) M) in RO.
    destruct (Bd RO) as (-> & W). unfold stored. rewrite E. destruct (snd (takeOver d m is)) eqn:Wr; cbn [andb]; [|exact Wr].
    destruct (tmpl3_spec (c_tmpl d) (c_tmpl is)) as (T1 & T2 & T3 & _).
    apply pass_quiet; cbn [c_annots c_tmpl c_min]; [| exact T3 | reflexivity | left; exact RO].
    intros k v I S. apply (at_copied _ _ _ _ M I S).
Qed.

(** *** Rollback *)
Lemma rollback_get : forall is d k, isMap is ->
  get k (SetMachineDeploymentAnnotationsTo d is) = if skipCopyAnnotation k then get k d else get k is.
Proof.
  intros is d k M. unfold SetMachineDeploymentAnnotationsTo.
  assert (S : get k (getSkippedAnnotations d) = if skipCopyAnnotation k then get k d else None).
  { unfold getSkippedAnnotations. induction d as [| (k', v) d IH]; [destruct (skipCopyAnnotation k); reflexivity|].
    cbn [filter fst MetaModel.get]. destruct (String.eqb_spec k k') as [-> | N].
    - destruct (skipCopyAnnotation k') eqn:Q; [cbn; rewrite String.eqb_refl; reflexivity | exact IH].
    - destruct (skipCopyAnnotation k'); [cbn [MetaModel.get]; apply String.eqb_neq in N; rewrite N|]; exact IH. }
  assert (G : forall l a, isMap l ->
    get k (fold_left (fun a p => if skipCopyAnnotation (fst p) then a else put (fst p) (snd p) a) l a) =
      if skipCopyAnnotation k then get k a else match get k l with Some v => Some v | None => get k a end).
  { induction l as [| (k', v) l IH]; intros a Ml; cbn [fold_left fst snd MetaModel.get].
    - destruct (skipCopyAnnotation k); reflexivity.
    - unfold isMap in Ml. cbn in Ml. inversion Ml as [| ? ? N Ml']; subst. rewrite IH by exact Ml'.
      destruct (String.eqb_spec k k') as [-> | NE].
      + assert (E : get k' l = None) by (apply get_None; exact N). rewrite E.
        destruct (skipCopyAnnotation k'); [reflexivity|]. rewrite get_put, String.eqb_refl. reflexivity.
      + destruct (skipCopyAnnotation k'); [reflexivity|]. rewrite get_put. apply String.eqb_neq in NE. rewrite NE. reflexivity. }
  rewrite G by exact M. rewrite S. destruct (skipCopyAnnotation k); [reflexivity|]. destruct (get k is); reflexivity.
Qed.

Lemma rollback_map : forall is d, isMap d -> isMap (SetMachineDeploymentAnnotationsTo d is).
Proof.
  intros is d M. unfold SetMachineDeploymentAnnotationsTo.
  assert (M0 : isMap (getSkippedAnnotations d)).
  { unfold getSkippedAnnotations, isMap, keys in *. induction d as [| (k, v) d IH]; [constructor|]. cbn [map fst filter] in *. inversion M as [| ? ? N M']; subst.
    destruct (skipCopyAnnotation k); [|apply IH, M']. cbn [map fst]. constructor; [|apply IH, M'].
    intros X. apply N. apply in_map_iff in X as (p & E & X). apply filter_In in X as (X & _). apply in_map_iff. exists p. auto. }
  revert M0. generalize (getSkippedAnnotations d). induction is as [| (k, v) is IH]; intros a Ma; [exact Ma|]. cbn [fold_left fst snd].
  apply IH. destruct (skipCopyAnnotation k); [exact Ma | apply isMap_put, Ma].
Qed.

(** *** A new set *)
Lemma setReplicas_spec : forall d m a, let r := SetReplicasAnnotations d m a in
  at_ DesiredReplicasAnnotation (fst r) = FormatInt d /\ at_ MaxReplicasAnnotation (fst r) = FormatInt m /\
  forall k, k <> DesiredReplicasAnnotation -> k <> MaxReplicasAnnotation -> get k (fst r) = get k a.
Proof.
  intros d m a r. unfold r, SetReplicasAnnotations. clear r.
  assert (X : forall b, String.eqb (at_ MaxReplicasAnnotation b) (FormatInt m) = true -> at_ MaxReplicasAnnotation b = FormatInt m) by (intros; apply String.eqb_eq; assumption).
  destruct (String.eqb_spec (at_ DesiredReplicasAnnotation a) (FormatInt d)) as [E | E].
  - destruct (String.eqb_spec (at_ MaxReplicasAnnotation a) (FormatInt m)) as [F | F]; cbn [fst].
    + auto.
    + rewrite !at_put. split; [exact E|]. split; [reflexivity|]. intros k _ N. rewrite get_put. apply String.eqb_neq in N. rewrite N. reflexivity.
  - destruct (String.eqb_spec (at_ MaxReplicasAnnotation (put DesiredReplicasAnnotation (FormatInt d) a)) (FormatInt m)) as [F | F]; cbn [fst].
    + rewrite at_put. split; [reflexivity|]. split; [exact F|]. intros k N _. rewrite get_put. apply String.eqb_neq in N. rewrite N. reflexivity.
    + rewrite !at_put. split; [reflexivity|]. split; [reflexivity|]. intros k N N'. rewrite !get_put. apply String.eqb_neq in N, N'. rewrite N, N'. reflexivity.
Qed.

(** *** The history *)
Lemma append_assoc : forall a b c : string, ((a ++ b) ++ c)%string = (a ++ (b ++ c))%string.
Proof. induction a as [| x a IH]; intros b c; cbn; [reflexivity | rewrite IH; reflexivity]. Qed.
Lemma append_nil : forall a : string, (a ++ "")%string = a.
Proof. induction a as [| x a IH]; cbn; [reflexivity | rewrite IH; reflexivity]. Qed.

Definition cleanH (h : string) : Prop := forall r, h <> String "," r.

Lemma parse_comma : forall r, ParseInt (String "," r) = None.
Proof. intros r. unfold ParseInt. cbn. destruct (NilEmpty.uint_of_string r); reflexivity. Qed.

Lemma noHistory_clean : forall h, cleanH h -> noHistory h = String.eqb h "".
Proof.
  intros [| c h] C; [reflexivity|]. cbn. destruct (Ascii.eqb_spec c ",") as [-> | _]; [contradiction (C h); reflexivity | reflexivity].
Qed.

Definition grown (h r : string) : string := if String.eqb h "" then r else (h ++ "," ++ r)%string.

Lemma setRevision_hist : forall ch n a, cleanH (at_ historyKey a) ->
  let a' := fst (setRevision ch n None a) in
  cleanH (at_ historyKey a') /\
  (a' = a \/
   (get revisionKey a = None /\ get historyKey a' = get historyKey a) \/
   (exists r, get revisionKey a = Some r /\ at_ historyKey a' = grown (at_ historyKey a) r)).
Proof.
  intros ch n a C. unfold setRevision, revisionKey, historyKey in *.
  destruct (match ParseInt (at_ RevisionAnnotation a) with Some z => Some z | None => if String.eqb (at_ RevisionAnnotation a) "" then Some 0 else None end) as [o|] eqn:O; [|auto].
  destruct (ParseInt n) as [m|]; [|auto]. cbn [fst].
  destruct (get RevisionAnnotation a) as [r|] eqn:G; cbn [andb].
  - assert (CR : cleanH r).
    { intros s ->. unfold at_ in O. rewrite G, parse_comma in O. discriminate. }
    destruct (ch || (o <? m)) eqn:B; cbn [fst].
    + assert (H : forall x, at_ RevisionHistoryAnnotation (put RevisionHistoryAnnotation x (if o <? m then put RevisionAnnotation n a else a)) = x)
        by (intros x; rewrite at_put; reflexivity).
      assert (H1 : at_ RevisionHistoryAnnotation (if o <? m then put RevisionAnnotation n a else a) = at_ RevisionHistoryAnnotation a)
        by (destruct (o <? m); [rewrite at_put|]; reflexivity).
      assert (H2 : at_ RevisionAnnotation a = r) by (unfold at_; rewrite G; reflexivity).
      rewrite H, H1, H2, noHistory_clean by exact C. fold (grown (at_ RevisionHistoryAnnotation a) r). split.
      * unfold grown. destruct (at_ RevisionHistoryAnnotation a) as [| c h]; [exact CR|]. cbn. intros s E. injection E as -> _. apply (C h). reflexivity.
      * right. right. exists r. auto.
    + destruct (o <? m); [destruct ch; discriminate|]. auto.
  - destruct (o <? m); cbn [fst].
    + split; [rewrite at_put; exact C|]. right. left. rewrite get_put. auto.
    + auto.
Qed.

Lemma grown_ext : forall h r, exists t, grown h r = (h ++ t)%string.
Proof. intros h r. unfold grown. destruct (String.eqb_spec h "") as [-> | _]; [exists r; reflexivity | eexists; reflexivity]. Qed.

Lemma setRevision_ext : forall ch n a, cleanH (at_ historyKey a) -> exists t, at_ historyKey (fst (setRevision ch n None a)) = (at_ historyKey a ++ t)%string.
Proof.
  intros ch n a C. destruct (setRevision_hist ch n a C) as (_ & [-> | [(_ & E) | (r & _ & ->)]]).
  - exists "". rewrite append_nil. reflexivity.
  - exists "". rewrite append_nil. unfold at_. rewrite E. reflexivity.
  - apply grown_ext.
Qed.

Lemma takeOver_hist : forall d m is, isMap (c_annots d) -> cleanH (at_ historyKey (c_annots is)) ->
  let a' := c_annots (fst (takeOver d m is)) in
  let h := at_ historyKey (c_annots is) in
  (exists t, at_ historyKey a' = (h ++ t)%string) /\
  (forall r, get revisionKey (c_annots is) = Some r -> get revisionKey a' <> Some r -> exists t, at_ historyKey a' = (grown h r ++ t)%string).
Proof.
  intros d m is M C. unfold takeOver.
  destruct (copyAnnotations (c_annots d) (c_annots is)) as (x0, y0) eqn:CA.
  assert (A : forall k, In k ownKeys -> get k x0 = get k (c_annots is)).
  { intros k I. pose proof (copy_get (c_annots d) (c_annots is) k M) as H. rewrite CA in H. apply skip_spec in I. rewrite I in H. exact H. }
  assert (AH : at_ historyKey x0 = at_ historyKey (c_annots is)) by (unfold at_; rewrite A; [reflexivity | cbn; auto 10]).
  assert (AR : get revisionKey x0 = get revisionKey (c_annots is)) by (apply A; cbn; auto 10).
  rewrite <- AH in *. rewrite <- AR. clear A AH AR CA.
  destruct (copyNode (c_tmpl d) (c_tmpl is)) as (t1, y1). destruct (copyConf (c_tmpl d) t1) as (t2, y2). destruct (copyKind (c_tmpl d) t2) as (t3, y3).
  remember (FormatInt (RevisionModel.wrap64 (m + 1))) as n.
  pose proof (setRevision_hist y0 n x0 C) as H1. pose proof (setRevision_ext y0 n x0 C) as X1.
  destruct (setRevision y0 n None x0) as (a1, u1). cbn [fst] in H1, X1. destruct H1 as (C1 & H1).
  pose proof (setRevision_hist y1 n a1 C1) as H2. pose proof (setRevision_ext y1 n a1 C1) as X2.
  destruct (setRevision y1 n None a1) as (a2, u2). cbn [fst] in H2, X2. destruct H2 as (C2 & H2).
  pose proof (setRevision_hist y2 n a2 C2) as H3. pose proof (setRevision_ext y2 n a2 C2) as X3.
  destruct (setRevision y2 n None a2) as (a3, u3). cbn [fst] in H3, X3. destruct H3 as (_ & H3).
  assert (E : c_annots (fst (if u1 || negb (c_min is =? c_min d) || u2 || u3 || y3 then (mkC a3 (c_min d) t3, true) else (mkC a3 (c_min is) t3, false))) = a3)
    by (destruct (u1 || _ || u2 || u3 || y3); reflexivity).
  cbn zeta. rewrite E. destruct X1 as (s1 & X1), X2 as (s2 & X2), X3 as (s3 & X3). split.
  - rewrite X3, X2, X1, !append_assoc. eexists. reflexivity.
  - intros r G N. destruct H1 as [-> | [(H1 & _) | (r1 & G1 & H1)]]; [|congruence|].
    + destruct H2 as [-> | [(H2 & _) | (r2 & G2 & H2)]]; [|congruence|].
      * destruct H3 as [-> | [(H3 & _) | (r3 & G3 & H3)]]; [contradiction (N G) | congruence|].
        rewrite G in G3. injection G3 as <-. exists "". rewrite append_nil. exact H3.
      * rewrite G in G2. injection G2 as <-. rewrite X3, H2. eexists. reflexivity.
    + rewrite G in G1. injection G1 as <-. rewrite X3, X2, H1, append_assoc. eexists. reflexivity.
Qed.
