(** Making machines (C98): proofs. *)
Require Import Coq.ZArith.ZArith Coq.NArith.NArith Coq.Lists.List Coq.Strings.String Coq.Strings.Ascii Coq.Bool.Bool Coq.Arith.PeanoNat Coq.micromega.Lia.
From Verif Require Import Types StatusModel ValidModel MetaModel MetaProofs TmplModel OwnModel MSetModel MakeModel MakeSpec.
Import ListNotations.
Open Scope string_scope.
Open Scope list_scope.

Lemma copy_get : forall m, sameEntries (copyMap m) m.
Proof.
  intros m k. unfold copyMap. induction m as [|(k', v) m IH]; [reflexivity|]. cbn [fold_right]. rewrite get_put, IH. cbn [get]. reflexivity.
Qed.

Lemma copy_nil : forall m, copyMap m = [] <-> m = [].
Proof. intros [|(k, v) m]; unfold copyMap, put; cbn [fold_right]; split; congruence. Qed.

Lemma create_one : forall valid ok s, createOne valid ok s =
  match t_labels (k_tmpl s) with
  | [] => ENoLabels
  | _ => if ok then MMade (GetMachineFromTemplate valid (k_tmpl s) (k_fins s) (k_name s)
           (Some (mkRef "machine.sapcloud.io/v1alpha1" "MachineSet" (k_name s) (k_uid s) (Some true) (Some true)))) else ECall
  end.
Proof.
  intros valid ok s. unfold createOne, CreateMachinesWithControllerRef. change (validateControllerRef _) with true. cbn [andb].
  unfold createMachines. cbv zeta. cbn [GetMachineFromTemplate n_labels]. unfold getMachinesLabelSet.
  destruct (t_labels (k_tmpl s)) as [|(k, v) m] eqn:E; [reflexivity|].
  destruct (copyMap ((k, v) :: m)) eqn:C; [apply (proj1 (copy_nil _)) in C; discriminate|reflexivity].
Qed.

Lemma made_is : forall valid ok s m, createOne valid ok s = MMade m ->
  m = GetMachineFromTemplate valid (k_tmpl s) (k_fins s) (k_name s)
           (Some (mkRef "machine.sapcloud.io/v1alpha1" "MachineSet" (k_name s) (k_uid s) (Some true) (Some true))) /\ t_labels (k_tmpl s) <> [] /\ ok = true.
Proof. intros valid ok s m. rewrite create_one. destruct (t_labels (k_tmpl s)); [discriminate|]. destruct ok; [|discriminate]. intros [= <-]. split; [reflexivity|]. split; [discriminate | reflexivity]. Qed.

Lemma made_from : forall valid ok s m, createOne valid ok s = MMade m -> fromTemplate s m.
Proof.
  intros valid ok s m H. apply made_is in H as (-> & _ & _). unfold fromTemplate. cbn. unfold getMachinesLabelSet, getMachinesAnnotationSet.
  split; [apply copy_get|]. split; [apply copy_get|]. do 7 (split; [reflexivity|]). eexists. split; [reflexivity|]. cbn. auto.
Qed.

Lemma expr_holds : forall l e, exprMatches l e = true <-> holds l e.
Proof.
  intros l [k vs|k vs|k|k]; cbn [exprMatches holds]; destruct (get k l) as [v|].
  - rewrite existsb_exists. split.
    + intros (x & I & E). apply String.eqb_eq in E as <-. eauto.
    + intros (x & [= <-] & I). exists v. split; [exact I | apply String.eqb_refl].
  - split; [discriminate | intros (v & E & _); discriminate].
  - rewrite negb_true_iff, <- not_true_iff_false, existsb_exists. split.
    + intros N x [= <-] I. apply N. exists v. split; [exact I | apply String.eqb_refl].
    + intros N (x & I & E). apply String.eqb_eq in E as <-. exact (N v eq_refl I).
  - split; [intros _ v E; discriminate | reflexivity].
  - split; congruence.
  - split; congruence.
  - split; congruence.
  - split; congruence.
Qed.

Lemma holds_same : forall a b e, sameEntries a b -> holds a e -> holds b e.
Proof. intros a b [k vs|k vs|k|k] S; unfold holds; rewrite (S k); auto. Qed.

Lemma selects_iff : forall sel es l, selects sel es l = true <-> (forall k v, In (k, v) sel -> get k l = Some v) /\ (forall e, In e es -> holds l e).
Proof.
  intros sel es l. unfold selects. rewrite andb_true_iff, !forallb_forall. split.
  - intros (A & B). split; [|intros e I; apply expr_holds, B, I]. intros k v I. specialize (A _ I). cbn in A. destruct (get k l) as [x|]; [|discriminate]. apply String.eqb_eq in A. congruence.
  - intros (A & B). split; [|intros e I; apply expr_holds, B, I]. intros (k, v) I. rewrite (A k v I). apply String.eqb_refl.
Qed.

Lemma fits_selects : forall s l, sameEntries l (t_labels (k_tmpl s)) -> (fits s <-> selects (k_labels s) (k_exprs s) l = true).
Proof.
  intros s l S. rewrite selects_iff. unfold fits. split; intros (A & B); split.
  - intros k v I. rewrite S. apply A, I.
  - intros e I. apply (holds_same (t_labels (k_tmpl s))); [intros k; symmetry; apply S | apply B, I].
  - intros k v I. rewrite <- S. apply A, I.
  - intros e I. apply (holds_same l); [exact S | apply B, I].
Qed.

Lemma controller_is : forall s m id uid, fromTemplate s m -> GetControllerOf (asObj id uid m) = Some (k_uid s).
Proof.
  intros s m id uid (_ & _ & _ & _ & _ & _ & _ & _ & _ & r & E & _ & _ & U & C & _). unfold GetControllerOf, asObj. cbn [o_owners]. rewrite E. cbn. rewrite C. cbn. congruence.
Qed.

Lemma claimed_by : forall s s' m id uid, fromTemplate s m ->
  (claimOwned s' (asObj id uid m) = true <-> k_uid s' = k_uid s /\ selects (k_labels s') (k_exprs s') (t_labels (k_tmpl s)) = true).
Proof.
  intros s s' m id uid F. unfold claimOwned. rewrite (controller_is s m id uid F). rewrite andb_true_iff, Nat.eqb_eq. destruct F as (S & _). cbn [asObj o_labels].
  assert (E : selects (k_labels s') (k_exprs s') (n_labels m) = true <-> selects (k_labels s') (k_exprs s') (t_labels (k_tmpl s)) = true).
  { rewrite !selects_iff. split; intros (A & B); (split; [intros k v I; first [rewrite S | rewrite <- S]; apply A, I|]).
    - intros e I. apply (holds_same (n_labels m)); [exact S | apply B, I].
    - intros e I. apply (holds_same (t_labels (k_tmpl s))); [intros k; symmetry; apply S | apply B, I]. }
  rewrite E. intuition.
Qed.

Lemma lookup_get : forall k l, lookup k l = get k l.
Proof. intros k l. induction l as [|(k', v) l IH]; [reflexivity|]. cbn. rewrite String.eqb_sym. destruct (k =? k'); auto. Qed.

Lemma selector_same : forall sel l, selectorMatches sel l = selects sel [] l.
Proof.
  intros sel l. unfold selectorMatches, selects. cbn [forallb]. rewrite andb_true_r. induction sel as [|(k, v) sel IH]; [reflexivity|]. cbn [forallb]. rewrite IH, lookup_get. reflexivity.
Qed.

Lemma claim_own : forall s m id uid del l f store, fromTemplate s m -> k_exprs s = [] -> fits s ->
  ClaimObject (k_uid s) del l f (k_labels s) store (asObj id uid m) = (true, false, store).
Proof.
  intros s m id uid del l f store F E T. unfold ClaimObject. rewrite (controller_is s m id uid F), Nat.eqb_refl. cbn [negb asObj o_labels].
  rewrite selector_same. assert (K : selects (k_labels s) (k_exprs s) (n_labels m) = true) by (apply fits_selects; [apply F | exact T]). rewrite E in K. rewrite K. reflexivity.
Qed.

Lemma claim_other : forall s m me sel id uid del l f store, fromTemplate s m -> me <> k_uid s ->
  ClaimObject me del l f sel store (asObj id uid m) = (false, false, store).
Proof.
  intros s m me sel id uid del l f store F N. unfold ClaimObject. rewrite (controller_is s m id uid F).
  destruct (Nat.eqb_spec (k_uid s) me) as [E|_]; [congruence | reflexivity].
Qed.

(* Validated sets. *)
Lemma valid_fits : forall s, validateMachineSet (k_replicas s) (Some (k_labels s)) (t_labels (k_tmpl s)) (t_kind (k_tmpl s)) (t_class (k_tmpl s)) = Some [] ->
  (forall k, ~ In (k, "") (k_labels s)) -> (forall e, In e (k_exprs s) -> holds (t_labels (k_tmpl s)) e) -> fits s.
Proof.
  intros s V E X. split; [|exact X]. unfold validateMachineSet in V. injection V as V. apply app_eq_nil in V as (_ & V). apply app_eq_nil in V as (V & _).
  unfold validateSelector in V. destruct (forallb _ _) eqn:F; [|discriminate]. rewrite forallb_forall in F. intros k v I. specialize (F _ I). cbn in F. apply String.eqb_eq in F.
  unfold read in F. destruct (get k (t_labels (k_tmpl s))) as [x|]; [congruence|]. subst v. destruct (E k I).
Qed.

(* Sets of deployments. *)
Lemma deployment_fits : forall hash d fins es uid n,
  (forall k v, In (k, v) (d_selector d) -> k <> hashKey -> get k (t_labels (d_template d)) = Some v) ->
  (forall e, In e es -> holds (withLabel (t_labels (d_template d)) hashKey (decimal (hash (d_template d) (d_collisions d)))) e) ->
  fits (setOf hash d fins es uid n).
Proof.
  intros hash d fins es uid n A B. unfold fits, setOf, newSet. cbn [k_labels k_exprs k_tmpl s_name s_template s_selector t_labels]. split; [|exact B].
  intros k v I. unfold withLabel in *. rewrite get_put. unfold put in I. destruct I as [[= <- <-]|I]; [rewrite String.eqb_refl; reflexivity|].
  unfold del in I. apply filter_In in I as (I & N). cbn [fst] in N. rewrite negb_true_iff in N. apply String.eqb_neq in N.
  destruct (String.eqb_spec k hashKey) as [->|M]; [destruct (N eq_refl)|]. apply A; assumption.
Qed.

Lemma hash_label : forall hash d fins es uid n, get hashKey (t_labels (k_tmpl (setOf hash d fins es uid n))) = Some (decimal (hash (d_template d) (d_collisions d))).
Proof. intros. unfold setOf, newSet. cbn [k_tmpl s_template t_labels]. unfold withLabel. rewrite get_put, String.eqb_refl. reflexivity. Qed.

Lemma other_hash : forall hash hash' d d' fins fins' es es' uid uid' n n',
  decimal (hash (d_template d) (d_collisions d)) <> decimal (hash' (d_template d') (d_collisions d')) ->
  selects (k_labels (setOf hash' d' fins' es' uid' n')) (k_exprs (setOf hash' d' fins' es' uid' n')) (t_labels (k_tmpl (setOf hash d fins es uid n))) = false.
Proof.
  intros hash hash' d d' fins fins' es es' uid uid' n n' N. apply not_true_iff_false. rewrite selects_iff. intros (A & _).
  specialize (A hashKey (decimal (hash' (d_template d') (d_collisions d')))). rewrite hash_label in A.
  assert (K : In (hashKey, decimal (hash' (d_template d') (d_collisions d'))) (k_labels (setOf hash' d' fins' es' uid' n'))) by (left; reflexivity).
  apply A in K. congruence.
Qed.

(* Counting. *)
Lemma fresh_counts : forall s m id now, fromTemplate s m ->
  (asksDeletion (t_annotations (k_tmpl s)) <-> isStale (asMach id now m) = true) /\
  isActive (asMach id now m) = negb (isStale (asMach id now m)).
Proof.
  intros s m id now (_ & A & _). unfold isActive, isStale, IsMachineFailed, IsMachineTriggeredForDeletion, IsMachineActive, asMach. cbn [m_phase m_prio m_trigger].
  change (String.eqb "" "Failed") with false. change (String.eqb "" "Terminating") with false. cbn [orb negb andb]. rewrite andb_true_r. split; [|reflexivity].
  unfold asksDeletion, read. rewrite <- !A, orb_true_iff, !String.eqb_eq.
  destruct (get _ (n_annots m)) as [p|]; destruct (get _ (n_annots m)) as [t|]; intuition congruence.
Qed.

(* Names. *)
Lemma leads_app : forall a s b, leads a s b -> forall t c, leads b t c -> leads a (s ++ t)%string c.
Proof. intros a s b H. induction H; intros t d K; cbn [append]; [exact K | apply l_char; auto | apply l_dash; auto | apply l_dot; auto]. Qed.

Lemma leads_prefix : forall n a s b, leads a s b -> exists c, leads a (substring 0 n s) c.
Proof.
  intros n a s b H. revert n. induction H; intros [|n]; cbn [substring]; try (eexists; constructor; fail).
  - destruct (IHleads n) as (d & K). exists d. apply l_char; auto.
  - destruct (IHleads n) as (d & K). exists d. apply l_dash; auto.
  - destruct (IHleads n) as (d & K). exists d. apply l_dot; auto.
Qed.

Lemma alnums : forall s a, (forall i c, String.get i s = Some c -> alnum c) -> s <> EmptyString -> leads a s Mid.
Proof.
  induction s as [|c s IH]; intros a H N; [destruct (N eq_refl)|]. apply l_char; [apply (H 0%nat); reflexivity|].
  destruct s as [|c' s]; [constructor|]. apply IH; [intros i x G; apply (H (S i)); exact G | discriminate].
Qed.

Lemma sub_len : forall n s, (String.length (substring 0 n s) <= n)%nat.
Proof. induction n as [|n IH]; intros [|c s]; cbn [substring String.length]; try lia. specialize (IH s). lia. Qed.
Lemma app_len : forall a b, String.length (a ++ b)%string = (String.length a + String.length b)%nat.
Proof. induction a as [|c a IH]; intros b; cbn; [reflexivity | rewrite IH; reflexivity]. Qed.
Lemma sub_all : forall s n, (String.length s <= n)%nat -> substring 0 n s = s.
Proof. induction s as [|c s IH]; intros [|n] L; cbn [substring String.length] in *; try reflexivity; [lia | rewrite IH by lia; reflexivity]. Qed.
Lemma app_inv : forall a b c d, (a ++ b = c ++ d)%string -> String.length a = String.length c -> a = c /\ b = d.
Proof.
  induction a as [|x a IH]; intros b [|y c] d E L; cbn in *; try discriminate; [auto|]. injection E as -> E. injection L as L. destruct (IH _ _ _ E L) as (-> & ->). auto.
Qed.

Lemma name_ok : forall valid name suf, subdomain name -> suffix5 suf ->
  subdomain (generated (getMachinesPrefix valid name) suf) /\ (String.length (generated (getMachinesPrefix valid name) suf) <= 63)%nat.
Proof.
  intros valid name suf D (L & A). unfold generated. split.
  - assert (K : exists b, leads Begin (getMachinesPrefix valid name) b).
    { unfold getMachinesPrefix. destruct (valid _); [|exists Mid; exact D]. exists Dash. apply (leads_app _ _ _ D). apply l_dash; [discriminate | constructor]. }
    destruct K as (b & K). destruct (leads_prefix 58 _ _ _ K) as (c & K'). apply (leads_app _ _ _ K'). apply alnums; [exact A | intros ->; discriminate].
  - rewrite app_len, L. pose proof (sub_len 58 (getMachinesPrefix valid name)). lia.
Qed.

Lemma names_apart : forall valid a b x y, valid (a ++ "-")%string = true -> valid (b ++ "-")%string = true ->
  (String.length a <= 57)%nat -> (String.length b <= 57)%nat -> suffix5 x -> suffix5 y ->
  generated (getMachinesPrefix valid a) x = generated (getMachinesPrefix valid b) y -> a = b /\ x = y.
Proof.
  intros valid a b x y VA VB LA LB (LX & _) (LY & _) E. unfold generated, getMachinesPrefix in E. rewrite VA, VB in E.
  rewrite !sub_all in E by (rewrite app_len; cbn; lia).
  assert (L : String.length (a ++ "-") = String.length (b ++ "-")).
  { apply (f_equal String.length) in E. rewrite (app_len (a ++ "-")), (app_len (b ++ "-")), LX, LY in E. lia. }
  destruct (app_inv _ _ _ _ E L) as (E1 & ->). rewrite !app_len in L. cbn in L. destruct (app_inv a "-" b "-" E1 ltac:(lia)) as (-> & _). auto.
Qed.
