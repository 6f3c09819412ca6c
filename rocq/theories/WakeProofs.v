(** Proofs about the events of the machine controller. *)
Require Import Coq.Lists.List Coq.Strings.String Coq.Bool.Bool Coq.Arith.PeanoNat Coq.micromega.Lia.
From Verif Require Import MachModel HealthModel LifeModel PermitModel QueueModel QueueSpec QueueProofs WakeModel WakeSpec.
Import ListNotations.
Open Scope string_scope.
Open Scope list_scope.

(** ** Nodes *)

Lemma filter_none {A} (f : A -> bool) l : (forall x, In x l -> f x = false) -> filter f l = [].
Proof. induction l as [| x l IH]; intros H; [reflexivity|]. cbn. rewrite (H x (or_introl eq_refl)). apply IH. intros y Y. apply H. right. exact Y. Qed.

Lemma get_only ms node m : onlyOn ms node m -> getMachineFromNode ms node = Some m.
Proof.
  intros (l1 & l2 & -> & R & N). unfold getMachineFromNode, runsOn in *. rewrite filter_app. cbn [filter].
  rewrite R, String.eqb_refl.
  assert (Z : forall x, In x (l1 ++ l2) -> match wm_node x with Some n => String.eqb n node | None => false end = false).
  { intros x X. specialize (N x X). destruct (wm_node x) as [n|]; [|reflexivity]. apply String.eqb_neq. intros ->. apply N. reflexivity. }
  rewrite !filter_none; [reflexivity | |]; intros x X; apply Z, in_or_app; auto.
Qed.

Lemma get_some ms node m : getMachineFromNode ms node = Some m -> In m ms /\ runsOn m node.
Proof.
  unfold getMachineFromNode. remember (filter _ ms) as l. destruct l as [| x [|]]; try discriminate. intros E. injection E as ->.
  assert (I : In m (filter (fun m0 => match wm_node m0 with Some n => String.eqb n node | None => false end) ms)) by (rewrite <- Heql; left; reflexivity).
  apply filter_In in I as (I & F). split; [exact I|]. unfold runsOn. destruct (wm_node m) as [n|]; [|discriminate].
  apply String.eqb_eq in F. subst. reflexivity.
Qed.

Lemma find_last {A} (f : A -> bool) l c : find f (rev l) = Some c ->
  exists l1 l2, l = l1 ++ c :: l2 /\ f c = true /\ forall d, In d l2 -> f d = false.
Proof.
  induction l as [| x l IH] using rev_ind; [discriminate|]. rewrite rev_unit. cbn. destruct (f x) eqn:F.
  - intros E. injection E as <-. exists l, []. split; [reflexivity|]. split; [exact F|]. intros d [].
  - intros E. destruct (IH E) as (l1 & l2 & -> & Fc & N). exists l1, (l2 ++ [x]). rewrite <- app_assoc. split; [reflexivity|].
    split; [exact Fc|]. intros d D. apply in_app_or in D as [D | [<- | []]]; auto.
Qed.

Lemma says_byType l t v : says l t v <-> exists c, byType t l = Some c /\ nc_status c = v.
Proof.
  unfold byType. split.
  - intros (l1 & c & l2 & -> & T & V & N). exists c. split; [|exact V].
    rewrite rev_app_distr. cbn [rev].
    assert (Z : find (fun c0 => String.eqb (nc_type c0) t) (rev l2) = None).
    { destruct (find _ (rev l2)) as [d|] eqn:F; [|reflexivity]. apply find_some in F as (I & F). apply in_rev in I.
      apply String.eqb_eq in F. destruct (N d I F). }
    assert (Y : forall a b : list NCond, find (fun c0 => String.eqb (nc_type c0) t) a = None ->
      find (fun c0 => String.eqb (nc_type c0) t) (a ++ b) = find (fun c0 => String.eqb (nc_type c0) t) b).
    { induction a as [| x a IH]; intros b; cbn; [reflexivity|]. destruct (String.eqb (nc_type x) t); [discriminate|]. apply IH. }
    rewrite <- app_assoc, Y by exact Z. cbn. rewrite T, String.eqb_refl. reflexivity.
  - intros (c & F & V). apply find_last in F as (l1 & l2 & -> & T & N). exists l1, c, l2. apply String.eqb_eq in T.
    split; [reflexivity|]. split; [exact T|]. split; [exact V|]. intros d D E. specialize (N d D). rewrite E, String.eqb_refl in N. discriminate.
Qed.

Lemma byType_type t l c : byType t l = Some c -> nc_type c = t /\ In c l.
Proof. intros F. apply find_some in F as (I & E). apply in_rev in I. apply String.eqb_eq in E. auto. Qed.

Lemma byType_none t l : byType t l = None <-> forall c, In c l -> nc_type c <> t.
Proof.
  unfold byType. split.
  - intros F c I E. apply in_rev in I. pose proof (find_none _ _ F c I) as N. cbn in N. rewrite E, String.eqb_refl in N. discriminate.
  - intros N. destruct (find _ (rev l)) as [c|] eqn:F; [|reflexivity]. apply find_some in F as (I & E). apply in_rev in I.
    apply String.eqb_eq in E. destruct (N c I E).
Qed.

(** With several entries of one type, an earlier one may differ from what the machine
    recorded; the comparison is exact when the node gives every type once. *)
Lemma changed_spec old new : NoDup (map nc_type new) ->
  (nodeConditionsHaveChanged old new = false <-> agree old new).
Proof.
  intros ND. unfold nodeConditionsHaveChanged. rewrite orb_false_iff.
  assert (U : forall c, In c new -> byType (nc_type c) new = Some c).
  { intros c I. destruct (byType (nc_type c) new) as [d|] eqn:F.
    - apply byType_type in F as (T & J). f_equal. clear - ND I J T. induction new as [| x l IH]; [destruct I|].
      cbn in ND. inversion ND as [| ? ? N1 N2]; subst. destruct I as [-> | I], J as [-> | J]; try reflexivity.
      + exfalso. apply N1. rewrite <- T. apply in_map, J.
      + exfalso. apply N1. rewrite T. apply in_map, I.
      + apply IH; assumption.
    - rewrite byType_none in F. destruct (F c I eq_refl). }
  split.
  - intros (A & B) t v. rewrite !says_byType. split.
    + intros (c & F & V). destruct (byType_type _ _ _ F) as (T & I).
      destruct (byType t new) as [d|] eqn:G.
      * exists d. split; [reflexivity|]. destruct (byType_type _ _ _ G) as (T' & J).
        rewrite <- not_true_iff_false, existsb_exists in A. destruct (String.eqb (nc_status c) (nc_status d)) eqn:S.
        { apply String.eqb_eq in S. congruence. }
        exfalso. apply A. exists d. split; [exact J|]. rewrite T', F, S. reflexivity.
      * exfalso. rewrite <- not_true_iff_false, existsb_exists in B. apply B. exists c. split; [exact I|]. rewrite T, G. reflexivity.
    + intros (d & G & V). destruct (byType_type _ _ _ G) as (T' & J).
      rewrite <- not_true_iff_false, existsb_exists in A.
      destruct (byType t old) as [c|] eqn:F.
      * exists c. split; [reflexivity|]. destruct (String.eqb (nc_status c) (nc_status d)) eqn:S.
        { apply String.eqb_eq in S. congruence. }
        exfalso. apply A. exists d. split; [exact J|]. rewrite T', F, S. reflexivity.
      * exfalso. apply A. exists d. split; [exact J|]. rewrite T', F. reflexivity.
  - intros A. split; apply not_true_iff_false; rewrite existsb_exists.
    + intros (c & I & H). specialize (U c I).
      assert (S : says new (nc_type c) (nc_status c)) by (rewrite says_byType; exists c; auto).
      apply A, says_byType in S as (o & F & V). rewrite F, V, String.eqb_refl in H. discriminate.
    + intros (c & I & H). destruct (byType (nc_type c) new) eqn:G; [discriminate|].
      destruct (byType (nc_type c) old) as [o|] eqn:F; [|rewrite byType_none in F; destruct (F c I eq_refl)].
      assert (S : says old (nc_type c) (nc_status o)) by (rewrite says_byType; exists o; auto).
      apply A, says_byType in S as (d & F' & V). congruence.
Qed.

Lemma annot_some k n v : annot k n = Some v <-> annotated n k v.
Proof.
  unfold annot, annotated. induction (wn_annots n) as [| (a, b) l IH]; cbn.
  - split; [discriminate|]. intros (l1 & l2 & E & _). destruct l1; discriminate.
  - destruct (String.eqb a k) eqn:E.
    + apply String.eqb_eq in E. subst a. cbn. split.
      * intros H. injection H as <-. exists [], l. split; [reflexivity|]. intros v' [].
      * intros (l1 & l2 & E & N). destruct l1 as [| y l1]; cbn in E; injection E as E1 E2; [congruence|]. subst y.
        exfalso. apply (N b). left. reflexivity.
    + rewrite IH. apply String.eqb_neq in E. split.
      * intros (l1 & l2 & -> & N). exists ((a, b) :: l1), l2. split; [reflexivity|]. intros v' [X | X]; [congruence|]. apply (N v' X).
      * intros (l1 & l2 & F & N). destruct l1 as [| y l1]; cbn in F; injection F as F1 F2; [congruence|]. exists l1, l2.
        split; [exact F2|]. intros v' X. apply (N v'). right. exact X.
Qed.

Lemma annot_none k n : annot k n = None <-> forall v, ~ In (k, v) (wn_annots n).
Proof.
  unfold annot. induction (wn_annots n) as [| (a, b) l IH]; cbn.
  - split; [intros _ v []|reflexivity].
  - destruct (String.eqb a k) eqn:E.
    + apply String.eqb_eq in E. subst a. split; [discriminate|]. intros N. destruct (N b (or_introl eq_refl)).
    + apply String.eqb_neq in E. rewrite IH. split; intros N v; [intros [X | X]; [congruence|apply (N v X)] | intros X; apply (N v); right; exact X].
Qed.

Lemma trigger_spec n : match annot TriggerDeletionByMCM n with Some v => String.eqb v "true" | None => false end = true <-> toBeDeleted n.
Proof.
  unfold toBeDeleted. rewrite <- annot_some. destruct (annot _ n) as [v|]; [|split; discriminate].
  rewrite String.eqb_eq. split; congruence.
Qed.

Lemma taint_spec old n : addedOrRemovedEssentialTaints old n EssentialTaints = true <-> taintFlips old n.
Proof.
  unfold addedOrRemovedEssentialTaints, EssentialTaints, taintFlips. cbn [existsb]. rewrite orb_false_r.
  set (t := "node.gardener.cloud/critical-components-not-ready").
  destruct (hasKey t (wn_taints old)) eqn:A; destruct (hasKey t (wn_taints n)) eqn:B; cbn [xorb];
    rewrite ?hasKey_In, ?hasKey_not in *; intuition discriminate.
Qed.

Lemma add_node ms n m : NoDup (map nc_type (wn_conds n)) -> managed n -> onlyOn ms (wn_name n) m ->
  addNodeToMachine ms n =
    if negb (String.eqb (wm_phase m) "CrashLoopBackOff") && negb (String.eqb (wm_phase m) "Terminating") &&
       nodeConditionsHaveChanged (wm_conds m) (wn_conds n)
    then [QueueMachine (wm_name m)] else [].
Proof.
  intros ND M O. unfold addNodeToMachine. apply annot_none in M. rewrite M, (get_only _ _ _ O). reflexivity.
Qed.

(** ** Queues *)

Definition kept (q q' : QW) (k : string) : Prop := queued q k -> queued q' k.

Lemma add_dirty q k : In k (q_dirty (add q k)).
Proof. unfold add. destruct (hasKey k (q_dirty q)) eqn:H; [apply hasKey_In, H|]. cbn. apply in_or_app. right. left. reflexivity. Qed.
Lemma add_keeps q j k : In k (q_dirty q) -> In k (q_dirty (add q j)).
Proof. intros H. unfold add. destruct (hasKey j (q_dirty q)); [exact H|]. cbn. apply in_or_app. left. exact H. Qed.
Lemma add_later q j : q_later (add q j) = q_later q.
Proof. unfold add. destruct (hasKey j (q_dirty q)); reflexivity. Qed.
Lemma add_workers q j : q_workers (add q j) = q_workers q.
Proof. unfold add. destruct (hasKey j (q_dirty q)); reflexivity. Qed.
Lemma add_queued q j k : queued q k -> queued (add q j) k.
Proof. intros [H|H]; [left; apply add_keeps, H | right; rewrite add_later; exact H]. Qed.
Lemma add_busy q j r p k : busy q r p k -> busy (add q j) r p k.
Proof. intros (i & W & H). exists i. split; [|exact H]. unfold worksOn in *. rewrite add_workers. exact W. Qed.

Lemma due_queued m q n k : queued q k -> queued (qstep m q (QDue n)) k.
Proof.
  cbn [qstep]. destruct (nth_error (q_later q) n) as [j|] eqn:E; [|auto].
  destruct (string_dec j k) as [->|N].
  - intros _. left. apply add_dirty.
  - intros [H|H]; [left; apply add_keeps, H|]. right. rewrite add_later. cbn [q_later].
    apply nth_error_split in E as (l1 & l2 & E & L). rewrite E in *. unfold dropNth. subst n.
    rewrite firstn_app, firstn_all, Nat.sub_diag, firstn_O, app_nil_r.
    rewrite skipn_app, skipn_all2 by lia. replace (S (List.length l1) - List.length l1) with 1 by lia. cbn [app skipn].
    apply in_app_or in H as [H | [H | H]]; [apply in_or_app; left; exact H | congruence | apply in_or_app; right; exact H].
Qed.
Lemma due_busy m q n r p k : busy q r p k -> busy (qstep m q (QDue n)) r p k.
Proof.
  intros (i & W & H). exists i. split; [|exact H]. unfold worksOn in *. cbn [qstep].
  destruct (nth_error (q_later q) n); [rewrite add_workers|]; exact W.
Qed.

Lemma get_hand m q i r p k : QInv m q -> keyOf q i = None -> queued q k \/ busy q r p k ->
  queued (qstep m q (QGet i)) k \/ busy (qstep m q (QGet i)) (setAt r i None) p k.
Proof.
  intros V Kn H. cbn [qstep]. unfold keyOf in Kn.
  assert (B0 : busy q r p k -> busy q (setAt r i None) p k).
  { intros (j & W & X). exists j. split; [exact W|]. unfold setAt. destruct (Nat.eqb_spec i j); [left; reflexivity | exact X]. }
  destruct (nth_error (q_workers q) i) as [[x|]|] eqn:E; [discriminate| | destruct H; auto].
  destruct (q_queue q) as [| x rest] eqn:Q; [destruct H; auto|].
  assert (L : i < List.length (q_workers q)) by (apply nth_error_Some; congruence).
  destruct H as [[H|H] | H].
  - destruct (string_dec k x) as [<-|N].
    + right. exists i. unfold worksOn. cbn [q_workers]. rewrite nth_error_upd, Nat.eqb_refl by exact L. split; [reflexivity|].
      left. unfold setAt. rewrite Nat.eqb_refl. reflexivity.
    + left. left. cbn. apply in_without. auto.
  - left. right. exact H.
  - right. destruct H as (j & W & X). exists j. unfold worksOn in *. cbn [q_workers]. rewrite nth_error_upd by exact L.
    unfold setAt. destruct (Nat.eqb_spec i j) as [<-|N]; [congruence|]. auto.
Qed.

Lemma finish_hand q i k0 (a f : bool) r p k x : keyOf q i = Some k0 -> r i = Some x ->
  (a = false -> x = None \/ exists m, x = Some m /\ ~ p m) ->
  queued q k \/ busy q r p k -> queued (finish q i k0 a f) k \/ busy (finish q i k0 a f) r p k.
Proof.
  intros Kn R A H. unfold keyOf in Kn. destruct (nth_error (q_workers q) i) as [[y|]|] eqn:E; try discriminate. injection Kn as ->.
  assert (L : i < List.length (q_workers q)) by (apply nth_error_Some; congruence).
  set (q1 := if a then qstep DefaultMaxRetries q (QLater k0) else q).
  assert (W1 : q_workers q1 = q_workers q) by (unfold q1; destruct a; reflexivity).
  assert (D1 : q_dirty q1 = q_dirty q) by (unfold q1; destruct a; reflexivity).
  assert (L1 : q_later q1 = q_later q ++ (if a then [k0] else [])) by (unfold q1; destruct a; [reflexivity | rewrite app_nil_r; reflexivity]).
  assert (F : let q2 := finish q i k0 a f in q_dirty q2 = q_dirty q /\ q_workers q2 = upd (q_workers q) i None /\
              exists t, q_later q2 = q_later q ++ (if a then [k0] else []) ++ t).
  { unfold finish. fold q1. cbn [qstep]. rewrite W1, E. destruct (afterRun _ _ _) as (c & again). cbn [q_dirty q_workers q_later].
    split; [exact D1|]. split; [reflexivity|]. rewrite L1. destruct again.
    - exists [k0]. rewrite app_assoc. reflexivity.
    - exists []. rewrite app_nil_r. reflexivity. }
  cbv zeta in F. destruct F as (FD & FW & t & FL).
  destruct H as [[H|H] | (j & W & X)].
  - left. left. rewrite FD. exact H.
  - left. right. rewrite FL. apply in_or_app. left. exact H.
  - unfold worksOn in W. destruct (Nat.eq_dec i j) as [<-|N].
    + rewrite E in W. injection W as ->. destruct X as [X | (m & X & P)]; [congruence|].
      destruct a; [left; right; rewrite FL; apply in_or_app; right; left; reflexivity|].
      destruct (A eq_refl) as [Z | (m' & Z & NP)]; [congruence|]. congruence.
    + right. exists j. split; [|exact X]. unfold worksOn. rewrite FW, nth_error_upd by exact L.
      destruct (Nat.eqb_spec i j); [contradiction|]. exact W.
Qed.

Lemma read_hand q i r p k (c : option WM) k0 : keyOf q i = Some k0 -> r i = None ->
  (k0 = k -> exists m, c = Some m /\ p m) ->
  queued q k \/ busy q r p k -> queued q k \/ busy q (setAt r i (Some c)) p k.
Proof.
  intros Kn R C [H | (j & W & X)]; [left; exact H|]. right. exists j. split; [exact W|]. unfold setAt.
  destruct (Nat.eqb_spec i j) as [<-|N]; [|exact X]. unfold keyOf in Kn. unfold worksOn in W. rewrite W in Kn.
  injection Kn as ->. right. destruct (C eq_refl) as (m & -> & P). exists m. auto.
Qed.

(** ** The invariant *)

Record WInv (w : WW) : Prop := {
  i_name : forall k m, ww_cache w k = Some m -> wm_name m = k;
  i_mq : QInv DefaultMaxRetries (ww_mq w);
  i_tq : QInv DefaultMaxRetries (ww_tq w);
  i_live : forall k m, ww_cache w k = Some m -> wm_deleting m = false ->
    (queued (ww_mq w) k \/ busy (ww_mq w) (ww_mread w) (fun x => wm_deleting x = false) k) \/ announced w k false;
  i_dead : forall k m, ww_cache w k = Some m -> wm_deleting m = true ->
    (queued (ww_tq w) k \/ busy (ww_tq w) (ww_tread w) (fun _ => True) k) \/ announced w k true }.

Lemma inv_finish q i k a f : QInv DefaultMaxRetries q -> QInv DefaultMaxRetries (finish q i k a f).
Proof. intros V. unfold finish. apply inv_qstep. destruct a; [apply inv_qstep|]; exact V. Qed.

Lemma inv_eff : forall es q, QInv DefaultMaxRetries (fst q) /\ QInv DefaultMaxRetries (snd q) ->
  let q' := fold_left applyEff es q in QInv DefaultMaxRetries (fst q') /\ QInv DefaultMaxRetries (snd q').
Proof.
  induction es as [| e es IH]; intros q H; [exact H|]. cbn [fold_left]. apply IH. destruct H as (A & B).
  destruct e; cbn [applyEff fst snd]; auto using inv_add.
Qed.

Lemma eff_keeps : forall es q k r p, let q' := fold_left applyEff es q in
  (queued (fst q) k -> queued (fst q') k) /\ (queued (snd q) k -> queued (snd q') k) /\
  (busy (fst q) r p k -> busy (fst q') r p k) /\ (busy (snd q) r p k -> busy (snd q') r p k) /\
  (In (QueueMachine k) es -> queued (fst q') k) /\ (In (QueueTermination k) es -> queued (snd q') k).
Proof.
  induction es as [| e es IH]; intros q k r p; cbn [fold_left]; [cbn; tauto|].
  destruct (IH (applyEff q e) k r p) as (A & B & C & D & E & F). cbn [In].
  split; [|split; [|split; [|split; [|split]]]].
  - intros H. apply A. destruct e; cbn [applyEff fst]; auto using add_queued.
  - intros H. apply B. destruct e; cbn [applyEff snd]; auto using add_queued.
  - intros H. apply C. destruct e; cbn [applyEff fst]; auto using add_busy.
  - intros H. apply D. destruct e; cbn [applyEff snd]; auto using add_busy.
  - intros [-> | H]; [|apply E, H]. apply A. cbn. left. apply add_dirty.
  - intros [-> | H]; [|apply F, H]. apply B. cbn. left. apply add_dirty.
Qed.

Lemma handle_queues n m : (n = NAdd m \/ exists old, n = NUpd old m /\ wm_gen old <> wm_gen m) ->
  In (if wm_deleting m then QueueTermination (wm_name m) else QueueMachine (wm_name m)) (handle n).
Proof.
  intros [-> | (old & -> & G)]; cbn [handle].
  - unfold onAdd, addMachine. apply in_or_app. right. left. reflexivity.
  - unfold onUpdate, updateMachine, addMachine. apply Nat.eqb_neq in G. rewrite G. left. reflexivity.
Qed.

Lemma winv_step w op : WInv w -> orderly1 w op -> WInv (wstep w op).
Proof.
  intros V O. pose proof V as [N M T L D]. destruct op as [m | k0 tomb | | k0 | k0 | n | n | i | i | i | i | i | i failed]; cbn [wstep].
  - (* WStore *)
    assert (AK : forall k d, announced w k d -> announced (wstep w (WStore m)) k d).
    { intros k d (x & A & B & [C | (o & C & E)]); exists x; split; auto; split; auto; [left | right; exists o; split; auto];
        cbn [wstep ww_notes]; apply in_or_app; left; exact C. }
    cbn [wstep] in AK. constructor; cbn [ww_cache ww_mq ww_tq ww_mread ww_tread].
    + intros k x H. destruct (String.eqb_spec k (wm_name m)); [congruence | apply (N k x H)].
    + exact M.
    + exact T.
    + intros k x H F. destruct (String.eqb_spec k (wm_name m)) as [->|Ne].
      * injection H as <-. destruct (ww_cache w (wm_name m)) as [old|] eqn:C.
        { destruct (Nat.eq_dec (wm_gen old) (wm_gen m)) as [G|G].
          - pose proof (O old C G) as Y. destruct (L _ _ C ltac:(congruence)) as [X|X]; [left; exact X | right; apply AK, X].
          - right. exists m. split; [reflexivity|]. split; [exact F|]. right. exists old. split; [|exact G].
            cbn. apply in_or_app. right. left. reflexivity. }
        right. exists m. split; [reflexivity|]. split; [exact F|]. left. cbn. apply in_or_app. right. left. reflexivity.
      * destruct (L k x H F) as [X|X]; [left; exact X | right; apply AK, X].
    + intros k x H F. destruct (String.eqb_spec k (wm_name m)) as [->|Ne].
      * injection H as <-. destruct (ww_cache w (wm_name m)) as [old|] eqn:C.
        { destruct (Nat.eq_dec (wm_gen old) (wm_gen m)) as [G|G].
          - pose proof (O old C G) as Y. destruct (D _ _ C ltac:(congruence)) as [X|X]; [left; exact X | right; apply AK, X].
          - right. exists m. split; [reflexivity|]. split; [exact F|]. right. exists old. split; [|exact G].
            cbn. apply in_or_app. right. left. reflexivity. }
        right. exists m. split; [reflexivity|]. split; [exact F|]. left. cbn. apply in_or_app. right. left. reflexivity.
      * destruct (D k x H F) as [X|X]; [left; exact X | right; apply AK, X].
  - (* WDrop *)
    destruct (ww_cache w k0) as [m|] eqn:C; [|exact V].
    assert (AK : forall k d, announced w k d -> announced (wstep w (WDrop k0 tomb)) k d).
    { intros k d (x & A & B & [E | (o & E & F)]); exists x; split; auto; split; auto; [left | right; exists o; split; auto];
        cbn [wstep]; rewrite C; cbn [ww_notes]; apply in_or_app; left; exact E. }
    cbn [wstep] in AK. rewrite C in AK. constructor; cbn [ww_cache ww_mq ww_tq ww_mread ww_tread]; auto.
    + intros k x H. destruct (String.eqb_spec k k0); [discriminate | apply (N k x H)].
    + intros k x H F. destruct (String.eqb_spec k k0); [discriminate|].
      destruct (L k x H F) as [X|X]; [left; exact X | right; apply AK, X].
    + intros k x H F. destruct (String.eqb_spec k k0); [discriminate|].
      destruct (D k x H F) as [X|X]; [left; exact X | right; apply AK, X].
  - (* WDeliver *)
    destruct (ww_notes w) as [| n r] eqn:Nt; [exact V|].
    pose proof (inv_eff (handle n) (ww_mq w, ww_tq w) (conj M T)) as (M' & T').
    constructor; cbn [ww_cache ww_mq ww_tq ww_mread ww_tread]; auto.
    + intros k x H F.
      destruct (eff_keeps (handle n) (ww_mq w, ww_tq w) k (ww_mread w) (fun x => wm_deleting x = false)) as (A & _ & B & _ & Q & _).
      destruct (L k x H F) as [[X|X] | (y & Y & Z & W)]; [left; left; apply A, X | left; right; apply B, X|].
      assert (HD : (n = NAdd y \/ exists old, n = NUpd old y /\ wm_gen old <> wm_gen y) \/
                   (In (NAdd y) r \/ exists old, In (NUpd old y) r /\ wm_gen old <> wm_gen y)).
      { rewrite Nt in W. destruct W as [[-> | W] | (old & [-> | W] & G)]; eauto 6. }
      destruct HD as [HD | HD].
      * left. left. apply Q. apply handle_queues in HD. rewrite Z, Y in HD. exact HD.
      * right. exists y. cbn [ww_notes]. auto.
    + intros k x H F.
      destruct (eff_keeps (handle n) (ww_mq w, ww_tq w) k (ww_tread w) (fun _ => True)) as (_ & A & _ & B & _ & Q).
      destruct (D k x H F) as [[X|X] | (y & Y & Z & W)]; [left; left; apply A, X | left; right; apply B, X|].
      assert (HD : (n = NAdd y \/ exists old, n = NUpd old y /\ wm_gen old <> wm_gen y) \/
                   (In (NAdd y) r \/ exists old, In (NUpd old y) r /\ wm_gen old <> wm_gen y)).
      { rewrite Nt in W. destruct W as [[-> | W] | (old & [-> | W] & G)]; eauto 6. }
      destruct HD as [HD | HD].
      * left. left. apply Q. apply handle_queues in HD. rewrite Z, Y in HD. exact HD.
      * right. exists y. cbn [ww_notes]. auto.
  - (* WWake *)
    constructor; cbn [ww_cache ww_mq ww_tq ww_mread ww_tread]; auto using inv_add.
    intros k x H F. destruct (L k x H F) as [[X|X] | X]; [left; left; apply add_queued, X | left; right; apply add_busy, X | right; exact X].
  - constructor; cbn [ww_cache ww_mq ww_tq ww_mread ww_tread]; auto using inv_add.
    intros k x H F. destruct (D k x H F) as [[X|X] | X]; [left; left; apply add_queued, X | left; right; apply add_busy, X | right; exact X].
  - (* WDueM *)
    constructor; cbn [ww_cache ww_mq ww_tq ww_mread ww_tread]; auto using inv_qstep.
    intros k x H F. destruct (L k x H F) as [[X|X] | X]; [left; left; apply due_queued, X | left; right; apply due_busy, X | right; exact X].
  - constructor; cbn [ww_cache ww_mq ww_tq ww_mread ww_tread]; auto using inv_qstep.
    intros k x H F. destruct (D k x H F) as [[X|X] | X]; [left; left; apply due_queued, X | left; right; apply due_busy, X | right; exact X].
  - (* WGetM *)
    destruct (keyOf (ww_mq w) i) eqn:K; [exact V|].
    constructor; cbn [ww_cache ww_mq ww_tq ww_mread ww_tread]; auto using inv_qstep.
    intros k x H F. destruct (L k x H F) as [X | X]; [left; apply get_hand; assumption | right; exact X].
  - (* WReadM *)
    destruct (keyOf (ww_mq w) i) as [k0|] eqn:K; [|exact V]. destruct (ww_mread w i) eqn:R; [exact V|].
    constructor; cbn [ww_cache ww_mq ww_tq ww_mread ww_tread]; auto.
    intros k x H F. destruct (L k x H F) as [X | X]; [left | right; exact X].
    apply (read_hand _ _ _ _ _ _ k0 K R); [|exact X]. intros ->. exists x. auto.
  - (* WFinishM *)
    destruct (keyOf (ww_mq w) i) as [k0|] eqn:K; [|exact V]. destruct (ww_mread w i) as [r|] eqn:R; [|exact V].
    constructor; cbn [ww_cache ww_mq ww_tq ww_mread ww_tread]; auto using inv_finish.
    intros k x H F. destruct (L k x H F) as [X | X]; [left | right; exact X].
    apply (finish_hand _ _ _ _ _ _ _ _ r K R); [|exact X]. intros A. destruct r as [y|]; [right; exists y | left; reflexivity].
    split; [reflexivity|]. unfold againM in A. destruct (wm_deleting y); [discriminate|discriminate A].
  - (* WGetT *)
    destruct (keyOf (ww_tq w) i) eqn:K; [exact V|].
    constructor; cbn [ww_cache ww_mq ww_tq ww_mread ww_tread]; auto using inv_qstep.
    intros k x H F. destruct (D k x H F) as [X | X]; [left; apply get_hand; assumption | right; exact X].
  - (* WReadT *)
    destruct (keyOf (ww_tq w) i) as [k0|] eqn:K; [|exact V]. destruct (ww_tread w i) eqn:R; [exact V|].
    constructor; cbn [ww_cache ww_mq ww_tq ww_mread ww_tread]; auto.
    intros k x H F. destruct (D k x H F) as [X | X]; [left | right; exact X].
    apply (read_hand _ _ _ _ _ _ k0 K R); [|exact X]. intros ->. exists x. auto.
  - (* WFinishT *)
    destruct (keyOf (ww_tq w) i) as [k0|] eqn:K; [|exact V]. destruct (ww_tread w i) as [r|] eqn:R; [|exact V].
    constructor; cbn [ww_cache ww_mq ww_tq ww_mread ww_tread]; auto using inv_finish.
    intros k x H F. destruct (D k x H F) as [X | X]; [left | right; exact X].
    apply (finish_hand _ _ _ _ _ _ _ _ r K R); [|exact X]. intros A. destruct r as [y|]; [discriminate A | left; reflexivity].
Qed.

Lemma winv_init n : WInv (winit n).
Proof. constructor; cbn; try discriminate; apply inv_qinit. Qed.

Lemma winv_run : forall ops w, WInv w -> orderly w ops -> WInv (wrun w ops).
Proof. induction ops as [| op ops IH]; intros w V O; [exact V|]. destruct O as (O1 & O2). apply IH; [apply winv_step; assumption | exact O2]. Qed.
