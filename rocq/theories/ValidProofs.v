(* Proofs about validation. *)
Require Import Coq.ZArith.ZArith Coq.Lists.List Coq.Strings.String Coq.Bool.Bool Coq.micromega.Lia.
Require Import Coq.micromega.ZifyBool.
From Verif Require Import Types RolloutModel RecreateModel ScaleModel RolloutRun MetaModel MetaSpec MetaProofs TmplModel TmplSpec TmplProofs ValidModel ValidSpec.
Import ListNotations.
Open Scope string_scope.
Open Scope list_scope.
Open Scope Z_scope.

Lemma app_nil : forall (A : Type) (a b : list A), a ++ b = [] <-> a = [] /\ b = [].
Proof. intros A a b. split; [apply app_eq_nil|intros [-> ->]; reflexivity]. Qed.

Lemma if_nil : forall (b : bool) (e : VErr), (if b then [] else [e]) = [] <-> b = true.
Proof. intros [] e; split; congruence. Qed.

Lemma if_nil' : forall (b : bool) (e : VErr), (if b then [e] else []) = [] <-> b = false.
Proof. intros [] e; split; congruence. Qed.

Lemma canConvert_spec : forall v n, canConvert v n = true <-> Convertible v n.
Proof.
  intros v n. unfold canConvert, Convertible. destruct v as [[z|p|]|]; cbn [GetValueFromIntOrPercent]; try (split; [discriminate|contradiction]).
  - rewrite andb_true_iff, !Z.leb_le. tauto.
  - remember (- (- (p * n) / 100)) as x.
    assert (X : p * n <= 100 * x /\ 100 * (x - 1) < p * n).
    { pose proof (Z.div_mod (- (p * n)) 100 ltac:(lia)). pose proof (Z.mod_pos_bound (- (p * n)) 100 ltac:(lia)). lia. }
    rewrite andb_true_iff, !Z.leb_le. split.
    + intro H. exists x. lia.
    + intros [y Y]. assert (y = x) by lia. subst y. lia.
Qed.

Lemma updateConfig_spec : forall a b n, validateUpdateConfiguration a b n = [] <-> Convertible a n /\ Convertible b n.
Proof. intros a b n. unfold validateUpdateConfiguration. rewrite app_nil, !if_nil, !canConvert_spec. tauto. Qed.

Lemma strategy_spec : forall s n, validateUpdateStrategy s n = [] <-> GoodStrategy s n.
Proof.
  intros s n. unfold validateUpdateStrategy, GoodStrategy. rewrite !app_nil, if_nil. cbn [existsb]. rewrite !orb_true_iff.
  destruct (String.eqb_spec (vs_type s) "Recreate") as [e|N1].
  - rewrite e. cbn [String.eqb Ascii.eqb Bool.eqb]. split; [intros _; now left|]. intros _. split; [now left|]. split; reflexivity.
  - destruct (String.eqb_spec (vs_type s) "RollingUpdate") as [e|N2].
    + rewrite e. cbn [String.eqb Ascii.eqb Bool.eqb]. destruct (vs_rolling s) as [[a b]|].
      * rewrite updateConfig_spec. split.
        -- intros [_ [X _]]. right. left. split; [reflexivity|]. exists a, b. tauto.
        -- intros [X|[[_ [a' [b' [E X]]]]|[X _]]]; try discriminate. injection E as <- <-. split; [tauto|]. split; [assumption|reflexivity].
      * split; [intros [_ [X _]]; discriminate|]. intros [X|[[_ [a' [b' [E X]]]]|[X _]]]; discriminate.
    + destruct (String.eqb_spec (vs_type s) "InPlaceUpdate") as [e|N3].
      * destruct (vs_inplace s) as [[[a b] o]|].
        -- rewrite app_nil, updateConfig_spec, if_nil, orb_true_iff, !String.eqb_eq. split.
           ++ intros [_ [_ X]]. right. right. split; [assumption|]. exists a, b, o. tauto.
           ++ intros [X|[[X _]|[_ [a' [b' [o' [E X]]]]]]]; [contradiction|contradiction|]. injection E as <- <- <-.
              split; [tauto|]. split; [reflexivity|tauto].
        -- split; [intros [_ [_ X]]; discriminate|]. intros [X|[[X _]|[_ [a' [b' [o' [E X]]]]]]]; [contradiction|contradiction|discriminate].
      * split; [|intros [X|[[X _]|[X _]]]; contradiction]. intros [[X|[X|[X|X]]] _]; discriminate.
Qed.

Lemma selector_spec : forall sel labels, validateSelector sel labels = [] <-> (forall k v, In (k, v) sel -> read k labels = v).
Proof.
  intros sel labels. unfold validateSelector. rewrite if_nil, forallb_forall. split.
  - intros H k v I. specialize (H _ I). now apply String.eqb_eq in H.
  - intros H [k v] I. apply String.eqb_eq. now apply H.
Qed.

Lemma class_spec : forall k c, validateClassReference k c = [] <-> k <> "" /\ c <> "".
Proof. intros k c. unfold validateClassReference. rewrite app_nil, !if_nil', !String.eqb_neq. tauto. Qed.

Lemma accepted_spec : forall v, validateMachineDeployment v = Some [] <->
  exists sel, v_selector v = Some sel /\ 0 <= v_replicas v /\ GoodStrategy (v_strategy v) (v_replicas v) /\
    (forall k x, In (k, x) sel -> read k (v_labels v) = x) /\ v_kind v <> "" /\ v_class v <> "".
Proof.
  intro v. unfold validateMachineDeployment. destruct (v_selector v) as [sel|].
  - split.
    + intro H. injection H as H. rewrite !app_nil, if_nil', strategy_spec, selector_spec, class_spec in H. exists sel.
      split; [reflexivity|]. split; [lia|]. tauto.
    + intros [sel' [E [R X]]]. injection E as <-. f_equal. rewrite !app_nil, if_nil', strategy_spec, selector_spec, class_spec.
      split; [lia|]. tauto.
  - split; [discriminate|]. intros [sel' [E _]]. discriminate.
Qed.

Lemma msAccepted_spec : forall r sel labels k c, validateMachineSet r (Some sel) labels k c = Some [] <->
  0 <= r /\ (forall k x, In (k, x) sel -> read k labels = x) /\ k <> "" /\ c <> "".
Proof.
  intros r sel labels k c. unfold validateMachineSet. split.
  - intro H. injection H as H. rewrite !app_nil, if_nil', selector_spec, class_spec in H. split; [lia|tauto].
  - intro H. f_equal. rewrite !app_nil, if_nil', selector_spec, class_spec. split; [lia|tauto].
Qed.

(* The set made for an accepted deployment is accepted. *)
Lemma newSet_accepted : forall hash d n uid now sel, isMap sel -> d_selector d = sel -> 0 <= n ->
  (forall k x, In (k, x) sel -> read k (t_labels (d_template d)) = x) -> t_kind (d_template d) <> "" -> t_class (d_template d) <> "" ->
  let s := newSet hash d n uid now in
  validateMachineSet (s_replicas s) (Some (s_selector s)) (t_labels (s_template s)) (t_kind (s_template s)) (t_class (s_template s)) = Some [].
Proof.
  intros hash d n uid now sel M E N S K C s. apply msAccepted_spec. unfold s, newSet. cbn [s_replicas s_selector s_template t_labels t_kind t_class].
  split; [assumption|]. split; [|split; assumption]. subst sel. intros k x I. unfold withLabel, read in *.
  pose proof (In_get k x _ (isMap_put hashKey (decimal (hash (d_template d) (d_collisions d))) _ M) I) as G.
  rewrite get_put in G. rewrite get_put. destruct (String.eqb_spec k hashKey); [now injection G|].
  apply (S k x). now apply get_In.
Qed.

(** Recreate. *)

Lemma resize_zero : forall l s, (In s l \/ ms_spec s = 0) -> ms_spec (applyResize (map (fun x => Resize x 0) l) s) = 0.
Proof.
  intro l. unfold applyResize.
  assert (G : forall l s, ms_spec s = 0 \/ (exists x, In x l /\ ms_name x = ms_name s) ->
    ms_spec (fold_left (fun s c => match c with Resize x n => if String.eqb (ms_name x) (ms_name s) then set_size (ms_spec s) (ms_spec s) s n else s | _ => s end)
       (map (fun x => Resize x 0) l) s) = 0).
  { clear l. induction l as [|a l IH]; intros s H; cbn [map fold_left].
    - destruct H as [H|[x [[] _]]]. assumption.
    - apply IH. destruct (String.eqb_spec (ms_name a) (ms_name s)) as [e|N]; cbn; [now left|].
      destruct H as [H|[x [[<-|I] E]]]; [now left|contradiction|]. right. exists x. tauto. }
  intros s [I|Z0]; apply G; [|now left]. right. exists s. tauto.
Qed.

Lemma resize_other : forall l s, (forall x, In x l -> ms_name x <> ms_name s) -> applyResize (map (fun x => Resize x 0) l) s = s.
Proof.
  induction l as [|a l IH]; intros s H; [reflexivity|]. unfold applyResize in *. cbn [map fold_left].
  destruct (String.eqb_spec (ms_name a) (ms_name s)) as [e|N]; [exfalso; now apply (H a (or_introl eq_refl))|].
  apply IH. intros x I. apply H. now right.
Qed.

Lemma settle_name : forall s, ms_name (settle s) = ms_name s.
Proof. reflexivity. Qed.

Lemma applyResize_name : forall calls s, ms_name (applyResize calls s) = ms_name s.
Proof.
  intro calls. unfold applyResize. induction calls as [|c calls IH]; intro s; [reflexivity|]. cbn [fold_left]. rewrite IH.
  destruct c; try reflexivity. destruct (String.eqb _ _); reflexivity.
Qed.

Definition quiet (s : MachineSet) : Prop := ms_spec s = 0 /\ ms_status s = 0.

Lemma filter_active_nil : forall olds, Forall (fun s => ms_spec s = 0) olds -> FilterActiveMachineSets olds = [].
Proof.
  intros olds H. unfold FilterActiveMachineSets. induction H as [|s l E H IH]; [reflexivity|]. cbn. rewrite E. exact IH.
Qed.

Lemma actual_zero : forall olds, Forall quiet olds -> GetActualReplicaCountForMachineSets olds = 0.
Proof. intros olds H. induction H as [|s l [E F] H IH]; [reflexivity|]. cbn. lia. Qed.

(* Old sets at rest: the new one gets all replicas. *)
Lemma rround_up : forall d n olds, Forall quiet olds -> (forall s, In s olds -> ms_name s <> ms_name n) ->
  ms_spec (fst (rround d (n, olds))) = md_replicas d /\ Forall quiet (snd (rround d (n, olds))).
Proof.
  intros d n olds Q D. unfold rround. unfold rolloutRecreate.
  rewrite filter_active_nil by (eapply Forall_impl; [|exact Q]; intros s [E _]; exact E).
  assert (R : oldMachinesRunning (Some n) olds (map (fun s => (ms_name s, ms_status s)) (n :: olds)) = false).
  { unfold oldMachinesRunning. rewrite actual_zero by assumption. cbn [Z.ltb]. apply orb_false_iff. split; [reflexivity|].
    cbn [map existsb fst snd]. rewrite String.eqb_refl. cbn [negb andb orb].
    clear D. induction Q as [|s l [E F] Q IH]; [reflexivity|]. cbn [map existsb fst snd]. rewrite F, IH. cbn. now rewrite andb_false_r. }
  rewrite R. destruct (ms_spec n =? md_replicas d) eqn:EQ.
  { cbn [fst snd]. unfold applyResize. cbn [fold_left]. split; [cbn; lia|].
    rewrite Forall_forall in *. intros s I. apply in_map_iff in I. destruct I as [x [<- I]]. destruct (Q x I) as [E F]. split; cbn; exact E. }
  cbn [fst snd applyResize fold_left]. unfold applyResize. cbn [fold_left]. rewrite String.eqb_refl. split; [reflexivity|].
  rewrite Forall_forall in *. intros s I. apply in_map_iff in I. destruct I as [x [<- I]]. destruct (Q x I) as [E F].
  destruct (String.eqb_spec (ms_name n) (ms_name x)) as [e|N]; [exfalso; now apply (D x I)|]. split; cbn; exact E.
Qed.

(* Otherwise they go to zero. *)
Lemma rround_down : forall d n olds, Forall settled olds -> (forall s, In s olds -> ms_name s <> ms_name n) ->
  ~ Forall (fun s => ms_spec s = 0) olds ->
  Forall quiet (snd (rround d (n, olds))).
Proof.
  intros d n olds S D H. unfold rround, rolloutRecreate.
  destruct (FilterActiveMachineSets olds) as [|a r] eqn:F.
  - exfalso. apply H. apply Forall_forall. intros s I. unfold FilterActiveMachineSets in F.
    rewrite Forall_forall in S. destruct (S s I) as [P _]. destruct (Z.eq_dec (ms_spec s) 0) as [|N]; [assumption|]. exfalso.
    assert (X : In s (filter (fun s => ms_spec s >? 0) olds)) by (apply filter_In; split; [assumption|lia]).
    unfold FilterActiveMachineSets in F. rewrite F in X. destruct X.
  - rewrite <- F. rewrite Forall_forall. intros s I. cbn [snd] in I. apply in_map_iff in I. destruct I as [x [<- I]].
    assert (Z0 : ms_spec (applyResize (map (fun s => Resize s 0) (FilterActiveMachineSets olds)) x) = 0).
    { apply resize_zero. rewrite Forall_forall in S. destruct (S x I) as [P _].
      destruct (Z.eq_dec (ms_spec x) 0); [now right|left]. unfold FilterActiveMachineSets. apply filter_In. split; [assumption|lia]. }
    split; cbn; exact Z0.
Qed.

Lemma rround_names : forall d n olds, ms_name (fst (rround d (n, olds))) = ms_name n /\ map ms_name (snd (rround d (n, olds))) = map ms_name olds.
Proof.
  intros d n olds. unfold rround. destruct (rolloutRecreate _ _ _ _ _) as [calls|]; [|split; reflexivity].
  cbn [fst snd]. rewrite settle_name, applyResize_name. split; [reflexivity|]. rewrite map_map. apply map_ext. intro s.
  now rewrite settle_name, applyResize_name.
Qed.

Lemma rrounds_done : forall d n olds k, Forall settled olds -> (forall s, In s olds -> ms_name s <> ms_name n) ->
  (2 <= k)%nat -> ms_spec (fst (rrounds k d (n, olds))) = md_replicas d /\ Forall (fun s => ms_spec s = 0) (snd (rrounds k d (n, olds))).
Proof.
  intros d n olds k S D K.
  assert (Names : forall j, ms_name (fst (rrounds j d (n, olds))) = ms_name n /\ map ms_name (snd (rrounds j d (n, olds))) = map ms_name olds).
  { induction j as [|j IH]; [split; reflexivity|]. cbn [rrounds]. destruct (rrounds j d (n, olds)) as [n' o'].
    destruct (rround_names d n' o') as [A B]. rewrite A, B. exact IH. }
  assert (D' : forall j s, In s (snd (rrounds j d (n, olds))) -> ms_name s <> ms_name (fst (rrounds j d (n, olds)))).
  { intros j s I E. destruct (Names j) as [A B]. apply (in_map ms_name) in I. rewrite B in I. apply in_map_iff in I. destruct I as [x [X I]].
    apply (D x I). congruence. }
  assert (Q1 : Forall quiet (snd (rrounds 1 d (n, olds)))).
  { cbn [rrounds]. destruct (Forall_dec (fun s => ms_spec s = 0) (fun s => Z.eq_dec (ms_spec s) 0) olds) as [Y|N].
    - apply rround_up; [|assumption]. rewrite Forall_forall in *. intros s I. split; [now apply Y|]. destruct (S s I) as [_ [E _]]. rewrite E. now apply Y.
    - now apply rround_down. }
  assert (Q : forall j, (1 <= j)%nat -> Forall quiet (snd (rrounds j d (n, olds)))).
  { intros j J. induction J as [|j J IH]; [assumption|]. cbn [rrounds]. specialize (D' j).
    destruct (rrounds j d (n, olds)) as [n' o']. now apply rround_up. }
  destruct k as [|[|k]]; [lia|lia|]. pose proof (Q (Datatypes.S k) ltac:(lia)) as Qk. specialize (D' (Datatypes.S k)).
  change (rrounds (Datatypes.S (Datatypes.S k)) d (n, olds)) with (rround d (rrounds (Datatypes.S k) d (n, olds))).
  destruct (rrounds (Datatypes.S k) d (n, olds)) as [n' o']. destruct (rround_up d n' o' Qk D') as [A B]. split; [assumption|].
  eapply Forall_impl; [|exact B]. intros s [E _]. exact E.
Qed.
