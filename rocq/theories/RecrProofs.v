Require Import Coq.ZArith.ZArith Coq.Lists.List Coq.Strings.String Coq.Bool.Bool Coq.micromega.Lia.
Require Import Coq.Sorting.Permutation.
From Verif Require Import Types Sort RolloutModel RolloutSpec RolloutProofs ScaleModel ScaleSpec ScaleProofs
  RecreateModel RecreateSpec RecreateProofs RecrSpec.
Import ListNotations.
Open Scope string_scope.
Open Scope list_scope.
Open Scope Z_scope.
Require Import Coq.micromega.ZifyBool.

(** *** What holds in every history *)
Definition sane (w : World) : Prop :=
  NoDup (map r_name (w_sets w)) /\
  NoDup (map r_template (w_sets w)) /\
  0 <= w_replicas w /\ limit_ok w /\
  (forall x, In x (w_sets w) -> 0 <= ms_spec (r_ms x) /\ 0 <= r_machines x) /\
  (forall x y, In x (w_sets w) -> In y (w_sets w) -> 0 < ms_spec (r_ms x) -> 0 < ms_spec (r_ms y) -> r_name x = r_name y) /\
  (forall x, In x (w_sets w) -> 0 < ms_spec (r_ms x) -> ms_desired (r_ms x) = AnnInt (ms_spec (r_ms x))).

Lemma sane_fresh : forall w, fresh_world w -> limit_ok w -> sane w.
Proof.
  intros w (H & H1) L. unfold sane. rewrite H. cbn [map]. split; [constructor|]. split; [constructor|].
  split; [exact H1|]. split; [exact L|]. split; [intros ? []|]. split; [intros ? ? []|intros ? []].
Qed.

Lemma filter_map_comm : forall A B (f : A -> B) (p : B -> bool) l,
  filter p (map f l) = map f (filter (fun x => p (f x)) l).
Proof. intros. induction l as [|a l IH]; [reflexivity|]. cbn. destruct (p (f a)); cbn; rewrite IH; reflexivity. Qed.

Lemma one_filter : forall A B (f : A -> B) (p : A -> bool) l a, NoDup (map f l) ->
  (forall x y, In x l -> In y l -> p x = true -> p y = true -> f x = f y) ->
  In a l -> p a = true -> filter p l = [a].
Proof.
  intros A B f p l a. induction l as [|b l IH]; intros N H I P; [destruct I|].
  cbn in N. inversion N as [|? ? N1 N2]; subst. cbn [filter]. destruct (p b) eqn:E.
  - assert (f b = f a) as Eb by (apply H; [now left|exact I|exact E|exact P]).
    assert (b = a) as ->. { destruct I as [->|I]; [reflexivity|]. exfalso. apply N1. rewrite Eb. apply in_map; exact I. }
    f_equal. clear IH. assert (forall x, In x l -> p x = false) as F.
    { intros x Hx. destruct (p x) eqn:Ex; [|reflexivity]. exfalso. apply N1.
      rewrite (H a x (or_introl eq_refl) (or_intror Hx) P Ex). apply in_map; exact Hx. }
    clear - F. induction l as [|c l IH]; [reflexivity|]. cbn. rewrite (F c (or_introl eq_refl)). apply IH. intros; apply F; now right.
  - apply IH; auto.
    + intros x y Hx Hy. apply H; now right.
    + destruct I as [->|I]; [congruence|exact I].
Qed.

Lemma filter_nil : forall A (p : A -> bool) l, (forall x, In x l -> p x = false) -> filter p l = [].
Proof.
  intros A p l F. induction l as [|c l IH]; [reflexivity|]. cbn. rewrite (F c (or_introl eq_refl)). apply IH. intros; apply F; now right.
Qed.

Lemma findNew_is : forall w z, NoDup (map r_template (w_sets w)) -> In z (w_sets w) -> r_template z = w_template w -> findNew w = Some z.
Proof.
  intros w z N I E. destruct (findNew w) as [y|] eqn:F.
  - destruct (findNew_some _ _ F) as (I2 & E2). f_equal. eapply (key_inj _ _ r_template); eauto. congruence.
  - exfalso. apply (findNew_none _ F). rewrite <- E. apply in_map; exact I.
Qed.

(* The olds are the sets of the other templates. *)
Definition oldies (w : World) : list RSet := filter (fun x => negb (Nat.eqb (r_template x) (w_template w))) (w_sets w).

Lemma findOlds_is : forall w, sane w -> findOlds w = map r_ms (oldies w).
Proof.
  intros w (N & T & _). unfold findOlds, oldies. f_equal. destruct (findNew w) as [z|] eqn:F.
  - destruct (findNew_some _ _ F) as (I & E). apply filter_ext_in. intros x Hx. f_equal.
    destruct (String.eqb_spec (r_name x) (r_name z)) as [e|n], (Nat.eqb_spec (r_template x) (w_template w)) as [e2|n2]; try reflexivity.
    + exfalso. apply n2. rewrite <- E. f_equal. eapply (key_inj _ _ r_name); eauto.
    + exfalso. apply n. f_equal. eapply (key_inj _ _ r_template); eauto. congruence.
  - pose proof (findNew_none _ F) as H. symmetry. rewrite <- (filter_ext_in (fun _ => true)).
    + clear. induction (w_sets w) as [|a l IH]; [reflexivity|]. cbn. now rewrite IH.
    + intros x Hx. destruct (Nat.eqb_spec (r_template x) (w_template w)) as [e|n]; [|reflexivity].
      exfalso. apply H. rewrite <- e. apply in_map; exact Hx.
Qed.

Lemma oldies_in : forall w x, In x (oldies w) <-> In x (w_sets w) /\ r_template x <> w_template w.
Proof.
  intros w x. unfold oldies. rewrite filter_In. destruct (Nat.eqb_spec (r_template x) (w_template w)); cbn; intuition congruence.
Qed.

Lemma olds_active_one : forall w a, sane w -> In a (oldies w) -> 0 < ms_spec (r_ms a) ->
  filter (fun s => 0 <? ms_spec s) (findOlds w) = [r_ms a].
Proof.
  intros w a S Ha Pa. rewrite (findOlds_is _ S), filter_map_comm.
  rewrite (one_filter _ _ r_name (fun x => 0 <? ms_spec (r_ms x)) (oldies w) a); [reflexivity| | |exact Ha|lia].
  - apply map_NoDup_filter. apply S.
  - intros x y Hx Hy Px Py. apply oldies_in in Hx, Hy. destruct S as (_ & _ & _ & _ & _ & O & _). apply O; try tauto; lia.
Qed.

Lemma olds_active_none : forall w, sane w -> (forall x, In x (w_sets w) -> r_template x <> w_template w -> ms_spec (r_ms x) = 0) ->
  filter (fun s => 0 <? ms_spec s) (findOlds w) = [].
Proof.
  intros w S H. rewrite (findOlds_is _ S). apply filter_nil. intros s Hs. apply in_map_iff in Hs. destruct Hs as (x & <- & Hx).
  apply oldies_in in Hx. rewrite H by tauto. reflexivity.
Qed.

Lemma cleanup_some : forall w, limit_ok w -> exists dels, cleanupMachineDeployment (w_md w) (findOlds w) = Some dels /\
  forall s, In s dels -> In s (findOlds w).
Proof.
  intros w L. unfold cleanupMachineDeployment, w_md; cbn [md_historyLimit]. unfold limit_ok in L. destruct (w_limit w) as [l|].
  - destruct (_ <=? 0); [exists []; split; [reflexivity|intros ? []]|].
    match goal with |- context [if ?a <? ?b then _ else _] => destruct (Z.ltb_spec a b) end; [lia|].
    eexists. split; [reflexivity|]. intros s Hs. apply filter_In in Hs. destruct Hs as (Hs & _).
    assert (In s (isort byCreation (filter (fun s => negb (ms_deleting s)) (findOlds w)))) as Hi.
    { clear - Hs. revert Hs. generalize (isort byCreation (filter (fun s => negb (ms_deleting s)) (findOlds w))).
      generalize (Z.to_nat (Z.of_nat (List.length (filter (fun s => negb (ms_deleting s)) (findOlds w))) - l)).
      intros n m. revert n. induction m as [|c m IH]; intros [|n] H; try destruct H; [left; assumption|right; eauto]. }
    apply (Permutation_in s (Permutation_sym (isort_perm _ _))) in Hi. apply filter_In in Hi. tauto.
  - exists []. split; [reflexivity|intros ? []].
Qed.

(** *** The writes of a reconcile *)
Lemma reconcile_calls : forall w complete, sane w ->
  let calls := reconcileRecreate complete (w_md w) (option_map r_ms (findNew w)) (findOlds w)
                 (map (fun x => (r_name x, r_machines x)) (w_sets w)) in
  (exists a, In a (w_sets w) /\ r_template a <> w_template w /\ 0 < ms_spec (r_ms a) /\
     (calls = Some [Resize (r_ms a) 0] \/
      calls = Some [Resize (r_ms a) (w_replicas w)] /\ ms_spec (r_ms a) <> w_replicas w /\
        exists z, In z (w_sets w) /\ r_template z = w_template w)) \/
  (forall x, In x (w_sets w) -> r_template x <> w_template w -> ms_spec (r_ms x) = 0) /\
   ((~ In (w_template w) (map r_template (w_sets w)) /\
      (calls = Some [] /\ drained w = false \/
       exists dels, calls = Some (CreateSet (w_replicas w) :: map Delete dels) /\ (forall s, In s dels -> In s (findOlds w)))) \/
    (exists z, In z (w_sets w) /\ r_template z = w_template w /\
      (calls = Some [Resize (r_ms z) (w_replicas w)] \/
       ms_spec (r_ms z) = w_replicas w /\
       exists dels, calls = Some (map Delete dels) /\ (forall s, In s dels -> In s (findOlds w))))).
Proof.
  intros w complete S calls.
  assert ((exists a, In a (w_sets w) /\ r_template a <> w_template w /\ 0 < ms_spec (r_ms a)) \/
          (forall x, In x (w_sets w) -> r_template x <> w_template w -> ms_spec (r_ms x) = 0)) as [(a & Ia & Ta & Pa)|NO].
  { destruct (filter (fun x => 0 <? ms_spec (r_ms x)) (oldies w)) as [|a r] eqn:E.
    - right. intros x Hx Tx. destruct S as (_ & _ & _ & _ & P & _). destruct (P x Hx) as (P1 & _).
      destruct (Z.eq_dec (ms_spec (r_ms x)) 0) as [|n]; [assumption|exfalso].
      assert (In x (filter (fun x => 0 <? ms_spec (r_ms x)) (oldies w))) as Hf.
      { apply filter_In. rewrite oldies_in. split; [tauto|lia]. }
      rewrite E in Hf. destruct Hf.
    - left. assert (In a (filter (fun x => 0 <? ms_spec (r_ms x)) (oldies w))) as Hf by (rewrite E; now left).
      apply filter_In in Hf. rewrite oldies_in in Hf. exists a. repeat split; try tauto. lia. }
  - left. exists a. split; [exact Ia|]. split; [exact Ta|]. split; [exact Pa|].
    assert (filter (fun s => 0 <? ms_spec s) (findOlds w) = [r_ms a]) as AO.
    { apply olds_active_one; auto. apply oldies_in; tauto. }
    destruct (findNew w) as [z|] eqn:F.
    + destruct (findNew_some _ _ F) as (Iz & Tz). cbn [option_map] in calls.
      assert (ms_spec (r_ms z) = 0) as Sz.
      { destruct S as (N & _ & _ & _ & P & O & _). destruct (P z Iz). destruct (Z.eq_dec (ms_spec (r_ms z)) 0); [assumption|].
        exfalso. apply Ta. rewrite <- Tz. f_equal. eapply (key_inj _ _ r_name); eauto. apply O; auto; lia. }
      assert (active_sets (Some (r_ms z)) (findOlds w) = [r_ms a]) as AA.
      { unfold active_sets, all_sets. rewrite filter_app, AO. cbn. rewrite Sz. reflexivity. }
      unfold calls, reconcileRecreate, isScalingEvent.
      replace (FilterActiveMachineSets (allSets (Some (r_ms z)) (findOlds w))) with [r_ms a]
        by (rewrite active_filter; symmetry; exact AA).
      cbn [existsb].
      assert (ms_desired (r_ms a) = AnnInt (ms_spec (r_ms a))) as -> by (apply S; auto).
      cbn [w_md md_replicas]. destruct (Z.eqb_spec (ms_spec (r_ms a)) (w_replicas w)) as [e|ne]; cbn [negb orb].
      * left. unfold rolloutRecreate. rewrite active_filter, AO. reflexivity.
      * right. rewrite (one_active _ _ _ _ AA). cbn. split; [reflexivity|]. split; [exact ne|]. exists z; auto.
    + left. unfold calls, reconcileRecreate. cbn [option_map isScalingEvent]. unfold rolloutRecreate. rewrite active_filter, AO. reflexivity.
  - right. split; [exact NO|]. pose proof (olds_active_none w S NO) as AO.
    assert (limit_ok w) as L by apply S. destruct (cleanup_some w L) as (dels & CD & SD).
    destruct (findNew w) as [z|] eqn:F.
    + right. destruct (findNew_some _ _ F) as (Iz & Tz). exists z. split; [exact Iz|]. split; [exact Tz|].
      cbn [option_map] in calls.
      assert (active_sets (Some (r_ms z)) (findOlds w) = if 0 <? ms_spec (r_ms z) then [r_ms z] else []) as AA.
      { unfold active_sets, all_sets. rewrite filter_app, AO. cbn. destruct (0 <? ms_spec (r_ms z)); reflexivity. }
      unfold calls, reconcileRecreate, isScalingEvent.
      replace (FilterActiveMachineSets (allSets (Some (r_ms z)) (findOlds w))) with (if 0 <? ms_spec (r_ms z) then [r_ms z] else [])
        by (rewrite active_filter; symmetry; exact AA).
      assert (0 <= w_replicas w) as R0 by apply S.
      assert (0 <= ms_spec (r_ms z)) as P0 by (apply S; auto).
      destruct (Z.eq_dec (ms_spec (r_ms z)) (w_replicas w)) as [e|ne].
      * right. split; [exact e|].
        replace (match (if 0 <? ms_spec (r_ms z) then [r_ms z] else []) with
                 | [] => 0 <? md_replicas (w_md w)
                 | m :: l => existsb (fun s => match ms_desired s with AnnInt n => negb (n =? md_replicas (w_md w)) | _ => false end) (m :: l)
                 end) with false.
        2:{ cbn [w_md md_replicas]. destruct (0 <? ms_spec (r_ms z)) eqn:E0; [|lia]. cbn [existsb].
            assert (ms_desired (r_ms z) = AnnInt (ms_spec (r_ms z))) as -> by (apply S; [assumption|lia]).
            rewrite e, Z.eqb_refl. reflexivity. }
        unfold rolloutRecreate. rewrite active_filter, AO.
        destruct (oldMachinesRunning _ _ _); [exists []; split; [reflexivity|intros ? []]|].
        replace (ms_spec (r_ms z) =? md_replicas (w_md w)) with true by (cbn; symmetry; apply Z.eqb_eq; exact e).
        destruct complete; [|exists []; split; [reflexivity|intros ? []]]. rewrite CD. cbn [app]. exists dels; auto.
      * left.
        replace (match (if 0 <? ms_spec (r_ms z) then [r_ms z] else []) with
                 | [] => 0 <? md_replicas (w_md w)
                 | m :: l => existsb (fun s => match ms_desired s with AnnInt n => negb (n =? md_replicas (w_md w)) | _ => false end) (m :: l)
                 end) with true.
        2:{ cbn [w_md md_replicas]. destruct (0 <? ms_spec (r_ms z)) eqn:E0; [|lia]. cbn [existsb].
            assert (ms_desired (r_ms z) = AnnInt (ms_spec (r_ms z))) as -> by (apply S; [assumption|lia]).
            destruct (Z.eqb_spec (ms_spec (r_ms z)) (w_replicas w)); [contradiction|reflexivity]. }
        destruct (0 <? ms_spec (r_ms z)).
        -- rewrite (one_active _ _ _ _ AA). reflexivity.
        -- rewrite (none_active_new _ _ _ AA). reflexivity.
    + left. pose proof (findNew_none _ F) as NT. split; [exact NT|].
      unfold calls, reconcileRecreate. cbn [option_map isScalingEvent]. unfold rolloutRecreate. rewrite active_filter, AO.
      destruct (oldMachinesRunning None (findOlds w) _) eqn:ER.
      * left. split; [reflexivity|]. destruct (drained w) eqn:D; [exfalso|reflexivity].
        unfold drained in D. rewrite forallb_forall in D.
        assert (forall x, In x (w_sets w) -> r_machines x = 0 /\ ms_status (r_ms x) = 0) as Q.
        { intros x Hx. assert (ms_spec (r_ms x) = 0) as E0.
          { apply NO; [exact Hx|]. intro e. apply NT. rewrite <- e. apply in_map; exact Hx. }
          specialize (D x Hx). rewrite E0 in D. cbn in D. lia. }
        unfold oldMachinesRunning in ER. apply orb_true_iff in ER. destruct ER as [ER|ER].
        -- rewrite count_actual in ER. assert (sum ms_status (findOlds w) = 0); [|lia].
           rewrite (findOlds_is _ S).
           assert (forall x, In x (oldies w) -> ms_status (r_ms x) = 0) as Q2 by (intros x Hx; apply oldies_in in Hx; apply Q; tauto).
           clear - Q2. induction (oldies w) as [|b l IH]; [reflexivity|]. unfold sum in *; cbn [map fold_right].
           cbn. rewrite (Q2 b (or_introl eq_refl)). cbn in IH. rewrite IH; [reflexivity|]. intros; apply Q2; now right.
        -- apply existsb_exists in ER. destruct ER as (p & Hp & E). apply in_map_iff in Hp. destruct Hp as (x & <- & Hx).
           cbn in E. destruct (Q x Hx). lia.
      * right. destruct complete; [|exists []; split; [reflexivity|intros ? []]]. rewrite CD. exists dels; auto.
Qed.

(** *** How far the rollout is from its end *)
Definition lev (k : nat) (w : World) : Prop :=
  match k with
  | O => finished w
  | S O => forall x, In x (w_sets w) -> r_template x <> w_template w -> ms_spec (r_ms x) = 0
  | S (S O) => forall x, In x (w_sets w) -> r_template x <> w_template w ->
      ms_spec (r_ms x) = 0 \/ ms_spec (r_ms x) = w_replicas w \/ ~ In (w_template w) (map r_template (w_sets w))
  | _ => True
  end.

Lemma lev_up : forall k w, lev k w -> lev (S k) w.
Proof.
  intros [|[|[|k]]] w H; cbn in *; auto.
  - apply H.
Qed.

Definition resized (w : World) (a : RSet) (v : Z) (x : RSet) : RSet :=
  if String.eqb (r_name x) (r_name a) then mkRSet (r_template x) (set_size (w_replicas w) (w_replicas w) (r_ms x) v) (r_machines x) else x.

Lemma resize_eq : forall name now w a v,
  applyCall name now w (Resize (r_ms a) v) = mkWorld (w_template w) (w_replicas w) (w_limit w) (map (resized w a v) (w_sets w)).
Proof. reflexivity. Qed.

Lemma resized_name : forall w a v x, r_name (resized w a v x) = r_name x.
Proof. intros. unfold resized. destruct (String.eqb _ _); reflexivity. Qed.

Lemma resized_template : forall w a v x, r_template (resized w a v x) = r_template x.
Proof. intros. unfold resized. destruct (String.eqb _ _); reflexivity. Qed.

Lemma resized_spec : forall w a v x, ms_spec (r_ms (resized w a v x)) = if String.eqb (r_name x) (r_name a) then v else ms_spec (r_ms x).
Proof. intros. unfold resized. destruct (String.eqb _ _); reflexivity. Qed.

Lemma sane_resize : forall w a v, sane w -> In a (w_sets w) -> v = 0 \/ v = w_replicas w ->
  (forall x, In x (w_sets w) -> r_name x <> r_name a -> v = 0 \/ ms_spec (r_ms x) = 0) ->
  sane (mkWorld (w_template w) (w_replicas w) (w_limit w) (map (resized w a v) (w_sets w))).
Proof.
  intros w a v (N & T & R & L & P & O & D) Ia Hv Hx. unfold sane; cbn [w_sets w_template w_replicas w_limit].
  rewrite !map_map. split; [erewrite map_ext; [exact N|]; intro; apply resized_name|].
  split; [erewrite map_ext; [exact T|]; intro; apply resized_template|]. split; [exact R|]. split; [exact L|]. split; [|split].
  - intros x Hi. apply in_map_iff in Hi. destruct Hi as (y & <- & Hy). destruct (P y Hy). unfold resized.
    destruct (String.eqb _ _); cbn; split; lia.
  - intros x y Hi Hj Px Py. apply in_map_iff in Hi, Hj. destruct Hi as (x0 & <- & Hx0), Hj as (y0 & <- & Hy0).
    rewrite !resized_name. rewrite resized_spec in Px, Py.
    destruct (String.eqb_spec (r_name x0) (r_name a)) as [e|n], (String.eqb_spec (r_name y0) (r_name a)) as [e2|n2].
    + congruence.
    + destruct (Hx y0 Hy0 n2); lia.
    + destruct (Hx x0 Hx0 n); lia.
    + apply O; auto.
  - intros x Hi Px. apply in_map_iff in Hi. destruct Hi as (x0 & <- & Hx0). rewrite resized_spec in Px |- *.
    unfold resized. destruct (String.eqb _ _); cbn; [f_equal; lia|apply D; auto].
Qed.

Lemma sane_filter : forall w g, sane w -> sane (mkWorld (w_template w) (w_replicas w) (w_limit w) (filter g (w_sets w))).
Proof.
  intros w g (N & T & R & L & P & O & D). unfold sane; cbn [w_sets w_template w_replicas w_limit].
  split; [apply map_NoDup_filter; exact N|]. split; [apply map_NoDup_filter; exact T|]. split; [exact R|]. split; [exact L|].
  split; [|split].
  - intros x Hx. apply filter_In in Hx. apply P; tauto.
  - intros x y Hx Hy. apply filter_In in Hx, Hy. apply O; tauto.
  - intros x Hx. apply filter_In in Hx. apply D; tauto.
Qed.

Lemma lev1_filter : forall w g, lev 1 w -> lev 1 (mkWorld (w_template w) (w_replicas w) (w_limit w) (filter g (w_sets w))).
Proof. intros w g H x Hx. cbn [w_sets w_template] in *. apply filter_In in Hx. apply H; tauto. Qed.

(* Deletions of old sets. *)
Lemma deletes_gen : forall name now w dels, sane w ->
  (forall s, In s dels -> exists x, In x (w_sets w) /\ r_template x <> w_template w /\ ms_name s = r_name x) ->
  forall m w2, sane w2 -> lev 1 w2 -> w_template w2 = w_template w ->
     (forall x, In x (w_sets w) -> r_template x = w_template w -> In x (w_sets w2)) ->
     let w' := fold_left (applyCall name now) (firstn m (map Delete dels)) w2 in
     sane w' /\ lev 1 w' /\ w_template w' = w_template w /\ w_replicas w' = w_replicas w2 /\
     (forall x, In x (w_sets w) -> r_template x = w_template w -> In x (w_sets w')).
Proof.
  intros name now w dels S. induction dels as [|s0 dels IH2]; intros H' m w2 S2 L2 T2 K2; cbn [map]; [rewrite firstn_nil; cbn; tauto|].
  destruct m as [|m]; [cbn; tauto|]. cbn [firstn fold_left applyCall].
  apply (IH2 ltac:(intros; apply H'; now right) m (mkWorld (w_template w2) (w_replicas w2) (w_limit w2) (filter (fun x => negb (String.eqb (r_name x) (ms_name s0))) (w_sets w2)))).
  - apply sane_filter; exact S2.
  - apply lev1_filter; exact L2.
  - exact T2.
  - intros x Hx Tx. cbn [w_sets]. apply filter_In. split; [apply K2; auto|].
    destruct (String.eqb_spec (r_name x) (ms_name s0)) as [e|]; [|reflexivity]. exfalso.
    destruct (H' s0 (or_introl eq_refl)) as (y & Iy & Ty & Ny). apply Ty. rewrite <- Tx. f_equal.
    eapply (key_inj _ _ r_name); [apply S| | |]; eauto. congruence.
Qed.

Lemma deletes : forall name now w dels n, sane w -> lev 1 w ->
  (forall s, In s dels -> exists x, In x (w_sets w) /\ r_template x <> w_template w /\ ms_name s = r_name x) ->
  let w' := fold_left (applyCall name now) (firstn n (map Delete dels)) w in
  sane w' /\ lev 1 w' /\ (finished w -> finished w').
Proof.
  intros name now w dels n S L H w'.
  destruct (deletes_gen name now w dels S H n w S L eq_refl (fun x h _ => h)) as (A1 & A2 & A3 & A4 & A5).
  split; [exact A1|]. split; [exact A2|].
  intros ((z & Iz & Tz & Sz) & _). split; [|exact A2]. exists z. unfold w'. rewrite A3, A4. split; [apply A5; auto|tauto].
Qed.

Lemma dels_refs : forall w dels, sane w -> (forall s, In s dels -> In s (findOlds w)) ->
  forall s, In s dels -> exists x, In x (w_sets w) /\ r_template x <> w_template w /\ ms_name s = r_name x.
Proof.
  intros w dels S H s Hs. apply H in Hs. rewrite (findOlds_is _ S) in Hs. apply in_map_iff in Hs. destruct Hs as (x & <- & Hx).
  apply oldies_in in Hx. exists x. tauto.
Qed.

Lemma created : forall name now w, sane w -> lev 1 w -> ~ In (w_template w) (map r_template (w_sets w)) ->
  let w' := applyCall name now w (CreateSet (w_replicas w)) in
  (w' = w /\ existsb (fun x => String.eqb (r_name x) name) (w_sets w) = true) \/
  (sane w' /\ finished w' /\ w_template w' = w_template w /\ (forall x, In x (w_sets w) -> In x (w_sets w'))).
Proof.
  intros name now w (N & T & R & L & P & O & D) L1 NT w'. unfold w'. cbn [applyCall].
  destruct (existsb _ _) eqn:E; [left; auto|right].
  assert (~ In name (map r_name (w_sets w))) as HN.
  { intro H. apply in_map_iff in H. destruct H as (x & H1 & H2).
    assert (existsb (fun x => String.eqb (r_name x) name) (w_sets w) = true) by (apply existsb_exists; exists x; rewrite H1, String.eqb_refl; auto).
    congruence. }
  assert (forall x, In x (w_sets w) -> ms_spec (r_ms x) = 0) as Z0.
  { intros x Hx. apply L1; [exact Hx|]. intro e. apply NT. rewrite <- e. apply in_map; exact Hx. }
  split; [|split; [|split; [reflexivity|cbn [w_sets]; intros; apply in_or_app; auto]]].
  - unfold sane; cbn [w_sets w_template w_replicas w_limit]. rewrite !map_app. cbn [map].
    split. { eapply Permutation_NoDup; [apply Permutation_app_comm|]. simpl. constructor; assumption. }
    split. { eapply Permutation_NoDup; [apply Permutation_app_comm|]. simpl. constructor; assumption. }
    split; [exact R|]. split; [exact L|]. split; [|split].
    + intros x Hx. apply in_app_or in Hx. destruct Hx as [Hx|[<-|[]]]; [apply P; auto|cbn; lia].
    + intros x y Hx Hy Px Py. apply in_app_or in Hx, Hy. destruct Hx as [Hx|[<-|[]]]; [rewrite (Z0 x Hx) in Px; lia|].
      destruct Hy as [Hy|[<-|[]]]; [rewrite (Z0 y Hy) in Py; lia|reflexivity].
    + intros x Hx Px. apply in_app_or in Hx. destruct Hx as [Hx|[<-|[]]]; [apply D; auto|reflexivity].
  - split; cbn [w_sets w_template w_replicas].
    + eexists. split; [apply in_or_app; right; left; reflexivity|]. split; reflexivity.
    + intros x Hx Tx. apply in_app_or in Hx. destruct Hx as [Hx|[<-|[]]]; [auto|]. exfalso. apply Tx. reflexivity.
Qed.

Lemma rec_step : forall w complete name now writes, sane w ->
  let e := Reconcile complete name now writes in let w' := step w e in
  sane w' /\ (forall k, lev k w -> lev k w') /\ (turn w e = true -> forall k, lev (S k) w -> lev k w').
Proof.
  intros w complete name now writes S e w'. unfold w'. cbn [step e].
  destruct writes as [|wr].
  { assert (forall X, (match X with None => w | Some calls => fold_left (applyCall name now) (firstn 0 calls) w end) = w) as E by (intros [?|]; reflexivity).
    rewrite E. split; [exact S|]. split; [auto|]. unfold turn, e. rewrite andb_false_r. discriminate. }
  destruct (reconcile_calls w complete S) as [(a & Ia & Ta & Pa & [E|(E & Ne & z & Iz & Tz)])|(L1 & [(NT & [(E & Dr)|(dels & E & Rf)])|(z & Iz & Tz & [E|(Sz & dels & E & Rf)])])];
    rewrite E; clear E.
  - (* the old set goes to zero *)
    assert (lev 1 (applyCall name now w (Resize (r_ms a) 0))) as L1.
    { rewrite resize_eq. intros x Hx Tx. cbn [w_sets w_template] in *. apply in_map_iff in Hx. destruct Hx as (x0 & <- & Hx0).
      rewrite resized_spec. destruct (String.eqb_spec (r_name x0) (r_name a)) as [e0|n0]; [reflexivity|].
      destruct S as (_ & _ & _ & _ & P & O & _). destruct (P x0 Hx0). destruct (Z.eq_dec (ms_spec (r_ms x0)) 0); [assumption|].
      exfalso. apply n0. apply O; auto; lia. }
    cbn [firstn fold_left]. rewrite firstn_nil. cbn [fold_left]. split; [|split].
    + rewrite resize_eq. apply sane_resize; auto.
    + intros [|[|k]] H; [|exact L1|].
      * destruct H as (_ & H). specialize (H a Ia Ta). lia.
      * destruct k as [|k]; [|exact I]. apply lev_up. exact L1.
    + intros _ [|[|[|k]]] H; [cbn in H; specialize (H a Ia Ta); lia|exact L1|apply lev_up; exact L1|exact I].
  - (* the old set gets the wanted size first *)
    assert (lev 2 (applyCall name now w (Resize (r_ms a) (w_replicas w)))) as L2.
    { rewrite resize_eq. intros x Hx Tx. cbn [w_sets w_template w_replicas] in *. apply in_map_iff in Hx. destruct Hx as (x0 & <- & Hx0).
      rewrite resized_spec. destruct (String.eqb_spec (r_name x0) (r_name a)) as [e0|n0]; [right; left; reflexivity|]. left.
      destruct S as (_ & _ & _ & _ & P & O & _). destruct (P x0 Hx0). destruct (Z.eq_dec (ms_spec (r_ms x0)) 0); [assumption|].
      exfalso. apply n0. apply O; auto; lia. }
    assert (~ lev 2 w) as N2.
    { intro H. destruct (H a Ia Ta) as [H0|[H0|H0]]; [lia|contradiction|]. apply H0. rewrite <- Tz. apply in_map; exact Iz. }
    cbn [firstn fold_left]. rewrite firstn_nil. cbn [fold_left]. split; [|split].
    + rewrite resize_eq. apply sane_resize; auto. intros x Hx Nx. right.
      destruct S as (_ & _ & _ & _ & P & O & _). destruct (P x Hx). destruct (Z.eq_dec (ms_spec (r_ms x)) 0); [assumption|].
      exfalso. apply Nx. apply O; auto; lia.
    + intros [|[|k]] H; [exfalso; apply N2; do 2 apply lev_up; exact H|exfalso; apply N2; apply lev_up; exact H|].
      destruct k as [|k]; [exact L2|exact I].
    + intros _ [|[|[|k]]] H; [exfalso; apply N2; apply lev_up; exact H|exfalso; apply N2; exact H|exact L2|exact I].
  - (* waiting for machines *)
    rewrite firstn_nil. cbn [fold_left]. split; [exact S|]. split; [auto|]. unfold turn, e. rewrite Dr. discriminate.
  - (* the new set is created *)
    cbn [firstn fold_left]. pose proof (dels_refs w dels S Rf) as RR.
    destruct (created name now w S L1 NT) as [(Ew & Ex)|(S1 & F1 & T1 & K1)].
    + rewrite Ew. destruct (deletes name now w dels wr S L1 RR) as (A1 & A2 & A3).
      split; [exact A1|]. split; [|unfold turn, e; rewrite Ex, andb_false_r; discriminate].
      intros [|[|[|k]]] H; [exact (A3 H)|exact A2|apply lev_up; exact A2|exact I].
    + remember (applyCall name now w (CreateSet (w_replicas w))) as w1 eqn:Ew1.
      assert (forall s, In s dels -> exists x, In x (w_sets w1) /\ r_template x <> w_template w1 /\ ms_name s = r_name x) as RR1.
      { intros s Hs. destruct (RR s Hs) as (x & Ix & Tx & Nx). exists x. rewrite T1. auto. }
      destruct (deletes name now w1 dels wr S1 (proj2 F1) RR1) as (A1 & A2 & A3). specialize (A3 F1).
      split; [exact A1|].
      assert (forall k, lev k (fold_left (applyCall name now) (firstn wr (map Delete dels)) w1)) as AA
        by (intros [|[|[|k]]]; [exact A3|exact A2|apply lev_up; exact A2|exact I]).
      auto.
  - (* the new set gets the wanted size *)
    assert (finished (applyCall name now w (Resize (r_ms z) (w_replicas w)))) as F1.
    { rewrite resize_eq. split; cbn [w_sets w_template w_replicas].
      - exists (resized w z (w_replicas w) z). split; [apply in_map; exact Iz|]. rewrite resized_template, resized_spec, String.eqb_refl. auto.
      - intros x Hx Tx. apply in_map_iff in Hx. destruct Hx as (x0 & <- & Hx0). rewrite resized_template in Tx. rewrite resized_spec.
        destruct (String.eqb_spec (r_name x0) (r_name z)) as [e0|n0]; [|apply L1; auto].
        exfalso. apply Tx. rewrite <- Tz. f_equal. eapply (key_inj _ _ r_name); [apply S| | |]; eauto. }
    cbn [firstn fold_left]. rewrite firstn_nil. cbn [fold_left].
    assert (forall k, lev k (applyCall name now w (Resize (r_ms z) (w_replicas w)))) as AA
      by (intros [|[|[|k]]]; [exact F1|exact (proj2 F1)|apply lev_up; exact (proj2 F1)|exact I]).
    split; [|auto]. rewrite resize_eq. apply sane_resize; auto. intros x Hx Nx. right. apply L1; [exact Hx|].
    intro e0. apply Nx. f_equal. eapply (key_inj _ _ r_template); [apply S| | |]; eauto. congruence.
  - (* nothing but the clean-up *)
    pose proof (dels_refs w dels S Rf) as RR. assert (finished w) as F by (split; [exists z; auto|exact L1]).
    destruct (deletes name now w dels (Datatypes.S wr) S L1 RR) as (A1 & A2 & A3). specialize (A3 F). split; [exact A1|].
    assert (forall k, lev k (fold_left (applyCall name now) (firstn (Datatypes.S wr) (map Delete dels)) w)) as AA
      by (intros [|[|[|k]]]; [exact A3|exact A2|apply lev_up; exact A2|exact I]).
    auto.
Qed.

(** *** The other events *)
Lemma onSet_same : forall w name f, sane w ->
  (forall x, r_name (f x) = r_name x /\ r_template (f x) = r_template x /\ ms_spec (r_ms (f x)) = ms_spec (r_ms x) /\
     ms_desired (r_ms (f x)) = ms_desired (r_ms x) /\ (0 <= ms_spec (r_ms x) -> 0 <= r_machines x -> 0 <= r_machines (f x))) ->
  sane (onSet name f w) /\ forall k, lev k w -> lev k (onSet name f w).
Proof.
  intros w name f (N & T & R & L & P & O & D) Hf. unfold onSet.
  remember (fun x => if String.eqb (r_name x) name then f x else x) as g eqn:Eg.
  assert (forall x, r_name (g x) = r_name x /\ r_template (g x) = r_template x /\ ms_spec (r_ms (g x)) = ms_spec (r_ms x) /\
     ms_desired (r_ms (g x)) = ms_desired (r_ms x) /\ (0 <= ms_spec (r_ms x) -> 0 <= r_machines x -> 0 <= r_machines (g x))) as Hg.
  { intro x. subst g. destruct (String.eqb _ _); [apply Hf|tauto]. }
  clear Hf Eg f. split.
  - unfold sane; cbn [w_sets w_template w_replicas w_limit]. rewrite !map_map.
    split; [erewrite map_ext; [exact N|]; intro; apply Hg|]. split; [erewrite map_ext; [exact T|]; intro; apply Hg|].
    split; [exact R|]. split; [exact L|]. split; [|split].
    + intros x Hx. apply in_map_iff in Hx. destruct Hx as (y & <- & Hy). destruct (Hg y) as (_ & _ & E & _ & M). destruct (P y Hy). rewrite E. auto.
    + intros x y Hx Hy. apply in_map_iff in Hx, Hy. destruct Hx as (x0 & <- & Hx0), Hy as (y0 & <- & Hy0).
      destruct (Hg x0) as (-> & _ & -> & _), (Hg y0) as (-> & _ & -> & _). apply O; auto.
    + intros x Hx. apply in_map_iff in Hx. destruct Hx as (y & <- & Hy). destruct (Hg y) as (_ & _ & -> & -> & _). apply D; auto.
  - assert (map r_template (map g (w_sets w)) = map r_template (w_sets w)) as ET by (rewrite map_map; apply map_ext; intro; apply Hg).
    intros [|[|[|k]]] H; [| | |exact I].
    + destruct H as ((z & Iz & Tz & Sz) & H). split; cbn [w_sets w_template w_replicas].
      * exists (g z). destruct (Hg z) as (_ & -> & -> & _). split; [apply in_map; exact Iz|auto].
      * intros x Hx. apply in_map_iff in Hx. destruct Hx as (y & <- & Hy). destruct (Hg y) as (_ & -> & -> & _). apply H; auto.
    + intros x Hx. cbn [w_sets w_template] in *. apply in_map_iff in Hx. destruct Hx as (y & <- & Hy). destruct (Hg y) as (_ & -> & -> & _). apply H; auto.
    + intros x Hx. cbn [w_sets w_template w_replicas] in *. rewrite ET. apply in_map_iff in Hx. destruct Hx as (y & <- & Hy).
      destruct (Hg y) as (_ & -> & -> & _). apply H; auto.
Qed.

Lemma sane_step : forall w e, sane w -> sane (step w e).
Proof.
  intros w e S. destruct e as [c n t k|n|n|n g og st av|t|n].
  - apply rec_step; exact S.
  - apply (onSet_same w n); [exact S|]. intro x. destruct (Z.ltb_spec (r_machines x) (ms_spec (r_ms x))); cbn; repeat split; lia.
  - apply (onSet_same w n); [exact S|]. intro x. destruct (Z.ltb_spec 0 (r_machines x)); cbn; repeat split; lia.
  - apply (onSet_same w n); [exact S|]. intro x. cbn. repeat split; lia.
  - exact S.
  - cbn [step]. destruct (Z.leb_spec 0 n); [|exact S]. destruct S as (N & T & R & L). unfold sane; cbn [w_sets w_template w_replicas w_limit].
    split; [exact N|]. split; [exact T|]. split; [assumption|]. exact L.
Qed.

Lemma sane_run : forall l w, sane w -> sane (run w l).
Proof. induction l as [|e l IH]; intros w S; [exact S|]. cbn. apply IH, sane_step, S. Qed.

Lemma calm_step : forall w e, sane w -> calm e ->
  (forall k, lev k w -> lev k (step w e)) /\ (turn w e = true -> forall k, lev (S k) w -> lev k (step w e)).
Proof.
  intros w e S C. destruct e as [c n t k|n|n|n g og st av|t|n]; try (destruct C; fail).
  - apply rec_step; exact S.
  - split; [|discriminate]. apply (onSet_same w n); [exact S|]. intro x. destruct (Z.ltb_spec (r_machines x) (ms_spec (r_ms x))); cbn; repeat split; lia.
  - split; [|discriminate]. apply (onSet_same w n); [exact S|]. intro x. destruct (Z.ltb_spec 0 (r_machines x)); cbn; repeat split; lia.
  - split; [|discriminate]. apply (onSet_same w n); [exact S|]. intro x. cbn. repeat split; lia.
Qed.

Lemma calm_run : forall l w k, sane w -> Forall calm l -> lev k w -> lev (k - turns w l) (run w l).
Proof.
  induction l as [|e l IH]; intros w k S C H; cbn [turns run fold_left].
  - rewrite PeanoNat.Nat.sub_0_r. exact H.
  - inversion C as [|? ? C1 C2]; subst. destruct (calm_step w e S C1) as (A & B). specialize (IH (step w e)).
    destruct (turn w e) eqn:E.
    + destruct k as [|k]; [apply (IH 0%nat); auto; apply sane_step; exact S|]. cbn. apply IH; auto. apply sane_step; exact S.
    + cbn. apply IH; auto. apply sane_step; exact S.
Qed.

Lemma recreate_ends : forall w0 l0 l, fresh_world w0 -> limit_ok w0 -> Forall calm l ->
  (3 <= turns (run w0 l0) l)%nat -> finished (run (run w0 l0) l).
Proof.
  intros w0 l0 l F L C H. assert (sane (run w0 l0)) as S by (apply sane_run, sane_fresh; auto).
  pose proof (calm_run l (run w0 l0) 3 S C I) as K. replace (3 - turns (run w0 l0) l)%nat with 0%nat in K by lia. exact K.
Qed.

Lemma recreate_stays : forall w0 l0 l, fresh_world w0 -> limit_ok w0 -> Forall calm l ->
  finished (run w0 l0) -> finished (run (run w0 l0) l).
Proof.
  intros w0 l0 l F L C H. assert (sane (run w0 l0)) as S by (apply sane_run, sane_fresh; auto).
  exact (calm_run l (run w0 l0) 0 S C H).
Qed.

Lemma recreate_served : forall w0 l0, fresh_world w0 -> limit_ok w0 -> let w := run w0 l0 in
  finished w -> served w ->
  exists z, In z (w_sets w) /\ r_template z = w_template w /\ r_machines z = w_replicas w /\
    forall x, In x (w_sets w) -> x <> z -> r_machines x = 0.
Proof.
  intros w0 l0 F L w ((z & Iz & Tz & Sz) & H) Sv. assert (sane w) as S by (apply sane_run, sane_fresh; auto).
  exists z. destruct (Sv z Iz) as (M & _). split; [exact Iz|]. split; [exact Tz|]. split; [congruence|].
  intros x Hx Nx. destruct (Sv x Hx) as (-> & _). apply H; [exact Hx|]. intro e. apply Nx.
  eapply (key_inj _ _ r_template); [apply S| | |]; eauto. congruence.
Qed.

(** *** Never stuck *)
Fixpoint many (n : nat) : string := match n with O => EmptyString | S k => String.append "x" (many k) end.

Lemma many_length : forall n, String.length (many n) = n.
Proof. induction n as [|n IH]; [reflexivity|]. cbn. rewrite IH. reflexivity. Qed.

Lemma name_free : forall w, exists name, existsb (fun x => String.eqb (r_name x) name) (w_sets w) = false.
Proof.
  intro w. exists (many (S (fold_right (fun x m => String.length (r_name x) + m)%nat 0%nat (w_sets w)))).
  assert (forall l k, (fold_right (fun x m => String.length (r_name x) + m)%nat 0%nat l <= k)%nat ->
            existsb (fun x => String.eqb (r_name x) (many (S k))) l = false) as G.
  { induction l as [|x l IH]; intros k Hk; [reflexivity|]. cbn [existsb fold_right] in *. apply orb_false_iff. split; [|apply IH; lia].
    destruct (String.eqb_spec (r_name x) (many (S k))) as [e|]; [|reflexivity]. exfalso.
    apply (f_equal String.length) in e. rewrite many_length in e. lia. }
  apply G. lia.
Qed.

Definition serve (x : RSet) : RSet :=
  let s := r_ms x in
  mkRSet (r_template x)
    (mkMS (ms_name s) (ms_ctime s) (ms_deleting s) (ms_gen s) (ms_obsgen s) (ms_spec s) (ms_spec s) (ms_spec s) (ms_spec s) (ms_desired s) (ms_max s))
    (ms_spec s).

Lemma onSet_onSet : forall w n f g, (forall x, r_name (f x) = r_name x) -> onSet n g (onSet n f w) = onSet n (fun x => g (f x)) w.
Proof.
  intros w n f g H. unfold onSet; cbn. f_equal. rewrite map_map. apply map_ext. intro x.
  destruct (String.eqb (r_name x) n) eqn:E; [rewrite H, E; reflexivity|rewrite E; reflexivity].
Qed.

Lemma onSet_ext_in : forall w n f g, (forall x, In x (w_sets w) -> r_name x = n -> f x = g x) -> onSet n f w = onSet n g w.
Proof.
  intros w n f g H. unfold onSet. f_equal. apply map_ext_in. intros x Hx.
  destruct (String.eqb_spec (r_name x) n); auto.
Qed.

Lemma onSet_in : forall w n f x, In x (w_sets w) -> r_name x = n -> In (f x) (w_sets (onSet n f w)).
Proof.
  intros w n f x Hx E. unfold onSet; cbn. apply in_map_iff. exists x. rewrite E, String.eqb_refl. auto.
Qed.

Lemma serve_one : forall k w x, sane w -> In x (w_sets w) -> Z.abs_nat (r_machines x - ms_spec (r_ms x)) = k ->
  exists l, Forall calm l /\ run w l = onSet (r_name x) serve w.
Proof.
  induction k as [|k IH]; intros w x S Hx E.
  - exists [Report (r_name x) (ms_gen (r_ms x)) (ms_obsgen (r_ms x)) (ms_spec (r_ms x)) (ms_spec (r_ms x))].
    split; [repeat constructor|]. cbn [run fold_left step]. apply onSet_ext_in. intros y Hy Ny.
    assert (y = x) as -> by (eapply (key_inj _ _ r_name); [apply S| | |]; eauto).
    unfold serve. f_equal. lia.
  - destruct (Z.ltb_spec (r_machines x) (ms_spec (r_ms x))) as [Lt|Ge].
    + pose (f := fun y => if r_machines y <? ms_spec (r_ms y) then mkRSet (r_template y) (r_ms y) (r_machines y + 1) else y).
      assert (sane (onSet (r_name x) f w)) as S1 by (apply (sane_step w (MachineUp (r_name x))); exact S).
      assert (forall y, r_name (f y) = r_name y) as Nf by (intro y; unfold f; destruct (_ <? _); reflexivity).
      destruct (IH (onSet (r_name x) f w) (f x) S1) as (l & C & El).
      * apply onSet_in; auto.
      * unfold f. destruct (Z.ltb_spec (r_machines x) (ms_spec (r_ms x))); [|lia]. cbn. lia.
      * exists (MachineUp (r_name x) :: l). split; [constructor; [exact I|exact C]|]. cbn [run fold_left step]. fold f.
        unfold run in El. rewrite El, Nf, onSet_onSet by exact Nf. apply onSet_ext_in. intros y _ _. unfold f. destruct (_ <? _); reflexivity.
    + pose (f := fun y => if 0 <? r_machines y then mkRSet (r_template y) (r_ms y) (r_machines y - 1) else y).
      assert (sane (onSet (r_name x) f w)) as S1 by (apply (sane_step w (MachineDown (r_name x))); exact S).
      assert (forall y, r_name (f y) = r_name y) as Nf by (intro y; unfold f; destruct (_ <? _); reflexivity).
      assert (0 <= ms_spec (r_ms x) /\ 0 <= r_machines x) as P by (apply S; exact Hx).
      destruct (IH (onSet (r_name x) f w) (f x) S1) as (l & C & El).
      * apply onSet_in; auto.
      * unfold f. destruct (Z.ltb_spec 0 (r_machines x)); cbn; lia.
      * exists (MachineDown (r_name x) :: l). split; [constructor; [exact I|exact C]|]. cbn [run fold_left step]. fold f.
        unfold run in El. rewrite El, Nf, onSet_onSet by exact Nf. apply onSet_ext_in. intros y _ _. unfold f. destruct (_ <? _); reflexivity.
Qed.

Definition ok (x : RSet) : Prop := r_machines x = ms_spec (r_ms x) /\ ms_status (r_ms x) = ms_spec (r_ms x).

Lemma serve_ok : forall x, ok (serve x).
Proof. intro x. split; reflexivity. Qed.

Lemma serve_all : forall ns w, sane w -> (forall x, In x (w_sets w) -> In (r_name x) ns \/ ok x) ->
  exists l, Forall calm l /\ served (run w l).
Proof.
  induction ns as [|n ns IH]; intros w S H.
  - exists []. split; [constructor|]. intros x Hx. destruct (H x Hx) as [[]|O]; exact O.
  - destruct (find (fun x => String.eqb (r_name x) n) (w_sets w)) as [x|] eqn:F.
    + apply find_some in F. destruct F as (Ix & Ex). apply String.eqb_eq in Ex. subst n.
      destruct (serve_one _ w x S Ix eq_refl) as (l & C & El).
      destruct (IH (run w l)) as (l2 & C2 & S2).
      * apply sane_run; exact S.
      * rewrite El. intros y Hy. unfold onSet in Hy; cbn in Hy. apply in_map_iff in Hy. destruct Hy as (y0 & <- & Hy0).
        destruct (String.eqb_spec (r_name y0) (r_name x)) as [e|ne]; [right; apply serve_ok|].
        destruct (H y0 Hy0) as [[e|Hn]|O]; [congruence|left; exact Hn|right; exact O].
      * exists (l ++ l2). split; [apply Forall_app; auto|]. unfold run in *. rewrite fold_left_app. exact S2.
    + apply (IH w S). intros x Hx. destruct (H x Hx) as [[e|Hn]|O]; auto.
      exfalso. eapply find_none in F; [|exact Hx]. cbv beta in F. rewrite <- e, String.eqb_refl in F. discriminate.
Qed.

Lemma serve_world : forall w, sane w -> exists l, Forall calm l /\ served (run w l).
Proof.
  intros w S. apply (serve_all (map r_name (w_sets w)) w S). intros x Hx. left. apply in_map; exact Hx.
Qed.

Lemma served_drained : forall w, served w -> drained w = true.
Proof.
  intros w H. unfold drained. apply forallb_forall. intros x Hx. destruct (H x Hx) as (-> & ->).
  destruct (Z.eqb_spec (ms_spec (r_ms x)) 0) as [_|_]; reflexivity.
Qed.

Lemma one_turn : forall w k, sane w -> lev (S k) w -> exists l, Forall calm l /\ lev k (run w l).
Proof.
  intros w k S H. destruct (serve_world w S) as (l & C & Sv). destruct (name_free (run w l)) as (name & Nm).
  exists (l ++ [Reconcile false name 0 1]). split; [apply Forall_app; split; [exact C|repeat constructor]|].
  unfold run. rewrite fold_left_app. cbn [fold_left]. fold (run w l).
  apply rec_step; [apply sane_run; exact S| |].
  - unfold turn. rewrite (served_drained _ Sv), Nm. reflexivity.
  - assert (forall l w k, sane w -> Forall calm l -> lev k w -> lev k (run w l)) as G.
    { clear. induction l as [|e l IH]; intros w k S C H; [exact H|]. inversion C as [|? ? C1 C2]; subst. cbn. apply IH; auto.
      - apply sane_step; exact S.
      - exact (proj1 (calm_step w e S C1) k H). }
    apply G; auto.
Qed.

Lemma turns_more : forall k w, sane w -> lev k w -> exists l, Forall calm l /\ finished (run w l).
Proof.
  induction k as [|k IH]; intros w S H.
  - exists []. split; [constructor|exact H].
  - destruct (one_turn w k S H) as (l & C & L). destruct (IH (run w l)) as (l2 & C2 & F); [apply sane_run; exact S|exact L|].
    exists (l ++ l2). split; [apply Forall_app; auto|]. unfold run in *. rewrite fold_left_app. exact F.
Qed.

Lemma recreate_never_stuck : forall w0 l0, fresh_world w0 -> limit_ok w0 ->
  exists l, Forall calm l /\ finished (run (run w0 l0) l) /\ served (run (run w0 l0) l).
Proof.
  intros w0 l0 F L. assert (sane (run w0 l0)) as S by (apply sane_run, sane_fresh; auto).
  destruct (turns_more 3 _ S I) as (l & C & Fi).
  destruct (serve_world (run (run w0 l0) l)) as (l2 & C2 & Sv); [apply sane_run; exact S|].
  exists (l ++ l2). split; [apply Forall_app; auto|].
  assert (run (run w0 l0) (l ++ l2) = run (run (run w0 l0) l) l2) as -> by (unfold run; rewrite fold_left_app; reflexivity).
  split; [|exact Sv].
  assert (run (run w0 l0) l = run w0 (l0 ++ l)) as E by (unfold run; rewrite fold_left_app; reflexivity).
  rewrite E in *. apply recreate_stays; auto.
Qed.

(** *** Two requesting sets: nothing ever happens *)
Definition twoSets (w : World) : Prop :=
  w_template w = 2%nat /\ w_replicas w = 9 /\
  exists d1 g1 o1 s1 a1 r1 m1 k1 d2 g2 o2 s2 a2 r2 m2 k2,
    w_sets w = [mkRSet 1 (mkMS "old" 1 d1 g1 o1 8 s1 a1 r1 (AnnInt 8) m1) k1;
                mkRSet 2 (mkMS "new" 2 d2 g2 o2 5 s2 a2 r2 (AnnInt 8) m2) k2].

Lemma two_step : forall w e, calm e -> twoSets w -> twoSets (step w e).
Proof.
  intros [t R lim sets] e C (T & Rp & d1 & g1 & o1 & s1 & a1 & r1 & m1 & k1 & d2 & g2 & o2 & s2 & a2 & r2 & m2 & k2 & E).
  cbn [w_template w_replicas w_sets] in *. subst t R sets.
  destruct e as [c n now wr|n|n|n g og st av|t|n]; try (destruct C; fail).
  - unfold step.
    match goal with |- twoSets (match ?x with _ => _ end) => assert (x = Some []) as -> by (destruct c; reflexivity) end.
    rewrite firstn_nil. cbn [fold_left]. repeat split. repeat eexists.
  - unfold step, onSet, twoSets. cbn [w_template w_replicas w_sets map r_name r_ms ms_name r_machines ms_spec].
    split; [reflexivity|]. split; [reflexivity|]. destruct (String.eqb "old" n), (String.eqb "new" n), (k1 <? 8), (k2 <? 5); repeat eexists.
  - unfold step, onSet, twoSets. cbn [w_template w_replicas w_sets map r_name r_ms ms_name r_machines ms_spec].
    split; [reflexivity|]. split; [reflexivity|]. destruct (String.eqb "old" n), (String.eqb "new" n), (0 <? k1), (0 <? k2); repeat eexists.
  - unfold step, onSet, twoSets. cbn [w_template w_replicas w_sets map r_name r_ms ms_name r_machines ms_spec].
    split; [reflexivity|]. split; [reflexivity|]. destruct (String.eqb "old" n), (String.eqb "new" n); repeat eexists.
Qed.

Lemma two_run : forall l w, Forall calm l -> twoSets w -> twoSets (run w l).
Proof. induction l as [|e l IH]; intros w C H; [exact H|]. inversion C; subst. cbn. apply IH; auto. apply two_step; auto. Qed.

Lemma two_not_finished : forall w, twoSets w -> ~ finished w.
Proof.
  intros w (T & _ & d1 & g1 & o1 & s1 & a1 & r1 & m1 & k1 & d2 & g2 & o2 & s2 & a2 & r2 & m2 & k2 & E) (_ & H).
  assert (8 = 0); [|lia]. rewrite E, T in H. apply (H _ (or_introl eq_refl)). cbn. congruence.
Qed.
