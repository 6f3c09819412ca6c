(** Metrics (C99): proofs. *)
Require Import Coq.ZArith.ZArith Coq.Lists.List Coq.Strings.String Coq.Bool.Bool Coq.Arith.PeanoNat Coq.micromega.Lia.
From Verif Require Import MetaModel MSetModel CopyModel MetrModel MetrSpec.
Import ListNotations.
Open Scope string_scope.
Open Scope list_scope.
Open Scope Z_scope.

Lemma key_eqb_iff : forall a b, key_eqb a b = true <-> a = b.
Proof.
  intros (a, x) (b, y). unfold key_eqb. cbn [fst snd]. rewrite andb_true_iff, String.eqb_eq. destruct (list_eq_dec string_dec x y); intuition congruence.
Qed.

Definition keyed (c : Call) (k : Key) (v : Z) : Prop := with_ (fst (fst c)) (snd (fst c)) = Some k /\ snd c = v.

Lemma setAll_some : forall l r, (exists r', setAll l r = Some r') <-> (forall c, In c l -> exists k v, keyed c k v).
Proof.
  induction l as [|((g, lab), v) l IH]; intros r; cbn [setAll]; [split; [intros _ c [] | eauto]|].
  destruct (with_ g lab) as [k|] eqn:W.
  - rewrite IH. split; [intros H c [<-|I]; [exists k, v; split; [exact W | reflexivity] | apply H, I] | intros H c I; apply H; right; exact I].
  - split; [intros (r' & E); discriminate|]. intros H. destruct (H _ (or_introl eq_refl)) as (k & x & (E & _)). cbn in E. congruence.
Qed.

Lemma setAll_get : forall l r r', setAll l r = Some r' -> forall k,
  (exists c v, In c l /\ keyed c k v /\ r' k = Some v) \/ ((forall c v, In c l -> ~ keyed c k v) /\ r' k = r k).
Proof.
  induction l as [|((g, lab), v) l IH]; intros r r' H k; cbn [setAll] in H; [injection H as <-; right; split; [intros c v []|reflexivity]|].
  destruct (with_ g lab) as [k0|] eqn:W; [|discriminate]. destruct (IH _ _ H k) as [(c & x & I & K & E)|(N & E)]; [left; exists c, x; split; [right; exact I | auto]|].
  destruct (key_eqb k0 k) eqn:Q.
  - apply key_eqb_iff in Q as ->. left. exists (g, lab, v), v. split; [left; reflexivity|]. split; [split; [exact W | reflexivity] | exact E].
  - right. split; [|exact E]. intros c x [<-|I]; [|apply N, I]. intros (X & _). cbn in X. rewrite W in X. injection X as ->. rewrite (proj2 (key_eqb_iff k k) eq_refl) in Q. discriminate.
Qed.

Lemma setAll_shows : forall l r r' c k v, setAll l r = Some r' -> In c l -> keyed c k v ->
  (forall c' v', In c' l -> keyed c' k v' -> v' = v) -> r' k = Some v.
Proof.
  intros l r r' c k v H I K U. destruct (setAll_get _ _ _ H k) as [(c' & v' & I' & K' & E)|(N & _)]; [rewrite (U _ _ I' K') in E; exact E | destruct (N _ _ I K)].
Qed.

(* The series of the calls. *)
Lemma k_two : forall g m v k x, declared g = ["name"; "namespace"] -> keyed (g, two m, v) k x <-> k = (g, of m) /\ x = v.
Proof.
  intros g m v k x D. unfold keyed, with_. cbn [fst snd]. rewrite D. cbn. unfold of. split.
  - intros (E & ->). injection E as <-. auto.
  - intros (-> & ->). auto.
Qed.
Lemma k_cond : forall g m t v k x, declared g = ["name"; "namespace"; "condition"] -> keyed (g, two m ++ [("condition", t)], v) k x <-> k = (g, of m ++ [t]) /\ x = v.
Proof.
  intros g m t v k x D. unfold keyed, with_. cbn [fst snd]. rewrite D. cbn. unfold of. split.
  - intros (E & ->). injection E as <-. auto.
  - intros (-> & ->). auto.
Qed.
Definition failedCall (g : string) (m : Meta) (f : FailedM) : Call :=
  (g, two m ++ [("failed_machine_name", f_name f); ("failed_machine_provider_id", f_pid f);
     ("failed_machine_last_operation_state", f_state f); ("failed_machine_last_operation_machine_operation_type", f_type f);
     ("failed_machine_owner_ref", f_owner f)], 1).
Lemma k_failed : forall g m f k x, (g = "MachineSetStatusFailedMachines" \/ g = "MachineDeploymentStatusFailedMachines") -> keyed (failedCall g m f) k x <-> k = (g, failedLabels m f) /\ x = 1.
Proof.
  intros g m f k x [-> | ->]; unfold keyed, with_, failedLabels, failedCall, of; cbn; (split; [intros (E & ->); injection E as <-; auto | intros (-> & ->); auto]).
Qed.
Lemma k_setInfo : forall m a b c d v k x,
  keyed ("MachineSetInfo", two m ++ [("createdAt", a); ("spec_machine_class_api_group", b); ("spec_machine_class_kind", c); ("spec_machine_class_name", d)], v) k x <->
  k = ("MachineSetInfo", of m ++ [a; b; c; d]) /\ x = v.
Proof. intros. unfold keyed, with_, of. cbn. split; [intros (E & ->); injection E as <-; auto | intros (-> & ->); auto]. Qed.
Lemma k_depInfo : forall m a b v k x,
  keyed ("MachineDeploymentInfo", two m ++ [("createdAt", a); ("spec_strategy_type", b)], v) k x <-> k = ("MachineDeploymentInfo", of m ++ [a; b]) /\ x = v.
Proof. intros. unfold keyed, with_, of. cbn. split; [intros (E & ->); injection E as <-; auto | intros (-> & ->); auto]. Qed.
Lemma k_macInfo : forall m a b c d e v k x,
  keyed ("MachineInfo", two m ++ [("createdAt", a); ("spec_provider_id", b); ("spec_class_api_group", c); ("spec_class_kind", d); ("spec_class_name", e)], v) k x <->
  k = ("MachineInfo", of m ++ [a; b; c; d; e]) /\ x = v.
Proof. intros. unfold keyed, with_, of. cbn. split; [intros (E & ->); injection E as <-; auto | intros (-> & ->); auto]. Qed.

(* The kinds of calls: for each call of an object its series. *)
Inductive Kind : Meta -> Call -> Key -> Z -> Prop :=
| K2 : forall g m v, declared g = ["name"; "namespace"] -> Kind m (g, two m, v) (g, of m) v
| K3 : forall g m t s, declared g = ["name"; "namespace"; "condition"] -> Kind m (g, two m ++ [("condition", t)], condValue s) (g, of m ++ [t]) (condValue s)
| KF : forall g m f, (g = "MachineSetStatusFailedMachines" \/ g = "MachineDeploymentStatusFailedMachines") -> Kind m (failedCall g m f) (g, failedLabels m f) 1
| KI : forall m c k, (forall k' x, keyed c k' x <-> k' = k /\ x = 1) -> (exists rest, snd k = of m ++ rest) -> Kind m c k 1.

Lemma kind_keyed : forall m c k v, Kind m c k v -> forall k' x, keyed c k' x <-> k' = k /\ x = v.
Proof. intros m c k v H k' x. destruct H; [apply k_two | apply k_cond | apply k_failed | ]; auto. Qed.
Lemma kind_of : forall m c k v, Kind m c k v -> exists rest, snd k = of m ++ rest.
Proof.
  intros m c k v H. destruct H; cbn [snd]; [exists []; symmetry; apply app_nil_r | eexists; reflexivity | unfold failedLabels; eexists; reflexivity | assumption].
Qed.

Lemma cond_kinds : forall g m l c, declared g = ["name"; "namespace"; "condition"] -> In c (condCalls g m l) -> exists t s, In (t, s) l /\ c = (g, two m ++ [("condition", t)], condValue s).
Proof. intros g m l c D I. unfold condCalls in I. apply in_map_iff in I as ((t, s) & <- & I). eauto. Qed.
Lemma failed_kinds : forall g m l c, In c (failedCalls g m l) -> exists f, In f l /\ c = failedCall g m f.
Proof. intros g m l c I. unfold failedCalls in I. apply in_map_iff in I as (f & <- & I). eauto. Qed.

Ltac two_ := eexists _, _; apply K2; reflexivity.
Lemma set_kinds : forall s c, In c (setCalls s) -> exists k v, Kind (s_meta s) c k v.
Proof.
  intros s c I. unfold setCalls, setInfoCalls, setSpecCalls, setStatusCalls in I. rewrite !in_app_iff in I. destruct I as [[<-|[]]|[[<-|[<-|[]]]|[I|[I|I]]]].
  - eexists _, _. apply KI; [intros k' x; apply k_setInfo | eexists; reflexivity].
  - two_.
  - two_.
  - apply cond_kinds in I as (t & x & _ & ->); [|reflexivity]. eexists _, _. apply K3. reflexivity.
  - destruct (s_failed s) as [l|]; [|destruct I]. apply failed_kinds in I as (f & _ & ->). eexists _, _. apply KF. auto.
  - destruct I as [<-|[<-|[<-|[<-|[]]]]]; two_.
Qed.

Lemma dep_kinds : forall d l c, depCalls d = Some l -> In c l -> exists k v, Kind (d_meta d) c k v.
Proof.
  intros d l c H I. unfold depCalls in H. destruct (depSpecCalls d) as [sp|] eqn:SP; [|discriminate]. cbn [option_map] in H. assert (E : l = depInfoCalls d ++ sp ++ depStatusCalls d) by congruence. subst l. rewrite !in_app_iff in I. destruct I as [[<-|[]]|[I|I]].
  - eexists _, _. apply KI; [intros k' x; apply k_depInfo | eexists; reflexivity].
  - assert (K : forall x, In x sp -> exists g v, x = (g, two (d_meta d), v) /\ declared g = ["name"; "namespace"]).
    { intros x X. unfold depSpecCalls in SP. cbv zeta in SP. destruct (String.eqb (d_type d) "RollingUpdate").
      - destruct (d_rolling d) as [([a|], [b|])|]; try discriminate. injection SP as <-. destruct (d_history d), (d_deadline d), (d_rollback d); cbn in X;
          repeat (destruct X as [<-|X]; [eexists _, _; split; reflexivity|]); destruct X.
      - injection SP as <-. destruct (d_history d), (d_deadline d), (d_rollback d); cbn in X;
          repeat (destruct X as [<-|X]; [eexists _, _; split; reflexivity|]); destruct X. }
    apply K in I as (g & v & -> & D). eexists _, _. apply K2, D.
  - unfold depStatusCalls in I. cbv zeta in I. rewrite !in_app_iff in I. destruct I as [I|[I|[I|I]]].
    + apply cond_kinds in I as (t & x & _ & ->); [|reflexivity]. eexists _, _. apply K3. reflexivity.
    + apply failed_kinds in I as (f & _ & ->). eexists _, _. apply KF. auto.
    + destruct I as [<-|[<-|[<-|[<-|[<-|[]]]]]]; two_.
    + destruct (d_collisions d); [|destruct I]. destruct I as [<-|[]]. two_.
Qed.

Lemma mac_kinds : forall m c, In c (macCalls m) -> exists k v, Kind (m_meta m) c k v.
Proof.
  intros m c I. unfold macCalls in I. rewrite !in_app_iff in I. destruct I as [[<-|[]]|[I|[<-|[]]]].
  - eexists _, _. apply KI; [intros k' x; apply k_macInfo | eexists; reflexivity].
  - apply cond_kinds in I as (t & x & _ & ->); [|reflexivity]. eexists _, _. apply K3. reflexivity.
  - two_.
Qed.

(* Any list of objects. *)
Lemma objects_some : forall (A : Type) (meta : A -> Meta) (calls : A -> list Call), (forall o c, In c (calls o) -> exists k v, Kind (meta o) c k v) -> 
forall l r, exists r', setAll (List.concat (map calls l)) r = Some r'.
Proof.
  intros A meta calls kinds l r. apply setAll_some. intros c I. apply in_concat in I as (x & X & I). apply in_map_iff in X as (o & <- & _).
  destruct (kinds _ _ I) as (k & v & K). exists k, v. apply (kind_keyed _ _ _ _ K). auto.
Qed.

Lemma objects_show : forall (A : Type) (meta : A -> Meta) (calls : A -> list Call), (forall o c, In c (calls o) -> exists k v, Kind (meta o) c k v) -> 
forall l r r' o c k v, apart meta l -> setAll (List.concat (map calls l)) r = Some r' -> In o l -> In c (calls o) -> keyed c k v ->
  (forall c' v', In c' (calls o) -> keyed c' k v' -> v' = v) -> r' k = Some v.
Proof.
  intros A meta calls kinds l r r' o c k v N H I J K U. apply (setAll_shows _ _ _ c k v H); [apply in_concat; exists (calls o); split; [apply in_map, I | exact J] | exact K|].
  intros c' v' J' K'. apply in_concat in J' as (x & X & J'). apply in_map_iff in X as (o' & <- & I').
  destruct (kinds _ _ J) as (k0 & v0 & Q). destruct (kinds _ _ J') as (k1 & v1 & Q').
  apply (kind_keyed _ _ _ _ Q) in K as (E & _). pose proof K' as KK. apply (kind_keyed _ _ _ _ Q') in K' as (E' & _). subst k0 k1.
  destruct (kind_of _ _ _ _ Q) as (a & Ea). destruct (kind_of _ _ _ _ Q') as (b & Eb). rewrite Ea in Eb. unfold of in Eb. cbn in Eb. injection Eb as E1 E2 _.
  assert (o' = o) as ->.
  { clear - N I I' E1 E2. unfold apart in N. induction l as [|y l IH]; [destruct I|]. cbn in N. apply NoDup_cons_iff in N as (N1 & N2).
    assert (S : of (meta o) = of (meta o')) by (unfold of; congruence). destruct I as [->|I], I' as [->|I'].
    - reflexivity.
    - destruct N1. rewrite S. apply (in_map (fun x => of (meta x))), I'.
    - destruct N1. rewrite <- S. apply (in_map (fun x => of (meta x))), I.
    - apply IH; assumption. }
  apply (U c'); assumption.
Qed.

(* Series of other objects stay as they were. *)
Lemma objects_rest : forall (A : Type) (meta : A -> Meta) (calls : A -> list Call), (forall o c, In c (calls o) -> exists k v, Kind (meta o) c k v) -> 
forall l r r' k, setAll (List.concat (map calls l)) r = Some r' -> (forall o, In o l -> forall rest, snd k <> of (meta o) ++ rest) -> r' k = r k.
Proof.
  intros A meta calls kinds l r r' k H N. destruct (setAll_get _ _ _ H k) as [(c & v & I & K & _)|(_ & E)]; [|exact E].
  apply in_concat in I as (x & X & I). apply in_map_iff in X as (o & <- & J). destruct (kinds _ _ I) as (k0 & v0 & Q).
  destruct (proj1 (kind_keyed _ _ _ _ Q k v) K) as (E0 & _). destruct (kind_of _ _ _ _ Q) as (rest & E). rewrite <- E0 in E. destruct (N o J rest E).
Qed.

Definition sc (d : DepO) : list Call := match depCalls d with Some l => l | None => [] end.
Lemma sc_kinds : forall d c, In c (sc d) -> exists k v, Kind (d_meta d) c k v.
Proof. intros d c I. unfold sc in I. destruct (depCalls d) as [l|] eqn:E; [apply (dep_kinds d l c E I) | destruct I]. Qed.

Lemma allCalls_some : forall l, (forall d, In d l -> depCalls d <> None) -> allCalls l = Some (List.concat (map sc l)).
Proof.
  induction l as [|d l IH]; intros H; [reflexivity|]. cbn [allCalls map List.concat]. unfold sc at 1. destruct (depCalls d) eqn:E; [|destruct (H d (or_introl eq_refl) E)].
  rewrite IH by (intros x I; apply H; right; exact I). reflexivity.
Qed.
Lemma allCalls_none : forall l, allCalls l = None <-> exists d, In d l /\ depCalls d = None.
Proof.
  induction l as [|d l IH]; [split; [discriminate | intros (d & [] & _)]|]. cbn [allCalls]. destruct (depCalls d) eqn:E.
  - destruct (allCalls l); cbn; (split; [intros X; try discriminate|]).
    + intros (d' & [<-|I] & N); [congruence|]. assert (K : Some l1 = None) by (apply IH; eauto). discriminate.
    + destruct (proj1 IH eq_refl) as (d' & I & N). exists d'. split; [right; exact I | exact N].
    + reflexivity.
  - split; [intros _; exists d; split; [left; reflexivity | exact E] | reflexivity].
Qed.
Lemma incomplete_iff : forall d, depCalls d = None <-> incomplete d.
Proof.
  intros d. unfold depCalls, depSpecCalls, incomplete. cbv zeta. destruct (String.eqb_spec (d_type d) "RollingUpdate") as [E|N].
  - destruct (d_rolling d) as [([a|], [b|])|]; cbn.
    1:{ split; [discriminate | intros (_ & K); destruct (K a b eq_refl)]. }
    all: split; [intros _; split; [exact E | intros s u; discriminate] | reflexivity].
  - cbn. split; [discriminate | intros (K & _); contradiction].
Qed.

Lemma deps_shown : forall l r r' n f, collectDeps (Some l) r = Shown r' n f ->
  setAll (List.concat (map sc l)) r = Some r' /\ n = Some (Z.of_nat (List.length l)) /\ f = false /\ forall d, In d l -> depCalls d <> None.
Proof.
  intros l r r' n f H. unfold collectDeps in H. destruct (allCalls l) as [c|] eqn:E; [|discriminate].
  assert (K : forall d, In d l -> depCalls d <> None) by (intros d I X; assert (allCalls l = None) by (apply allCalls_none; eauto); congruence).
  rewrite (allCalls_some l K) in E. injection E as <-. destruct (setAll _ r) as [r''|]; [|discriminate]. injection H as -> <- <-. auto.
Qed.

Lemma crash_iff : forall l r, collectDeps (Some l) r = Crash <-> exists d, In d l /\ incomplete d.
Proof.
  intros l r. unfold collectDeps. destruct (allCalls l) as [c|] eqn:E.
  - assert (K : forall d, In d l -> depCalls d <> None) by (intros d I X; assert (allCalls l = None) by (apply allCalls_none; eauto); congruence).
    rewrite (allCalls_some l K) in E. injection E as <-. destruct (objects_some _ d_meta sc sc_kinds l r) as (r' & ->). split; [discriminate|].
    intros (d & I & N). apply incomplete_iff in N. destruct (K d I N).
  - split; [|reflexivity]. intros _. apply allCalls_none in E as (d & I & N). exists d. split; [exact I | apply incomplete_iff, N].
Qed.

Lemma cond_number : forall s v, statusNumber s v -> condValue s = v.
Proof. intros s v []; reflexivity. Qed.
Lemma phase_number : forall s v, phaseNumber s v -> phaseValue s = v.
Proof. intros s v []; reflexivity. Qed.

Lemma conds_unique : forall l (t s s' : string), conds_apart l -> In (t, s) l -> In (t, s') l -> s = s'.
Proof.
  induction l as [|(a, b) l IH]; intros t s s' N I J; [destruct I|]. unfold conds_apart in N. cbn in N. apply NoDup_cons_iff in N as (N1 & N2).
  destruct I as [[= -> ->]|I], J as [E|J].
  - congruence.
  - destruct N1. apply (in_map fst) in J. exact J.
  - injection E as -> ->. destruct N1. apply (in_map fst) in I. exact I.
  - apply (IH t); assumption.
Qed.

(* The counter. *)
Lemma counter : forall l s, fst (fold_left cstep l s) + snd (fold_left cstep l s) = fst s + snd s + removed l.
Proof.
  induction l as [|o l IH]; intros (p, e); [cbn; lia|]. cbn [fold_left]. rewrite IH. destruct o as [ok ph t|]; cbn [cstep fst snd].
  - destruct ok; cbn [andb]; [|cbn [removed fst snd]; lia].
    destruct (String.eqb_spec ph "Failed") as [->|N].
    + destruct (String.eqb_spec t "HealthCheck") as [->|N]; cbn [andb fst snd]; [cbn [removed]; lia|].
      replace (removed (Deleted true "Failed" t :: l)) with (removed l); [lia|]. cbn [removed].
      repeat (match goal with |- _ = match ?x with _ => _ end => destruct x; try reflexivity end). destruct (N eq_refl).
    + cbn [andb fst snd]. replace (removed (Deleted true ph t :: l)) with (removed l); [lia|]. cbn [removed].
      repeat (match goal with |- _ = match ?x with _ => _ end => destruct x; try reflexivity end). destruct (N eq_refl).
  - cbn [removed]. lia.
Qed.

Lemma set_one : forall s c k v c' v', In c (setCalls s) -> keyed c k v -> In c' (setCalls s) -> keyed c' k v' -> conds_apart (s_conds s) \/ fst k <> "MachineSetStatusCondition" -> v' = v.
Proof.
  assert (X : forall s c k v, In c (setCalls s) -> keyed c k v ->
    (exists g x, In (g, x) [("MachineSetInfoSpecReplicas", s_replicas s); ("MachineSetInfoSpecMinReadySeconds", s_minReady s); ("MachineSetStatusAvailableReplicas", s_avail s);
       ("MachineSetStatusFullyLabelledReplicas", s_labelled s); ("MachineSetStatusReadyReplicas", s_ready s); ("MachineSetStatusReplicas", s_ready s)] /\ k = (g, of (s_meta s)) /\ v = x) \/
    (exists t x, In (t, x) (s_conds s) /\ k = ("MachineSetStatusCondition", of (s_meta s) ++ [t]) /\ v = condValue x) \/
    ((fst k = "MachineSetInfo" \/ fst k = "MachineSetStatusFailedMachines") /\ v = 1)).
  { intros s c k v I K. unfold setCalls, setInfoCalls, setSpecCalls, setStatusCalls in I. rewrite !in_app_iff in I. destruct I as [[<-|[]]|[[<-|[<-|[]]]|[I|[I|I]]]].
    - apply k_setInfo in K as (-> & ->). right. right. auto.
    - apply k_two in K as (-> & ->); [|reflexivity]. left. eexists _, _. split; [left; reflexivity | auto].
    - apply k_two in K as (-> & ->); [|reflexivity]. left. eexists _, _. split; [do 1 right; left; reflexivity | auto].
    - apply cond_kinds in I as (t & x & I & ->); [|reflexivity]. apply k_cond in K as (-> & ->); [|reflexivity]. right. left. eauto 10.
    - destruct (s_failed s) as [l|]; [|destruct I]. apply failed_kinds in I as (f & _ & ->). apply k_failed in K as (-> & ->); [|auto]. right. right. auto.
    - left. destruct I as [<-|[<-|[<-|[<-|[]]]]]; (apply k_two in K as (-> & ->); [|reflexivity]); eexists _, _; (split; [|auto]); [do 2 right; left|do 3 right; left|do 4 right; left|do 5 right; left]; reflexivity. }
  intros s c k v c' v' I K I' K' U. destruct (X _ _ _ _ I K) as [(g & x & G & -> & ->)|[(t & x & T & -> & ->)|(F & ->)]];
    destruct (X _ _ _ _ I' K') as [(g' & x' & G' & E & ->)|[(t' & x' & T' & E & ->)|(F' & ->)]]; try reflexivity.
  - injection E as <-. cbn [In] in G, G'. intuition congruence.
  - injection E as -> E. cbn [In] in G. destruct G as [G|[G|[G|[G|[G|[G|[]]]]]]]; discriminate G.
  - cbn [fst] in F'. cbn [In] in G. destruct F' as [-> | ->]; destruct G as [G|[G|[G|[G|[G|[G|[]]]]]]]; discriminate G.
  - injection E as <- E. cbn [In] in G'. destruct G' as [G|[G|[G|[G|[G|[G|[]]]]]]]; discriminate G.
  - injection E as <-. destruct U as [U|U]; [|destruct (U eq_refl)]. rewrite (conds_unique _ _ _ _ U T T'). reflexivity.
  - destruct F' as [F'|F']; discriminate F'.
  - rewrite E in F. cbn [fst] in F. cbn [In] in G'. destruct F as [-> | ->]; destruct G' as [G|[G|[G|[G|[G|[G|[]]]]]]]; discriminate G.
  - rewrite E in F. destruct F as [F|F]; discriminate F.
Qed.

Definition depVal (d : DepO) (g : string) : option Z :=
  if String.eqb g "MachineDeploymentInfoSpecPaused" then Some (if d_paused d then 1 else 0)
  else if String.eqb g "MachineDeploymentInfoSpecReplicas" then Some (d_replicas d)
  else if String.eqb g "MachineDeploymentInfoSpecMinReadySeconds" then Some (d_minReady d)
  else if String.eqb g "MachineDeploymentStatusAvailableReplicas" then Some (d_avail d)
  else if String.eqb g "MachineDeploymentStatusUnavailableReplicas" then Some (d_unavail d)
  else if String.eqb g "MachineDeploymentStatusReadyReplicas" then Some (d_ready d)
  else if String.eqb g "MachineDeploymentStatusUpdatedReplicas" then Some (d_updated d)
  else if String.eqb g "MachineDeploymentStatusReplicas" then Some (d_stReplicas d)
  else if String.eqb g "MachineDeploymentStatusCollisionCount" then d_collisions d
  else if String.eqb g "MachineDeploymentInfoSpecRevisionHistoryLimit" then d_history d
  else if String.eqb g "MachineDeploymentInfoSpecProgressDeadlineSeconds" then d_deadline d
  else if String.eqb g "MachineDeploymentInfoSpecRollbackToRevision" then d_rollback d
  else if String.eqb g "MachineDeploymentInfoSpecRollingUpdateMaxSurge" then match d_rolling d with Some (Some a, _) => Some (IntValue a) | _ => None end
  else if String.eqb g "MachineDeploymentInfoSpecRollingUpdateMaxUnavailable" then match d_rolling d with Some (_, Some a) => Some (IntValue a) | _ => None end
  else None.

Lemma depVal_not : forall d g v, depVal d g = Some v -> g <> "MachineDeploymentInfo" /\ g <> "MachineDeploymentStatusCondition" /\ g <> "MachineDeploymentStatusFailedMachines".
Proof. intros d g v H. repeat split; intros ->; discriminate H. Qed.

Lemma opt_in : forall (g : string) (m : list (string * string)) (v : option Z) c, In c (match v with Some z => [(g, m, z)] | None => [] end : list Call) <-> exists z, v = Some z /\ c = (g, m, z).
Proof. intros g m [z|] c; cbn; split; [intros [<-|[]]; eauto | intros (? & [= <-] & ->); auto | tauto | intros (? & [=] & _)]. Qed.

Lemma spec_in : forall d l c, depSpecCalls d = Some l -> In c l -> exists g x, c = (g, two (d_meta d), x) /\ depVal d g = Some x /\ declared g = ["name"; "namespace"].
Proof.
  intros d l c H I. unfold depSpecCalls in H. cbv zeta in H.
  assert (L : In c (match d_history d with Some z => [("MachineDeploymentInfoSpecRevisionHistoryLimit", two (d_meta d), z)] | None => [] end ++
    match d_deadline d with Some z => [("MachineDeploymentInfoSpecProgressDeadlineSeconds", two (d_meta d), z)] | None => [] end ++
    match d_rollback d with Some z => [("MachineDeploymentInfoSpecRollbackToRevision", two (d_meta d), z)] | None => [] end) -> 
    exists g x, c = (g, two (d_meta d), x) /\ depVal d g = Some x /\ declared g = ["name"; "namespace"]).
  { rewrite !in_app_iff, !opt_in. intros [(z & E & ->)|[(z & E & ->)|(z & E & ->)]]; eexists _, _; (split; [reflexivity | split; [exact E | reflexivity]]). }
  assert (F : In c [("MachineDeploymentInfoSpecPaused", two (d_meta d), if d_paused d then 1 else 0); ("MachineDeploymentInfoSpecReplicas", two (d_meta d), d_replicas d);
                ("MachineDeploymentInfoSpecMinReadySeconds", two (d_meta d), d_minReady d)] ->
    exists g x, c = (g, two (d_meta d), x) /\ depVal d g = Some x /\ declared g = ["name"; "namespace"]).
  { intros [<-|[<-|[<-|[]]]]; eexists _, _; (split; [reflexivity | split; reflexivity]). }
  destruct (String.eqb (d_type d) "RollingUpdate").
  - destruct (d_rolling d) as [([a|], [b|])|] eqn:R; try discriminate. injection H as <-. apply (in_app_or [_; _; _]) in I. destruct I as [I|I]; [apply F, I|].
    destruct I as [<-|[<-|I]]; [| |apply L, I]; eexists _, _; (split; [reflexivity | split; [|reflexivity]]); unfold depVal; rewrite R; reflexivity.
  - injection H as <-. apply (in_app_or [_; _; _]) in I. destruct I as [I|I]; [apply F, I|apply L, I].
Qed.

Lemma dep_one : forall d l c k v, depCalls d = Some l -> In c l -> keyed c k v ->
  (exists g, depVal d g = Some v /\ k = (g, of (d_meta d))) \/
  (exists t x, In (t, x) (d_conds d) /\ k = ("MachineDeploymentStatusCondition", of (d_meta d) ++ [t]) /\ v = condValue x) \/
  ((fst k = "MachineDeploymentInfo" \/ fst k = "MachineDeploymentStatusFailedMachines") /\ v = 1).
Proof.
  intros d l c k v H I K. unfold depCalls in H. destruct (depSpecCalls d) as [sp|] eqn:SP; [|discriminate].
  assert (E : l = depInfoCalls d ++ sp ++ depStatusCalls d) by (cbn [option_map] in H; congruence).
  subst l. clear H. rewrite !in_app_iff in I. destruct I as [[<-|[]]|[I|I]].
  - apply k_depInfo in K as (-> & ->). right. right. auto.
  - left. destruct (spec_in _ _ _ SP I) as (g & x & -> & V & D). apply k_two in K as (-> & ->); [|exact D]. eauto.
  - unfold depStatusCalls in I. cbv zeta in I. rewrite !in_app_iff in I. destruct I as [I|[I|[I|I]]].
    + apply cond_kinds in I as (t & x & I & ->); [|reflexivity]. apply k_cond in K as (-> & ->); [|reflexivity]. right. left. eauto 10.
    + apply failed_kinds in I as (f & _ & ->). apply k_failed in K as (-> & ->); [|auto]. right. right. auto.
    + left. destruct I as [<-|[<-|[<-|[<-|[<-|[]]]]]]; (apply k_two in K as (-> & ->); [|reflexivity]); eexists; (split; [|reflexivity]); reflexivity.
    + left. apply opt_in in I as (z & E & ->). apply k_two in K as (-> & ->); [|reflexivity]. eexists; (split; [|reflexivity]). exact E.
Qed.

Lemma dep_uniq : forall d l c k v c' v', depCalls d = Some l -> In c l -> keyed c k v -> In c' l -> keyed c' k v' ->
  conds_apart (d_conds d) \/ fst k <> "MachineDeploymentStatusCondition" -> v' = v.
Proof.
  intros d l c k v c' v' H I K I' K' U.
  destruct (dep_one _ _ _ _ _ H I K) as [(g & G & Ek)|[(t & x & T & Ek & ->)|(F & ->)]];
    destruct (dep_one _ _ _ _ _ H I' K') as [(g' & G' & E)|[(t' & x' & T' & E & ->)|(F' & ->)]]; try reflexivity; rewrite ?Ek in *.
  - injection E as <-. congruence.
  - injection E as -> _. destruct (depVal_not _ _ _ G) as (_ & X & _). destruct (X eq_refl).
  - cbn [fst] in F'. destruct (depVal_not _ _ _ G) as (X & _ & Y). destruct F' as [E | E]; [destruct (X E) | destruct (Y E)].
  - injection E as <- _. destruct (depVal_not _ _ _ G') as (_ & X & _). destruct (X eq_refl).
  - injection E as <-. destruct U as [U|U]; [|destruct (U eq_refl)]. rewrite (conds_unique _ _ _ _ U T T'). reflexivity.
  - destruct F' as [F'|F']; discriminate F'.
  - rewrite E in F. cbn [fst] in F. destruct (depVal_not _ _ _ G') as (X & _ & Y). destruct F as [Z | Z]; [destruct (X Z) | destruct (Y Z)].
  - rewrite E in F. destruct F as [F|F]; discriminate F.
Qed.

Lemma mac_uniq : forall m c k v c' v', In c (macCalls m) -> keyed c k v -> In c' (macCalls m) -> keyed c' k v' ->
  conds_apart (m_conds m) \/ fst k <> "MachineStatusCondition" -> v' = v.
Proof.
  assert (X : forall m c k v, In c (macCalls m) -> keyed c k v ->
    (k = ("MachineCSPhase", of (m_meta m)) /\ v = phaseValue (m_phase m)) \/
    (exists t x, In (t, x) (m_conds m) /\ k = ("MachineStatusCondition", of (m_meta m) ++ [t]) /\ v = condValue x) \/ (fst k = "MachineInfo" /\ v = 1)).
  { intros m c k v I K. unfold macCalls in I. rewrite !in_app_iff in I. destruct I as [[<-|[]]|[I|[<-|[]]]].
    - apply k_macInfo in K as (-> & ->). auto.
    - apply cond_kinds in I as (t & x & I & ->); [|reflexivity]. apply k_cond in K as (-> & ->); [|reflexivity]. right. left. eauto 10.
    - apply k_two in K as (-> & ->); [|reflexivity]. auto. }
  intros m c k v c' v' I K I' K' U. destruct (X _ _ _ _ I K) as [(-> & ->)|[(t & x & T & -> & ->)|(F & ->)]];
    destruct (X _ _ _ _ I' K') as [(E & ->)|[(t' & x' & T' & E & ->)|(F' & ->)]]; try reflexivity; try discriminate.
  - injection E as <-. destruct U as [U|U]; [|destruct (U eq_refl)]. rewrite (conds_unique _ _ _ _ U T T'). reflexivity.
  - rewrite E in F. discriminate.
  - rewrite E in F. discriminate.
Qed.

(* The gauges after a scrape. *)
Definition after (s : Scrape) : Reg := match s with Shown r _ _ => r | Crash => fun _ => None end.
Lemma sets_after : forall l r, collectSets (Some l) r = Shown (after (collectSets (Some l) r)) (Some (Z.of_nat (List.length l))) false.
Proof. intros l r. unfold collectSets. destruct (objects_some _ s_meta setCalls set_kinds l r) as (r' & E). rewrite E. reflexivity. Qed.
Lemma machines_after : forall l r, collectMachines (Some l) r = Shown (after (collectMachines (Some l) r)) (Some (Z.of_nat (List.length l))) false.
Proof. intros l r. unfold collectMachines. destruct (objects_some _ m_meta macCalls mac_kinds l r) as (r' & E). rewrite E. reflexivity. Qed.
Lemma deps_after : forall l r, (forall d, In d l -> ~ incomplete d) -> collectDeps (Some l) r = Shown (after (collectDeps (Some l) r)) (Some (Z.of_nat (List.length l))) false.
Proof.
  intros l r C. destruct (collectDeps (Some l) r) as [|r' n f] eqn:H; [apply crash_iff in H as (d & I & K); destruct (C d I K)|].
  destruct (deps_shown _ _ _ _ _ H) as (_ & -> & -> & _). reflexivity.
Qed.
