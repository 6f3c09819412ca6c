(** Proofs for C101 and C102. *)
Require Import Coq.ZArith.ZArith Coq.Lists.List Coq.Strings.String Coq.Strings.Ascii Coq.Bool.Bool Coq.micromega.Lia Coq.Arith.PeanoNat.
From Verif Require Import StartModel StartSpec.
Import ListNotations.
Open Scope string_scope.
Open Scope list_scope.

(** Discovery. *)
Lemma append_assoc : forall a b c : string, ((a ++ b) ++ c = a ++ (b ++ c))%string.
Proof. induction a; intros; cbn; [ reflexivity | f_equal; auto ]. Qed.
Lemma append_nil_r : forall a : string, (a ++ "" = a)%string.
Proof. induction a; cbn; [ reflexivity | f_equal; auto ]. Qed.
Lemma slashes_cons : forall s acc, exists x r, slashes acc s = x :: r.
Proof.
  induction s as [|c s IH]; intros acc; cbn; [ eauto | destruct (Ascii.eqb c "/"%char); eauto ].
Qed.
Lemma slashes_concat : forall s acc, String.concat "/" (slashes acc s) = (acc ++ s)%string.
Proof.
  induction s as [|c s IH]; intros acc.
  - cbn. symmetry; apply append_nil_r.
  - cbn [slashes]. destruct (Ascii.eqb c "/"%char) eqn:E.
    + apply Ascii.eqb_eq in E; subst c. specialize (IH ""). destruct (slashes_cons s "") as (x & r & E2). rewrite E2 in *.
      change (String.concat "/" (acc :: x :: r)) with (acc ++ ("/" ++ String.concat "/" (x :: r)))%string. rewrite IH. reflexivity.
    + rewrite IH. rewrite append_assoc. reflexivity.
Qed.
Lemma parse_this : forall s, parseGroupVersion s = Some ("machine.sapcloud.io", "v1alpha1") <-> s = "machine.sapcloud.io/v1alpha1".
Proof.
  intros s; split; [ | intros ->; reflexivity ].
  unfold parseGroupVersion. destruct (String.eqb s "" || String.eqb s "/"); [ intro H; discriminate H | ].
  pose proof (slashes_concat s "") as C. destruct (slashes "" s) as [|a [|b [|c l]]]; intro H; try discriminate H.
  - injection H as -> ->. cbn in C. symmetry; exact C.
Qed.

Lemma gvrEqb_eq : forall a b, gvrEqb a b = true <-> a = b.
Proof.
  intros [a1 a2 a3] [b1 b2 b3]. unfold gvrEqb. cbn [g_group g_version g_resource]. rewrite !andb_true_iff, !String.eqb_eq.
  split; [ intros ((-> & ->) & ->); reflexivity | intro H; injection H as -> -> ->; auto ].
Qed.
Lemma available_in : forall l g, available l g = true <-> In g l.
Proof.
  intros l g. unfold available. rewrite existsb_exists. split.
  - intros (x & Hx & E). apply gvrEqb_eq in E. subst; exact Hx.
  - intro H. exists g. split; [ exact H | apply gvrEqb_eq; reflexivity ].
Qed.

Lemma allResources_spec : forall l,
  match allResources l with
  | Ok rs => Forall (fun r => parseGroupVersion (rl_gv r) <> None) l /\
             forall g, In g rs <-> exists r, In r l /\ parseGroupVersion (rl_gv r) = Some (g_group g, g_version g) /\ In (g_resource g) (rl_names r)
  | Err e => e = BadGroupVersion /\ ~ Forall (fun r => parseGroupVersion (rl_gv r) <> None) l
  end.
Proof.
  induction l as [|r l IH]; cbn [allResources].
  - split; [ constructor | ]. intros g; split; [ intros [] | intros (r & [] & _) ].
  - destruct (parseGroupVersion (rl_gv r)) as [[g v]|] eqn:E.
    + destruct (allResources l) as [rs|e].
      * destruct IH as (F & IH). split; [ constructor; [ congruence | exact F ] | ].
        intros x. rewrite in_app_iff, in_map_iff, IH. split.
        -- intros [(n & <- & Hn) | (r' & H1 & H2)].
           ++ exists r. cbn. split; [ auto | split; [ exact E | exact Hn ] ].
           ++ exists r'. split; [ right; exact H1 | exact H2 ].
        -- intros (r' & [<- | H1] & H2 & H3).
           ++ left. exists (g_resource x). split; [ | exact H3 ]. destruct x as [x1 x2 x3]. cbn in *. congruence.
           ++ right. exists r'. auto.
      * destruct IH as (-> & N). split; [ reflexivity | ]. intro F. apply N. exact (Forall_inv_tail F).
    + split; [ reflexivity | ]. intro F. exact (Forall_inv F E).
Qed.

Lemma offered_in : forall a rs kind, allResources (a_lists a) = Ok rs ->
  (In (mkGvr "machine.sapcloud.io" "v1alpha1" kind) rs <-> offered a kind).
Proof.
  intros a rs kind E. pose proof (allResources_spec (a_lists a)) as S. rewrite E in S. destruct S as (_ & S).
  rewrite S. cbn [g_group g_version g_resource]. unfold offered.
  split; intros (r & H1 & H2 & H3); exists r; (split; [ exact H1 | split; [ | exact H3 ] ]); apply parse_this; exact H2.
Qed.

Lemma healthy_in : forall a, existsb probeOk (a_probes a) = true <-> said_healthy a.
Proof.
  intros a. unfold said_healthy. rewrite existsb_exists. split.
  - intros ([|c] & H & E); [ discriminate E | ]. cbn in E. apply Z.eqb_eq in E. subst. exact H.
  - intro H. exists (Status 200). split; [ exact H | reflexivity ].
Qed.

Lemma checks_spec : forall p a ge, startChecks p a = Ok ge <->
  said_healthy a /\ a_lists a <> [] /\ well_formed a /\
  match p with
  | Manager => ge = true /\ (offered a "machines" \/ offered a "machinesets" \/ offered a "machinedeployments")
  | Machines => a_version a = Some ge /\ offered a "machines"
  end.
Proof.
  intros p a ge. unfold startChecks, getAvailableResources, well_formed.
  rewrite <- healthy_in. destruct (existsb probeOk (a_probes a)); cbn [negb];
    [ | split; [ discriminate | intros (H & _); discriminate H ] ].
  destruct (a_lists a) as [|r0 l0] eqn:El; [ split; [ discriminate | intros (_ & H & _); congruence ] | ].
  rewrite <- El. pose proof (allResources_spec (a_lists a)) as S.
  destruct (allResources (a_lists a)) as [rs|e] eqn:E.
  - destruct S as (F & _). pose proof (fun k => offered_in a rs k E) as O.
    destruct p.
    + destruct (available rs machineGVR) eqn:A1; [ | destruct (available rs machineSetGVR) eqn:A2; [ | destruct (available rs machineDeploymentGVR) eqn:A3 ] ]; cbn [negb andb].
      * apply available_in, O in A1. split.
        -- intro H. injection H as <-. repeat split; auto; congruence.
        -- intros (_ & _ & _ & -> & _). reflexivity.
      * apply available_in, O in A2. split.
        -- intro H. injection H as <-. repeat split; auto; congruence.
        -- intros (_ & _ & _ & -> & _). reflexivity.
      * apply available_in, O in A3. split.
        -- intro H. injection H as <-. repeat split; auto; congruence.
        -- intros (_ & _ & _ & -> & _). reflexivity.
      * split; [ discriminate | ]. intros (_ & _ & _ & _ & [H|[H|H]]); apply O in H.
        -- apply (proj2 (available_in rs machineGVR)) in H. congruence.
        -- apply (proj2 (available_in rs machineSetGVR)) in H. congruence.
        -- apply (proj2 (available_in rs machineDeploymentGVR)) in H. congruence.
    + destruct (a_version a) as [v|]; [ | split; [ discriminate | intros (_ & _ & _ & H & _); discriminate H ] ].
      destruct (available rs machineGVR) eqn:A1; cbn [negb].
      * apply available_in, O in A1. split.
        -- intro H. injection H as <-. repeat split; auto; congruence.
        -- intros (_ & _ & _ & H & _). injection H as ->. reflexivity.
      * split; [ discriminate | ]. intros (_ & _ & _ & _ & H). apply O in H.
        apply (proj2 (available_in rs machineGVR)) in H. congruence.
  - destruct S as (-> & N). split; [ discriminate | ]. intros (_ & _ & F & _). contradiction.
Qed.

(** One replica. *)
Lemma cacheEqb_eq : forall a b, cacheEqb a b = true <-> a = b.
Proof. intros [] []; cbn; split; intro H; (reflexivity || discriminate H). Qed.
Lemma queueEqb_eq : forall a b, queueEqb a b = true <-> a = b.
Proof. intros [] []; cbn; split; intro H; (reflexivity || discriminate H). Qed.
Lemma allSynced_incl : forall f l, allSynced f l = true <-> incl l f.
Proof.
  intros f l. unfold allSynced. rewrite forallb_forall. split.
  - intros H c Hc. specialize (H c Hc). apply existsb_exists in H. destruct H as (x & Hx & E). apply cacheEqb_eq in E. subst; exact Hx.
  - intros H c Hc. apply existsb_exists. exists c. split; [ exact (H c Hc) | apply cacheEqb_eq; reflexivity ].
Qed.

Definition elected (cf : Conf) (l : list Ev) : Prop := c_elect cf = true -> In Elected l.
Definition asked (p : Program) (l : list Ev) (ge : bool) : Prop := exists a, In (Asked a) l /\ startChecks p a = Ok ge.
Definition good (p : Program) (cf : Conf) (l : list Ev) (x : Queue * list Cache) : Prop :=
  elected cf l /\ In (fst x) (workersOf p) /\ exists ge, asked p l ge /\ incl (waitedFor p ge) (snd x).
Definition inv (p : Program) (cf : Conf) (l : list Ev) (r : Replica) : Prop :=
  Forall (good p cf l) (r_taken r) /\ incl (r_filled r) (List.concat (map (fun e => match e with Filled c => [c] | _ => [] end) l)) /\
  match r_phase r with
  | Electing => c_elect cf = true /\ r_workers r = [] /\ r_taken r = []
  | Checking => elected cf l /\ r_workers r = [] /\ r_taken r = []
  | Waiting ge => elected cf l /\ asked p l ge /\ r_workers r = [] /\ r_taken r = []
  | Working => elected cf l /\ (exists ge, asked p l ge /\ incl (waitedFor p ge) (r_filled r)) /\ r_workers r = startedWorkers p (c_syncs cf)
  | Ended => r_workers r = []
  end.

Lemma elected_more : forall cf l e, elected cf l -> elected cf (l ++ [e]).
Proof. intros cf l e H E. apply in_or_app. left. auto. Qed.
Lemma asked_more : forall p l e ge, asked p l ge -> asked p (l ++ [e]) ge.
Proof. intros p l e ge (a & H & E). exists a. split; [ apply in_or_app; left; exact H | exact E ]. Qed.
Lemma good_more : forall p cf l e x, good p cf l x -> good p cf (l ++ [e]) x.
Proof. intros p cf l e x (H1 & H2 & ge & H3 & H4). split; [ apply elected_more; exact H1 | split; [ exact H2 | ] ]. exists ge. split; [ apply asked_more; exact H3 | exact H4 ]. Qed.
Lemma goods_more : forall p cf l e t, Forall (good p cf l) t -> Forall (good p cf (l ++ [e])) t.
Proof. intros. eapply Forall_impl; [ | eassumption ]. intros; apply good_more; assumption. Qed.
Lemma filled_more : forall l e f, incl f (List.concat (map (fun e => match e with Filled c => [c] | _ => [] end) l)) ->
  incl f (List.concat (map (fun e => match e with Filled c => [c] | _ => [] end) (l ++ [e]))).
Proof. intros l e f H c Hc. rewrite map_app, concat_app. apply in_or_app. left. auto. Qed.

Lemma started_in : forall p n q, In q (startedWorkers p n) -> In q (workersOf p).
Proof.
  intros p n q. unfold startedWorkers. induction (Z.to_nat n) as [|k IH]; cbn; [ intros [] | ].
  intro H. apply in_app_or in H. destruct H; auto.
Qed.

Lemma inv_step : forall p cf l r e, inv p cf l r -> inv p cf (l ++ [e]) (rstep p cf r e).
Proof.
  intros p cf l [ph h f w t] e (T & Fi & P). cbn [r_taken r_filled r_phase] in *. 
  apply (goods_more _ _ _ e) in T. apply (filled_more _ e) in Fi.
  assert (Keep : inv p cf (l ++ [e]) (mkReplica ph h f w t) /\ inv p cf (l ++ [e]) (mkReplica ph true f w t)).
  { split; (split; [ exact T | split; [ exact Fi | ] ]); cbn [r_phase r_workers r_taken r_filled] in *;
    (destruct ph;
    [ destruct P as (P1 & P2 & P3); auto
    | destruct P as (P1 & P2 & P3); auto using elected_more
    | destruct P as (P1 & P2 & P3 & P4); auto using elected_more, asked_more
    | destruct P as (P1 & (ge & P2 & P3) & P4); split; [ auto using elected_more | split; [ exists ge; auto using asked_more | exact P4 ] ]
    | exact P ]). }
  destruct Keep as (Keep & KeepH).
  assert (End : inv p cf (l ++ [e]) (mkReplica Ended false f [] t)) by (split; [ exact T | split; [ exact Fi | reflexivity ] ]).
  destruct e; destruct ph; cbn [rstep r_phase r_health r_filled r_workers r_taken] in *; try exact Keep; try exact KeepH.
  - (* Elected *) destruct P as (P1 & P2 & P3). split; [ exact T | split; [ exact Fi | ] ]. cbn.
    split; [ intros _; apply in_or_app; right; left; reflexivity | auto ].
  - destruct (c_elect cf); assumption.
  - destruct (c_elect cf); assumption.
  - destruct (c_elect cf); assumption.
  - (* Asked *) destruct (startChecks p a) as [ge|er] eqn:E; [ | exact End ].
    destruct P as (P1 & P2 & P3). split; [ exact T | split; [ exact Fi | ] ]. cbn.
    split; [ apply elected_more; exact P1 | split; [ | auto ] ].
    exists a. split; [ apply in_or_app; right; left; reflexivity | exact E ].
  - (* Filled, waiting *) destruct P as (P1 & P2 & P3 & P4). split; [ exact T | split ].
    + cbn. intros x [<- | Hx]; [ rewrite map_app, concat_app; apply in_or_app; right; left; reflexivity | auto ].
    + cbn. auto using elected_more, asked_more.
  - destruct P as (P1 & (ge & P2 & P2') & P3). split; [ exact T | split ].
    + cbn. intros x [<- | Hx]; [ rewrite map_app, concat_app; apply in_or_app; right; left; reflexivity | auto ].
    + cbn. split; [ auto using elected_more | split; [ | exact P3 ] ]. exists ge. split; [ auto using asked_more | ].
      intros x Hx. right. auto.
  - (* Tick *) destruct (allSynced f (waitedFor p ge121)) eqn:E; [ | exact Keep ]. apply allSynced_incl in E.
    destruct P as (P1 & P2 & P3 & P4). split; [ exact T | split; [ exact Fi | ] ]. cbn.
    split; [ auto using elected_more | split; [ | reflexivity ] ]. exists ge121. split; [ auto using asked_more | exact E ].
  - (* Take *) destruct P as (P1 & P2 & P3). rewrite P2 in *. cbn. exact Keep.
  - destruct P as (P1 & P2 & P3). rewrite P2 in *. cbn. exact Keep.
  - destruct P as (P1 & P1' & P2 & P3). rewrite P2 in *. cbn. exact Keep.
  - destruct P as (P1 & (ge & P2 & P2') & P3). destruct (existsb (queueEqb q) w) eqn:E; [ | exact Keep ].
    apply existsb_exists in E. destruct E as (q' & Hq & E). apply queueEqb_eq in E. subst q'.
    split; [ | split; [ exact Fi | ] ].
    + cbn. constructor; [ | exact T ]. split; [ auto using elected_more | split ].
      * cbn. rewrite P3 in Hq. exact (started_in _ _ _ Hq).
      * exists ge. cbn. auto using asked_more.
    + cbn. split; [ auto using elected_more | split; [ | exact P3 ] ]. exists ge. auto using asked_more.
Qed.

Lemma rrun_snoc : forall p cf l e, rrun p cf (l ++ [e]) = rstep p cf (rrun p cf l) e.
Proof. intros. unfold rrun. rewrite fold_left_app. reflexivity. Qed.
Lemma inv_run : forall p cf l, inv p cf l (rrun p cf l).
Proof.
  intros p cf l. induction l as [|e l IH] using rev_ind.
  - unfold rrun, start, inv. cbn. split; [ constructor | split; [ intros x [] | ] ].
    destruct (c_elect cf) eqn:E; cbn; [ auto | ]. unfold elected. split; [ congruence | auto ].
  - rewrite rrun_snoc. apply inv_step. exact IH.
Qed.

Lemma filled_in : forall c l, In c (List.concat (map (fun e => match e with Filled c => [c] | _ => [] end) l)) -> In (Filled c) l.
Proof.
  intros c l. induction l as [|e l IH]; cbn; [ intros [] | ]. intro H. apply in_app_or in H. destruct H as [H|H]; [ | auto ].
  destruct e; try (destruct H; fail). destruct H as [->|[]]. auto.
Qed.

Lemma ended_stays : forall p cf l r, r_phase r = Ended -> fold_left (rstep p cf) l r = r.
Proof. intros p cf l. induction l as [|e l IH]; intros r H; cbn; [ reflexivity | ]. unfold rstep. rewrite H. apply IH. exact H. Qed.

Lemma lost_ends : forall p cf l1 l2, c_elect cf = true -> r_phase (rrun p cf l1) <> Electing ->
  r_taken (rrun p cf (l1 ++ Lost :: l2)) = r_taken (rrun p cf l1) /\ r_workers (rrun p cf (l1 ++ Lost :: l2)) = [].
Proof.
  intros p cf l1 l2 He Hp. pose proof (inv_run p cf l1) as (_ & _ & I).
  unfold rrun in *. rewrite fold_left_app. cbn [fold_left].
  destruct (fold_left (rstep p cf) l1 (start cf)) as [ph h f w t]. cbn in Hp, I. cbn [rstep r_phase].
  destruct ph; try congruence; rewrite (ended_stays p cf l2) by (cbn; rewrite ?He; reflexivity); cbn; rewrite ?He; auto.
Qed.

(** The health flag. *)
Lemma health_step : forall p cf r e, alive (rstep p cf r e) -> r_health r = true -> r_health (rstep p cf r e) = true.
Proof.
  intros p cf [ph h f w t] e. unfold alive. cbn [r_health]. intros A H. subst h. destruct ph; [ | | | | exact (eq_refl true) ]; destruct e; cbn in *; try reflexivity.
  - destruct (existsb (queueEqb q) w); reflexivity.
  - destruct (c_elect cf); [ cbn in A; congruence | reflexivity ].
  - destruct (startChecks p a); [ reflexivity | cbn in A; congruence ].
  - destruct (existsb (queueEqb q) w); reflexivity.
  - destruct (c_elect cf); [ cbn in A; congruence | reflexivity ].
  - destruct (allSynced f (waitedFor p ge121)); reflexivity.
  - destruct (existsb (queueEqb q) w); reflexivity.
  - destruct (c_elect cf); [ cbn in A; congruence | reflexivity ].
  - destruct (existsb (queueEqb q) w); reflexivity.
Qed.
Lemma alive_before : forall p cf r e, alive (rstep p cf r e) -> alive r.
Proof. intros p cf r e A H. apply A. unfold rstep. rewrite H. exact H. Qed.
Lemma health_run : forall p cf l, In Listen l -> alive (rrun p cf l) -> r_health (rrun p cf l) = true.
Proof.
  intros p cf l. induction l as [|e l IH] using rev_ind; [ intros [] | ]. intros Hin A. rewrite rrun_snoc in *.
  apply in_app_or in Hin. destruct Hin as [Hin|[->|[]]].
  - apply health_step; [ exact A | ]. apply IH; [ exact Hin | exact (alive_before _ _ _ _ A) ].
  - pose proof (alive_before _ _ _ _ A) as B. unfold alive in *. destruct (rrun p cf l) as [ph h f w t]. cbn in *. destruct ph; try reflexivity. congruence.
Qed.
Lemma health_false_before : forall p cf l, ~ In Listen l -> r_health (rrun p cf l) = false.
Proof.
  intros p cf l. induction l as [|e l IH] using rev_ind; [ reflexivity | ]. intro N. rewrite rrun_snoc.
  assert (IHn : r_health (rrun p cf l) = false) by (apply IH; intro H; apply N; apply in_or_app; auto).
  assert (Ne : e <> Listen) by (intro H; apply N; apply in_or_app; right; left; auto).
  destruct (rrun p cf l) as [ph h f w t]. cbn in IHn. subst h.
  destruct ph; destruct e; cbn; try congruence; try reflexivity;
    try (destruct (existsb (queueEqb q) w); reflexivity); try (destruct (c_elect cf); reflexivity);
    try (destruct (startChecks p a); reflexivity); destruct (allSynced f (waitedFor p ge121)); reflexivity.
Qed.

(** A cache that is waited for and never filled. *)
Lemma stuck : forall p cf c l, (forall ge, In c (waitedFor p ge)) -> ~ In (Filled c) l ->
  r_workers (rrun p cf l) = [] /\ r_taken (rrun p cf l) = [] /\ r_phase (rrun p cf l) <> Working.
Proof.
  intros p cf c l W N. pose proof (inv_run p cf l) as (T & Fi & I).
  assert (Tk : r_taken (rrun p cf l) = []).
  { clear I. induction l as [|e l IH] using rev_ind; [ reflexivity | ].
    assert (N' : ~ In (Filled c) l) by (intro; apply N; apply in_or_app; auto).
    pose proof (inv_run p cf l) as (T' & Fi' & I'). specialize (IH N' T' Fi').
    rewrite rrun_snoc in *. destruct (rrun p cf l) as [ph h f w t]. cbn in IH, I', Fi'. subst t.
    destruct ph; destruct e; cbn; try reflexivity; try (destruct (c_elect cf); reflexivity); try (destruct (startChecks p a); reflexivity);
      try (destruct (allSynced f (waitedFor p ge121)); reflexivity).
    - destruct I' as (_ & -> & _). reflexivity.
    - destruct I' as (_ & -> & _). reflexivity.
    - destruct I' as (_ & _ & -> & _). reflexivity.
    - destruct I' as (_ & (ge & _ & Inc) & _). exfalso. apply N'. apply filled_in. apply Fi'. apply Inc. apply W. }
  destruct (r_phase (rrun p cf l)) eqn:E; try (split; [ tauto | split; [ exact Tk | congruence ] ]).
  destruct I as (_ & (ge & _ & Inc) & _). exfalso. apply N. apply filled_in. apply Fi. apply Inc. apply W.
Qed.

(** How many workers a queue gets. *)
Lemma filter_concat_repeat : forall (q : Queue) l k, List.length (filter (fun x => if queueEqb q x then true else false) (List.concat (repeat l k))) =
  (k * List.length (filter (fun x => if queueEqb q x then true else false) l))%nat.
Proof. intros q l k. induction k as [|k IH]; cbn; [ reflexivity | ]. rewrite filter_app, app_length, IH. reflexivity. Qed.
Lemma started_count : forall p n q, In q (workersOf p) ->
  List.length (filter (fun x => if queueEqb q x then true else false) (startedWorkers p n)) = Z.to_nat n.
Proof.
  intros p n q H. unfold startedWorkers. rewrite filter_concat_repeat.
  replace (List.length (filter (fun x => if queueEqb q x then true else false) (workersOf p))) with 1%nat; [ apply Nat.mul_1_r | ].
  destruct p; cbn [workersOf In] in H; repeat (destruct H as [<-|H]; [ reflexivity | ]); destruct H.
Qed.

(** Several replicas. *)
Lemma setNth_nth : forall n x l k, nth_error (setNth n x l) k =
  if Nat.eqb k n then match nth_error l k with Some _ => Some x | None => None end else nth_error l k.
Proof.
  induction n as [|n IH]; intros x l k; destruct l as [|y l]; destruct k as [|k]; cbn; try reflexivity.
  - destruct (Nat.eqb k n); reflexivity.
  - apply IH.
Qed.

Definition idle (r : Replica) : Prop := (r_phase r = Electing \/ r_phase r = Ended) /\ r_workers r = [].
Definition finv (f : Fleet) : Prop := forall i r, nth_error (f_replicas f) i = Some r -> f_lock f <> Some i -> idle r.

Lemma rstep_idle : forall p cf r e, e <> Elected -> idle r -> idle (rstep p cf r e).
Proof.
  intros p cf [ph h f w t] e Ne ([H|H] & W); cbn in H, W; subst; destruct e; cbn; try congruence; unfold idle; cbn; auto.
Qed.
Lemma rstep_lost_idle : forall p cf r, c_elect cf = true -> idle (rstep p cf r Lost) \/ r_phase r = Electing /\ rstep p cf r Lost = r \/ r_phase r = Ended /\ rstep p cf r Lost = r.
Proof.
  intros p cf [ph h f w t] He. destruct ph; cbn; rewrite ?He; auto; left; unfold idle; cbn; auto.
Qed.
Lemma ended_true : forall r, ended r = true <-> r_phase r = Ended.
Proof. intros [ph h f w t]. unfold ended. cbn. destruct ph; split; intro H; (reflexivity || discriminate H). Qed.

Definition winv (r : Replica) : Prop := match r_phase r with Working => True | _ => r_workers r = [] end.
Lemma winv_step : forall p cf r e, winv r -> winv (rstep p cf r e).
Proof.
  intros p cf [ph h f w t] e W. unfold winv in *. cbn in W. destruct ph; destruct e; cbn; auto;
    try (destruct (c_elect cf); cbn; auto); try (destruct (startChecks p a); cbn; auto); try (destruct (existsb (queueEqb q) w); cbn; auto);
    destruct (allSynced f (waitedFor p ge121)); cbn; auto.
Qed.
Lemma ended_idle : forall r, winv r -> ended r = true -> idle r.
Proof. intros r W E. apply ended_true in E. unfold winv in W. rewrite E in W. split; auto. Qed.

Definition finv2 (f : Fleet) : Prop := finv f /\ Forall winv (f_replicas f).
Lemma setNth_forall : forall (P : Replica -> Prop) n x l, P x -> Forall P l -> Forall P (setNth n x l).
Proof.
  intros P n. induction n as [|n IH]; intros x l Hx Hl; destruct l as [|y l]; cbn; auto;
    pose proof (Forall_inv Hl); pose proof (Forall_inv_tail Hl); constructor; auto.
Qed.

Lemma finv_step : forall p cf f i e, c_elect cf = true -> finv2 f -> finv2 (fstep p cf f i e).
Proof.
  intros p cf f i e He (I & W). unfold fstep. destruct (nth_error (f_replicas f) i) as [r|] eqn:Er; [ | split; assumption ].
  assert (Wr : winv r) by (rewrite Forall_forall in W; apply W; exact (nth_error_In _ _ Er)).
  assert (Ww : Forall winv (setNth i (rstep p cf r e) (f_replicas f))) by (apply setNth_forall; [ apply winv_step; exact Wr | exact W ]).
  assert (Gen : e <> Elected -> e <> Lost ->
    finv2 (mkFleet (setNth i (rstep p cf r e) (f_replicas f)) (match f_lock f with Some j => if Nat.eqb i j && ended (rstep p cf r e) then None else Some j | None => None end))).
  { intros N1 N2. split; [ | exact Ww ]. intros k x Hk Hl. cbn in Hk, Hl. rewrite setNth_nth in Hk.
    destruct (Nat.eqb k i) eqn:Ek.
    - apply Nat.eqb_eq in Ek; subst k. rewrite Er in Hk. assert (x = rstep p cf r e) by congruence. subst x.
      destruct (f_lock f) as [j|] eqn:Ej.
      + destruct (Nat.eqb i j) eqn:Eij; cbn [andb] in Hl.
        * destruct (ended (rstep p cf r e)) eqn:Ee; [ apply ended_idle; [ apply winv_step; exact Wr | exact Ee ] | ].
          apply Nat.eqb_eq in Eij. congruence.
        * apply rstep_idle; [ exact N1 | ]. apply (I i r Er). rewrite Ej. intro H. injection H as ->. rewrite Nat.eqb_refl in Eij. discriminate.
      + apply rstep_idle; [ exact N1 | ]. apply (I i r Er). rewrite Ej. discriminate.
    - apply (I k x Hk). intro H. rewrite H in Hl. destruct (Nat.eqb i k && ended (rstep p cf r e)) eqn:Ea; [ | congruence ].
      apply andb_true_iff in Ea. destruct Ea as (Ea & _). rewrite Nat.eqb_sym in Ea. congruence. }
  destruct e; try (apply Gen; discriminate).
  - destruct (f_lock f) eqn:Ej; [ split; assumption | ]. destruct (c_elect cf && negb (ended r)); [ | split; assumption ].
    split; [ | exact Ww ]. intros k x Hk Hl. cbn in Hk, Hl. rewrite setNth_nth in Hk.
    destruct (Nat.eqb k i) eqn:Ek; [ apply Nat.eqb_eq in Ek; congruence | ]. apply (I k x Hk). rewrite Ej. discriminate.
  - destruct (f_lock f) as [j|] eqn:Ej; [ | split; assumption ]. destruct (Nat.eqb i j) eqn:Eij; [ | split; assumption ].
    split; [ | exact Ww ]. intros k x Hk Hl. cbn in Hk, Hl. rewrite setNth_nth in Hk.
    destruct (Nat.eqb k i) eqn:Ek.
    + apply Nat.eqb_eq in Ek; subst k. rewrite Er in Hk. assert (x = rstep p cf r Lost) by congruence. subst x.
      destruct (rstep_lost_idle p cf r He) as [H|[(H & E)|(H & E)]]; [ exact H | | ].
      * rewrite E. split; [ auto | ]. unfold winv in Wr. rewrite H in Wr. exact Wr.
      * rewrite E. split; [ auto | ]. unfold winv in Wr. rewrite H in Wr. exact Wr.
    + apply (I k x Hk). rewrite Ej. intro H. injection H as ->. apply Nat.eqb_eq in Eij. subst. rewrite Nat.eqb_refl in Ek. discriminate.
Qed.

Lemma finv_run : forall p cf n l, c_elect cf = true -> finv2 (frun p cf n l).
Proof.
  intros p cf n l He. unfold frun.
  assert (S : finv2 (mkFleet (repeat (start cf) n) None)).
  { split.
    - intros i r H _. cbn in H. apply nth_error_In, repeat_spec in H. subst. unfold start, idle. rewrite He. cbn. auto.
    - cbn. apply Forall_forall. intros x Hx. apply repeat_spec in Hx. subst. unfold start, winv. rewrite He. reflexivity. }
  revert S. generalize (mkFleet (repeat (start cf) n) None). induction l as [|(i, e) l IH]; intros f S; cbn; [ exact S | ].
  apply IH. apply finv_step; assumption.
Qed.
Lemma one_leader : forall p cf n l i j a b, c_elect cf = true ->
  nth_error (f_replicas (frun p cf n l)) i = Some a -> nth_error (f_replicas (frun p cf n l)) j = Some b ->
  r_workers a <> [] -> r_workers b <> [] -> i = j.
Proof.
  intros p cf n l i j a b He Ha Hb Wa Wb. destruct (finv_run p cf n l He) as (I & _).
  assert (La : f_lock (frun p cf n l) = Some i).
  { destruct (f_lock (frun p cf n l)) as [k|] eqn:E.
    - destruct (Nat.eq_dec k i) as [->|N]; [ reflexivity | ]. exfalso. apply Wa. apply (I i a Ha). rewrite E. congruence.
    - exfalso. apply Wa. apply (I i a Ha). rewrite E. discriminate. }
  assert (Lb : f_lock (frun p cf n l) = Some j).
  { destruct (f_lock (frun p cf n l)) as [k|] eqn:E.
    - destruct (Nat.eq_dec k j) as [->|N]; [ reflexivity | ]. exfalso. apply Wb. apply (I j b Hb). rewrite E. congruence.
    - exfalso. apply Wb. apply (I j b Hb). rewrite E. discriminate. }
  congruence.
Qed.

Lemma taken_filled : forall p cf l q filled, In (q, filled) (r_taken (rrun p cf l)) -> forall c, In c filled -> In (Filled c) l.
Proof.
  intros p cf l. induction l as [|e l IH] using rev_ind; intros q filled H c Hc.
  - unfold rrun, start in H. cbn in H. destruct H.
  - rewrite rrun_snoc in H. apply in_or_app.
    assert (D : In (q, filled) (r_taken (rrun p cf l)) \/ filled = r_filled (rrun p cf l)).
    { clear IH Hc. destruct (rrun p cf l) as [ph h f w t]. destruct ph; destruct e; cbn in H; auto;
        try (destruct (c_elect cf); cbn in H; auto; fail); try (destruct (startChecks p a); cbn in H; auto; fail);
        try (destruct (allSynced f (waitedFor p ge121)); cbn in H; auto; fail);
        (destruct (existsb (queueEqb q0) w); cbn in H; [ destruct H as [H|H]; [ right; injection H as _ <-; reflexivity | auto ] | auto ]). }
    left. destruct D as [D| ->]; [ exact (IH _ _ D c Hc) | ].
    pose proof (inv_run p cf l) as (_ & Fi & _). apply filled_in. exact (Fi c Hc).
Qed.

Lemma ev_dec : forall a b : Ev, {a = b} + {a <> b}.
Proof.
  intros a b. assert (S : forall x y : string, {x = y} + {x <> y}) by apply string_dec.
  assert (P : forall x y : Probe, {x = y} + {x <> y}) by (decide equality; apply Z.eq_dec).
  assert (L : forall x y : ResList, {x = y} + {x <> y}) by (decide equality; apply list_eq_dec; exact S).
  assert (A : forall x y : Answer, {x = y} + {x <> y}) by (decide equality; [ decide equality; apply bool_dec | apply list_eq_dec; exact L | apply list_eq_dec; exact P ]).
  decide equality; decide equality.
Qed.

Lemma attachments_spec : forall groups lists, attachmentHandler groups lists = true <->
  exists gs gs1 gs2 v names, groups = Some gs /\ gs = gs1 ++ ("storage.k8s.io", v) :: gs2 /\ ~ In "storage.k8s.io" (map fst gs1) /\
    lists v = Some names /\ In "volumeattachments" names.
Proof.
  intros groups lists. unfold attachmentHandler, isResourceSupported. split.
  - destruct groups as [gs|]; [ | discriminate ]. intro H. exists gs.
    assert (F : forall l : list (string * string), match find (fun x : string * string => String.eqb (fst x) "storage.k8s.io") l with
        | None => True
        | Some (g, v) => exists l1 l2, l = l1 ++ ("storage.k8s.io", v) :: l2 /\ ~ In "storage.k8s.io" (map fst l1) end).
    { induction l as [|(g, v) l IH]; cbn [find fst]; [ exact I | ]. destruct (String.eqb g "storage.k8s.io") eqn:E.
      - apply String.eqb_eq in E; subst g. exists [], l. split; [ reflexivity | intros [] ].
      - destruct (find (fun x : string * string => String.eqb (fst x) "storage.k8s.io") l) as [(g', v')|]; [ | exact I ].
        destruct IH as (l1 & l2 & -> & N). exists ((g, v) :: l1), l2. split; [ reflexivity | ]. cbn. intros [->|Hn]; [ rewrite String.eqb_refl in E; discriminate | auto ]. }
    specialize (F gs). destruct (find (fun x : string * string => String.eqb (fst x) "storage.k8s.io") gs) as [(g, v)|]; [ | discriminate H ].
    destruct F as (l1 & l2 & E & N). destruct (lists v) as [names|] eqn:El; [ | discriminate H ].
    exists l1, l2, v, names. apply existsb_exists in H. destruct H as (n & Hn & En). apply String.eqb_eq in En. subst n. auto.
  - intros (gs & gs1 & gs2 & v & names & -> & -> & N & El & Hn).
    assert (F : find (fun x : string * string => String.eqb (fst x) "storage.k8s.io") (gs1 ++ ("storage.k8s.io", v) :: gs2) = Some ("storage.k8s.io", v)).
    { induction gs1 as [|(g, w) gs1 IH]; [ reflexivity | ]. cbn [app find fst]. destruct (String.eqb g "storage.k8s.io") eqn:E.
      - apply String.eqb_eq in E. exfalso. apply N. left. exact E.
      - apply IH. intro. apply N. right. assumption. }
    rewrite F, El. apply existsb_exists. exists "volumeattachments". split; [ exact Hn | apply String.eqb_refl ].
Qed.
