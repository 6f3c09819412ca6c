(** Property C110: a MachineDeployment ends where its last change says, whenever that change came. *)
Require Import Coq.ZArith.ZArith Coq.Lists.List Coq.Strings.String Coq.Bool.Bool Coq.micromega.Lia.
From Verif Require Import Types RolloutModel RolloutSpec ScaleModel RecreateModel WholeModel WishModel WishSpec WishProofs.
Import ListNotations.
Open Scope Z_scope.

(** A concrete history: 2 machines of template 1 are asked for; amid the rollout of template 2 the user
    turns to template 3 and to 3 machines. Rounds of reconcile, work, readiness and report. *)
Definition all_ok : Api := mkApi true (fun _ => true) (fun _ => true).
Definition go (nm : string) : Op := Do (mkCalls all_ok true nm 9 true 99).
Definition ex_w : Dep := mkDep 1 2 (Some (IOSInt 1)) (Some (IOSInt 0)) false None [].
Definition settling (w : Dep) : list Op :=
  let l := flat_map (fun t => [Happens (name t) (CWork 9); Happens (name t) CReady; Happens (name t) CReady; Happens (name t) CReady]) (p_sets w) in
  l ++ map (fun t => Happens (name t) (CReport (x_have (t_x t)) (x_up (t_x t)))) (p_sets (run w l)).
Fixpoint rounds (names : list string) (w : Dep) : list Op :=
  match names with
  | [] => []
  | nm :: names => let l := go nm :: settling (step w (go nm)) in l ++ rounds names (run w l)
  end.
Definition ex_l0 : list Op :=
  let a := rounds ["a"; "b"]%string ex_w ++ [Change_ (SetTemplate 2)] in
  a ++ rounds ["c"]%string (run ex_w a) ++ [Change_ (SetTemplate 3); Change_ (SetSize 3)].
Definition ex_l1 : list Op := rounds ["d"; "e"]%string (run ex_w ex_l0).
Definition ex_l2 : list Op := rounds ["f"; "f"; "f"; "f"; "f"; "f"; "f"; "f"]%string (run ex_w (ex_l0 ++ ex_l1)).

(* Deciding the hypotheses of the concrete cases. *)
Definition modestb (w : Dep) (o : Op) : bool :=
  match o with
  | Do _ => match p_surge w with Some (IOSInt z) => forallb (fun t => spec t * (p_size w + z) <? 2147483648) (p_sets w) | _ => false end
  | Change_ (SetSize n) => 0 <? n
  | Change_ (SetBudget _ _) => false
  | Happens _ (CReport r a) => (0 <=? r) && (0 <=? a)
  | _ => true
  end.
Fixpoint alwaysb (w : Dep) (l : list Op) : bool := match l with [] => true | o :: l => modestb w o && alwaysb (step w o) l end.
Lemma modestb_ok : forall l w, alwaysb w l = true -> always modest w l.
Proof.
  intros l. induction l as [|o l IH]; intros w H; [exact I|]. cbn [alwaysb] in H. apply andb_true_iff in H. destruct H as (H & T). split; [|apply IH; exact T].
  destruct o as [a|[]|n []|n]; cbn [modestb modest] in *; try exact I; try discriminate; try lia.
  intros sg S. destruct (p_surge w) as [[z| |]|]; try discriminate. cbn in S. subst sg. apply Forall_forall. intros t Ht. rewrite forallb_forall in H. specialize (H t Ht). lia.
Qed.
Definition freeb (nm : string) (w : Dep) : bool := negb (existsb (fun t => String.eqb (name t) nm) (p_sets w)) && (Nat.leb (List.length (p_sets w)) 99).
Definition completeb (w : Dep) : bool :=
  forallb (fun t => (ms_status (obj t) =? spec t) && (ms_avail (obj t) <=? spec t) && (negb (t_tmpl t =? p_tmpl w) || (ms_avail (obj t) =? spec t))) (p_sets w).
Fixpoint good_rounds (f : Dep -> bool) (names : list string) (w : Dep) : nat :=
  match names with
  | [] => 0%nat
  | nm :: names => ((if f w && freeb nm w then 1 else 0) + good_rounds f names (run w (go nm :: settling (step w (go nm)))))%nat
  end.
Lemma go_ok : forall w nm, freeb nm w = true -> successful w (go nm).
Proof.
  intros w nm H. unfold freeb in H. apply andb_true_iff in H. destruct H as (H & L). apply Nat.leb_le in L. cbn. repeat (split; [reflexivity || assumption || (intros; reflexivity)|]).
  intro I1. apply in_map_iff in I1. destruct I1 as (t & E & Ht). rewrite negb_true_iff in H. assert (existsb (fun t => String.eqb (name t) nm) (p_sets w) = true) as G; [|congruence].
  apply existsb_exists. exists t. split; [exact Ht|]. apply String.eqb_eq. exact E.
Qed.
Lemma go_helps : forall w nm, completeb w && freeb nm w = true -> helpful w (go nm).
Proof.
  intros w nm H. apply andb_true_iff in H. destruct H as (H & F). split; [apply go_ok; exact F|]. apply Forall_forall. intros t Ht. unfold completeb in H. rewrite forallb_forall in H.
  specialize (H t Ht). unfold obj in H. apply andb_true_iff in H. destruct H as (H & H3). apply andb_true_iff in H. destruct H as (H1 & H2). split; [lia|]. split; [lia|].
  intro E. apply orb_true_iff in H3. destruct H3 as [H3|H3]; [|lia]. unfold of_template in E. rewrite negb_true_iff in H3. lia.
Qed.
Lemma count_later : forall P l m k w, count P k (run w l) m -> count P k w (l ++ m).
Proof. intros P l. induction l as [|o l IH]; intros m k w H; [exact H|]. destruct k; [exact I|]. right. apply IH. exact H. Qed.
Lemma rounds_count : forall (P : Dep -> Op -> Prop) f, (forall w nm, f w && freeb nm w = true -> P w (go nm)) -> forall names w, count P (good_rounds f names w) w (rounds names w).
Proof.
  intros P f H names. induction names as [|nm names IH]; intro w; [exact I|]. cbn [good_rounds rounds]. destruct (f w && freeb nm w) eqn:E.
  - cbn [Nat.add app]. left. split; [apply H; exact E|]. apply count_later. apply IH.
  - cbn [Nat.add]. apply (count_later P (go nm :: settling (step w (go nm)))). apply IH.
Qed.
Lemma rounds_no_edit : forall names w, Forall no_edit (rounds names w).
Proof.
  intros names. induction names as [|nm names IH]; intro w; [constructor|]. cbn [rounds app]. constructor; [exact I|]. apply Forall_app. split; [|apply IH].
  unfold settling. apply Forall_app. split; apply Forall_forall; intros o Ho.
  - apply in_flat_map in Ho. destruct Ho as (t & _ & [<-|[<-|[<-|[<-|[]]]]]); exact I.
  - apply in_map_iff in Ho. destruct Ho as (t & <- & _). exact I.
Qed.

(** C110_defined_partial: whatever happens to a deployment that was made - changes by the user at any moment,
    calls that fail, machines that come and go - as long as at least one machine is always asked for
    and no product exceeds int32, the share of every set is defined at every reconcile; sizes, names
    and templates of the sets stay in order. Missing: a wanted size of zero in between, after which it
    may not be defined (C110_undefined_share_refuted). *)
Theorem C110_defined_partial : forall w l, fresh w -> always modest w l -> always possible w l /\ proper (run w l).
Proof.
  intros w l F A. destruct (fresh_ok w F) as (P & H & T). destruct (modest_run l w P H T A) as (B & C & _). split; assumption.
Qed.
Print Assumptions C110_defined_partial.

Lemma ex_fresh : fresh ex_w.
Proof. split; [reflexivity|]. cbn. lia. Qed.
Lemma ex_modest : always modest ex_w (ex_l0 ++ ex_l1 ++ ex_l2).
Proof. apply modestb_ok. vm_compute. reflexivity. Qed.
Example C110_defined_partial_case : fresh ex_w /\ always modest ex_w (ex_l0 ++ ex_l1 ++ ex_l2) /\ List.length (p_sets (run ex_w (ex_l0 ++ ex_l1))) = 3%nat.
Proof. split; [exact ex_fresh|]. split; [exact ex_modest|vm_compute; reflexivity]. Qed.

(** C110_taken: two reconciles whose calls succeed, while the user changes nothing, and the last
    change is taken up: there is a set of the template, every set that requests machines knows the
    wanted size, no rollback is pending. The wanted size and budgets are still the user's, and so is
    the template unless a rollback was asked for. *)
Theorem C110_taken : forall w l, proper w -> p_paused w = false -> always possible w l -> Forall no_edit l -> count successful 2 w l ->
  taken_up (run w l) /\ p_size (run w l) = p_size w /\ p_surge (run w l) = p_surge w /\ p_unavail (run w l) = p_unavail w /\
  (p_back w = None -> wish (run w l) = wish w).
Proof.
  intros w l P U A N C. destruct (run_settings l w N) as (S & W). unfold settings in S. injection S as S1 S2 S3 S4.
  split; [exact (proj1 (two_successes l w P U A N) C)|]. auto.
Qed.
Print Assumptions C110_taken.

Lemma ex_l1_two : count successful 2 (run ex_w ex_l0) ex_l1.
Proof.
  assert (2%nat = good_rounds (fun _ => true) ["d"; "e"]%string (run ex_w ex_l0)) as -> by (vm_compute; reflexivity).
  apply rounds_count. intros w nm H. apply go_ok. exact H.
Qed.
Example C110_taken_case : let w := run ex_w ex_l0 in p_paused w = false /\ Forall no_edit ex_l1 /\ count successful 2 w ex_l1 /\ ~ taken_up w.
Proof.
  split; [vm_compute; reflexivity|]. split; [apply rounds_no_edit|]. split; [exact ex_l1_two|].
  intros (_ & _ & (t & Ht & E) & _). revert Ht E. vm_compute. intros [<-|[<-|[]]]; discriminate.
Qed.

(** C110_ends: from then on, and whatever else happens - failing calls, statuses that lag behind,
    broken machines -, as many reconciles as machines are to be moved, each of which succeeds and sees
    the sets complete and the template's available, bring the deployment where the change wants it:
    all machines requested of the template's set, none of the others. *)
Theorem C110_ends : forall w l k, proper w -> taken_up w -> always possible w l -> Forall no_edit l -> count helpful k w l ->
  todo w <= Z.of_nat k -> fulfilled (run w l) /\ wish (run w l) = wish w.
Proof.
  intros w l k P T A N C L. destruct (taken_run l w P T A N) as (T' & W & _). split; [|exact W].
  pose proof (run_proper l w P A) as P'. pose proof (todo_zero _ P' (taken_new _ T')) as (Z1 & Z2). apply Z1.
  pose proof (helped_todo l k w P T A N C). lia.
Qed.
Print Assumptions C110_ends.

Lemma ex_l2_six : exists k, (6 <= k)%nat /\ count helpful k (run ex_w (ex_l0 ++ ex_l1)) ex_l2.
Proof.
  exists (good_rounds completeb ["f"; "f"; "f"; "f"; "f"; "f"; "f"; "f"]%string (run ex_w (ex_l0 ++ ex_l1))). split; [vm_compute; lia|].
  apply rounds_count. intros w nm H. apply go_helps. exact H.
Qed.
Example C110_ends_case : let w := run ex_w (ex_l0 ++ ex_l1) in
  Forall no_edit ex_l2 /\ (exists k, (6 <= k)%nat /\ count helpful k w ex_l2) /\ todo w = 6 /\ ~ fulfilled w.
Proof.
  split; [apply rounds_no_edit|]. split; [exact ex_l2_six|]. split; [vm_compute; reflexivity|].
  intros (_ & F). vm_compute in F. inversion F as [|? ? (A & _) _]; subst. specialize (A eq_refl). discriminate.
Qed.

(** C110_last_change_partial: a deployment is made; whatever the user does to it afterwards and whatever fails meanwhile,
    once they leave it alone and not paused, two successful reconciles and then as many helpful ones as
    machines are to be moved bring it where the last change wants it. Missing: a wanted size of zero in
    between (C110_undefined_share_refuted). For caches of the deployment controller that lag behind see C111. *)
Theorem C110_last_change_partial : forall w l0 l1 l2 k, fresh w -> always modest w (l0 ++ l1 ++ l2) -> p_paused (run w l0) = false ->
  Forall no_edit (l1 ++ l2) -> count successful 2 (run w l0) l1 -> count helpful k (run w (l0 ++ l1)) l2 ->
  todo (run w (l0 ++ l1)) <= Z.of_nat k ->
  let w' := run w (l0 ++ l1 ++ l2) in
  fulfilled w' /\ p_size w' = p_size (run w l0) /\ (p_back (run w l0) = None -> p_tmpl w' = p_tmpl (run w l0)).
Proof.
  intros w l0 l1 l2 k F A U N C1 C2 L w'. destruct (C110_defined_partial w _ F A) as (Po & _). apply always_app in Po. destruct Po as (Po0 & Po1).
  apply always_app in Po1. destruct Po1 as (Po1 & Po2). apply Forall_app in N. destruct N as (N1 & N2).
  destruct (fresh_ok w F) as (P & _). pose proof (run_proper l0 w P Po0) as P0. pose proof (run_proper l1 _ P0 Po1) as P1.
  destruct (C110_taken _ l1 P0 U Po1 N1 C1) as (T & Sz & _ & _ & W). rewrite run_app in C2, L.
  destruct (C110_ends _ l2 k P1 T Po2 N2 C2 L) as (E1 & E2). unfold w'. rewrite !run_app. split; [exact E1|]. unfold wish in *. split.
  - transitivity (p_size (run (run w l0) l1)); [congruence|exact Sz].
  - intro B. specialize (W B). congruence.
Qed.
Print Assumptions C110_last_change_partial.

Example C110_last_change_partial_case : fresh ex_w /\ always modest ex_w (ex_l0 ++ ex_l1 ++ ex_l2) /\ p_paused (run ex_w ex_l0) = false /\
  Forall no_edit (ex_l1 ++ ex_l2) /\ count successful 2 (run ex_w ex_l0) ex_l1 /\
  (exists k, (6 <= k)%nat /\ count helpful k (run ex_w (ex_l0 ++ ex_l1)) ex_l2) /\ todo (run ex_w (ex_l0 ++ ex_l1)) = 6 /\
  map (fun t => (name t, t_tmpl t, spec t)) (p_sets (run ex_w (ex_l0 ++ ex_l1 ++ ex_l2))) = [("d", 3, 3); ("c", 2, 0); ("a", 1, 0)]%string.
Proof.
  split; [exact ex_fresh|]. split; [exact ex_modest|]. split; [vm_compute; reflexivity|]. split; [apply Forall_app; split; apply rounds_no_edit|].
  split; [exact ex_l1_two|]. split; [exact ex_l2_six|]. split; vm_compute; reflexivity.
Qed.

(** C110_stays: and there it stays, whatever fails, until the user changes something. *)
Theorem C110_stays : forall w l, proper w -> taken_up w -> fulfilled w -> always possible w l -> Forall no_edit l ->
  fulfilled (run w l) /\ wish (run w l) = wish w.
Proof.
  intros w l P T F A N. apply (C110_ends w l 0%nat P T A N); [destruct l; exact I|]. pose proof (todo_zero w P (taken_new w T)) as (Z1 & _). apply Z1 in F. lia.
Qed.
Print Assumptions C110_stays.

Example C110_stays_case : let w := run ex_w (ex_l0 ++ ex_l1 ++ ex_l2) in fulfilled w /\ taken_up w.
Proof.
  split.
  - split; [eexists; split; [vm_compute; left; reflexivity|vm_compute; reflexivity]|]. vm_compute. repeat constructor; intro; congruence.
  - split; [vm_compute; reflexivity|]. split; [vm_compute; reflexivity|]. split; [eexists; split; [vm_compute; left; reflexivity|vm_compute; reflexivity]|].
    vm_compute. repeat constructor; intros; congruence.
Qed.

(** C110_never_stuck_partial: there is no history after which the deployment is stuck: unless it is paused, an
    ordinary course of things leads where the last change wants it. Missing: as above. *)
Theorem C110_never_stuck_partial : forall w l, fresh w -> always modest w l -> p_paused (run w l) = false -> moderate (run w l) ->
  (forall a, modest (run w l) (Do a)) -> exists m, always ordinary (run w l) m /\
  let w' := run (run w l) m in fulfilled w' /\ taken_up w' /\ p_size w' = p_size (run w l) /\ (p_back (run w l) = None -> wish w' = wish (run w l)).
Proof.
  intros w l F A U M O. destruct (fresh_ok w F) as (P & H & T). destruct (modest_run l w P H T A) as (_ & P' & H' & T').
  assert (shares_defined (run w l)) as D.
  { intros sg Sg _. specialize (O (mkCalls all_ok true "" 0 true 0) sg Sg). unfold totals in T'. rewrite Forall_forall in T', O. apply Forall_forall. intros t Ht _.
    destruct (T' t Ht) as (z & Z1 & Z2). exists z. split; [exact Z1|]. split; [exact Z2|exact (O t Ht)]. }
  destruct (never_stuck _ P' U D (moderate_small _ P' M)) as (m & B1 & B2 & B3). exists m. split; [exact B1|]. cbv zeta.
  destruct (run_settings m (run w l) (ordinary_no_edit m _ B1)) as (S & W). unfold settings in S. injection S as S1 _ _ _. auto.
Qed.
Print Assumptions C110_never_stuck_partial.

Example C110_never_stuck_partial_case : fresh ex_w /\ always modest ex_w ex_l0 /\ p_paused (run ex_w ex_l0) = false /\
  moderate (run ex_w ex_l0) /\ (forall a, modest (run ex_w ex_l0) (Do a)) /\ ~ taken_up (run ex_w ex_l0).
Proof.
  split; [exact ex_fresh|]. split; [apply modestb_ok; vm_compute; reflexivity|]. split; [vm_compute; reflexivity|].
  split; [|split; [|apply C110_taken_case]].
  - intros sg. assert (p_size (run ex_w ex_l0) = 3 /\ p_surge (run ex_w ex_l0) = Some (IOSInt 1)) as (-> & ->) by (vm_compute; auto). cbn. intros ->. lia.
  - intro a. apply (modestb_ok [Do a]). vm_compute. reflexivity.
Qed.

(** C110_rollback: a successful reconcile carries a rollback out: the template of the set asked for is
    the deployment's, the request is gone, nothing else changes; where there is no such set the
    request is dropped. *)
Theorem C110_rollback : forall w o nm, proper w -> p_paused w = false -> p_back w = Some nm -> successful w o ->
  let w' := step w o in p_back w' = None /\ p_size w' = p_size w /\ p_surge w' = p_surge w /\ p_unavail w' = p_unavail w /\
  (forall t, In t (p_sets w) -> name t = nm -> p_tmpl w' = t_tmpl t) /\ (~ In nm (map name (p_sets w)) -> p_tmpl w' = p_tmpl w).
Proof. exact rollback_done. Qed.
Print Assumptions C110_rollback.

Definition ex_back : Dep := run ex_w (ex_l0 ++ ex_l1 ++ [Change_ (RollBack "a")]).
Example C110_rollback_case : proper ex_back /\ p_paused ex_back = false /\ p_back ex_back = Some "a"%string /\ successful ex_back (go "z") /\
  p_tmpl ex_back = 3 /\ p_tmpl (step ex_back (go "z")) = 1.
Proof.
  split; [apply (C110_defined_partial ex_w _ ex_fresh); apply modestb_ok; vm_compute; reflexivity|]. split; [vm_compute; reflexivity|]. split; [vm_compute; reflexivity|].
  split; [apply go_ok; vm_compute; reflexivity|]. split; vm_compute; reflexivity.
Qed.

(** C110_rollback_creates_refuted: a rollback asked for before the set of the present template was
    made first makes that set, with machines, for the template that is being abandoned
    (deployment_rollback.go 38). *)
Theorem C110_rollback_creates_refuted : exists w o, proper w /\ p_paused w = false /\ p_back w = Some "a"%string /\ successful w o /\
  (exists t, In t (p_sets w) /\ name t = "a"%string /\ t_tmpl t = 1) /\
  p_tmpl (step w o) = 1 /\ exists t, In t (p_sets (step w o)) /\ t_tmpl t = 2 /\ spec t = 1 /\ ~ In (name t) (map name (p_sets w)).
Proof.
  exists (run ex_w (rounds ["a"; "b"]%string ex_w ++ [Change_ (SetTemplate 2); Change_ (RollBack "a")])), (go "c").
  split; [apply (C110_defined_partial ex_w _ ex_fresh); apply modestb_ok; vm_compute; reflexivity|]. split; [vm_compute; reflexivity|]. split; [vm_compute; reflexivity|].
  split; [apply go_ok; vm_compute; reflexivity|]. split; [eexists; split; [vm_compute; left; reflexivity|vm_compute; auto]|].
  split; [vm_compute; reflexivity|]. eexists. split; [vm_compute; left; reflexivity|]. split; [vm_compute; reflexivity|]. split; [vm_compute; reflexivity|].
  vm_compute. intros [X|[]]; discriminate.
Qed.
Print Assumptions C110_rollback_creates_refuted.

(** C110_undefined_share_refuted: asked for no machine in between, a deployment with a surge in percent
    can come to sets that request machines and know a total of zero; the next scaling divides by it and
    converts infinity to an int32 (deployment_util.go 695), whose result Go leaves to the processor:
    here after a failed update while template and size were changed together. *)
Definition zero_w : Dep := mkDep 1 4 (Some (IOSPercent 25)) (Some (IOSInt 0)) false None [].
Definition zero_l : list Op :=
  [go "a"; Happens "a" (CWork 9); Happens "a" CReady; Happens "a" CReady; Happens "a" CReady; Happens "a" CReady; Happens "a" (CReport 4 4);
   Change_ (SetTemplate 2); go "b"; Happens "b" (CWork 9); Happens "b" CReady; Happens "b" (CReport 2 1);
   Happens "a" CLost; Happens "a" (CReport 4 3); Change_ (SetSize 0); Change_ (SetTemplate 3);
   Do (mkCalls (mkApi true (fun _ => true) (fun _ => false)) true "c" 9 true 99); Change_ (SetSize 1)].
Theorem C110_undefined_share_refuted : fresh zero_w /\ Forall (fun o => match o with Change_ (SetSize n) => 0 <= n | _ => True end) zero_l /\
  let w := run zero_w zero_l in p_paused w = false /\ p_back w = None /\ p_size w = 1 /\
  map (fun t => (name t, spec t, ms_max (obj t))) (p_sets w) = [("c", 0, AnnInt 0); ("b", 1, AnnInt 0); ("a", 3, AnnInt 0)]%string /\
  isScalingEvent (dep w) (option_map obj (newSet w)) (map obj (oldSets w)) = true /\
  scale (dep w) (option_map obj (newSet w)) (map obj (oldSets w)) = None.
Proof.
  split; [split; [reflexivity|cbn; lia]|]. split; [repeat constructor; discriminate|]. cbv zeta. repeat split; vm_compute; reflexivity.
Qed.
Print Assumptions C110_undefined_share_refuted.
