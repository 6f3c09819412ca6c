(** Property C111: a MachineDeployment ends where its last change says, however far its cache of MachineSets lags. *)
Require Import Coq.ZArith.ZArith Coq.Lists.List Coq.Strings.String Coq.Bool.Bool Coq.micromega.Lia.
From Verif Require Import Types RolloutModel RolloutSpec ScaleModel RecreateModel WholeModel WholeSpec WishModel WishSpec WishProofs WishProps LateModel LateSpec LateProofs.
Import ListNotations.
Open Scope Z_scope.
Require Import Coq.micromega.ZifyBool.

(** A concrete history, as that of C110, but again and again a reconcile acts on what was stored long ago: amid
    the rollout of template 2, after the change to template 3, and while this one is rolled out. *)
Definition calls (nm : string) : Calls := mkCalls all_ok true nm 9 true 99.
Definition now (l : list WishModel.Op) : list Op := map Now l.
Definition old_view : list TSet := p_sets (WishModel.run ex_w (rounds ["a"]%string ex_w)).
Definition ex_l0 : list Op :=
  let a := now (rounds ["a"; "b"]%string ex_w ++ [Change_ (SetTemplate 2)]) ++ [Behind old_view None (calls "c")] in
  let b := a ++ now (rounds ["x"]%string (run ex_w a)) in
  b ++ [Behind old_view (hd_error (p_sets (run ex_w b))) (calls "c"); Now (Change_ (SetTemplate 3)); Now (Change_ (SetSize 3))].
Definition mid_view : list TSet := p_sets (run ex_w ex_l0).
Definition ex_l1 : list Op :=
  let a := now (rounds ["d"]%string (run ex_w ex_l0)) ++ [Behind old_view None (calls "d"); Behind mid_view None (calls "d")] in
  a ++ now (rounds ["e"]%string (run ex_w (ex_l0 ++ a))).
Definition w_taken : Dep := run ex_w (ex_l0 ++ ex_l1).
Definition ex_l2a : list Op := now (rounds ["f"; "f"; "f"]%string w_taken) ++ [Behind (p_sets w_taken) None (calls "f")].
Definition ex_l2b : list Op := now (rounds ["f"; "f"; "f"; "f"; "f"]%string (run w_taken ex_l2a)).
Definition ex_l2 : list Op := ex_l2a ++ ex_l2b.

(* Deciding the hypotheses of the concrete cases. *)
Definition t_dec (a b : TSet) : {a = b} + {a <> b}.
Proof. decide equality; try apply Z.eq_dec. decide equality; try apply Z.eq_dec. apply ms_dec. Defined.
Definition inclb (a b : list TSet) : bool := forallb (fun t => existsb (fun u => if t_dec t u then true else false) b) a.
Fixpoint nodupb {A : Type} (dec : forall a b : A, {a = b} + {a <> b}) (l : list A) : bool :=
  match l with [] => true | a :: l => negb (existsb (fun b => if dec a b then true else false) l) && nodupb dec l end.
Definition lmodestb (past : list TSet) (w : Dep) (o : Op) : bool :=
  match o with
  | Now o => modestb w o
  | Behind v late a =>
      (inclb (views v late) past && nodupb string_dec (map name (views v late)) && nodupb Z.eq_dec (map t_tmpl (views v late))) &&
      (forallb (fun t => negb (String.eqb (name t) (a_name a)) || (t_tmpl t =? p_tmpl w)) v &&
       match p_surge w with Some (IOSInt z) => forallb (fun t => spec t * (p_size w + z) <? 2147483648) v | _ => false end)
  end.
Definition caughtb (past : list TSet) (w : Dep) (o : Op) : bool := match o with Behind v late _ => inclb (views v late) past | Now _ => true end.
Fixpoint livedb (P : list TSet -> Dep -> Op -> bool) (past : list TSet) (w : Dep) (l : list Op) : bool :=
  match l with [] => true | o :: l => P past w o && livedb P (p_sets (step w o) ++ past) (step w o) l end.
Fixpoint forwardb (seen : list TSet) (w : Dep) (l : list Op) : bool :=
  match l with
  | [] => true
  | o :: l => caughtb seen w o && forwardb (p_sets (step w o) ++ match o with Now (Do _) => p_sets w | _ => seen end) (step w o) l
  end.
Lemma inclb_ok : forall a b, inclb a b = true -> incl a b.
Proof.
  intros a b H t Ht. unfold inclb in H. rewrite forallb_forall in H. specialize (H t Ht). apply existsb_exists in H. destruct H as (u & U & E).
  destruct (t_dec t u) as [->|]; [exact U|discriminate].
Qed.
Lemma nodupb_ok : forall (A : Type) (dec : forall a b : A, {a = b} + {a <> b}) l, nodupb dec l = true -> NoDup l.
Proof.
  intros A dec l. induction l as [|a l IH]; intro H; [constructor|]. cbn [nodupb] in H. apply andb_true_iff in H. destruct H as (H1 & H2). constructor; [|apply IH; exact H2].
  intro I1. assert (existsb (fun b => if dec a b then true else false) l = true) as G; [|rewrite G in H1; discriminate]. apply existsb_exists. exists a. split; [exact I1|]. destruct (dec a a); congruence.
Qed.
Lemma livedb_ok : forall (B : list TSet -> Dep -> Op -> bool) (P : list TSet -> Dep -> Op -> Prop), (forall past w o, B past w o = true -> P past w o) ->
  forall l past w, livedb B past w l = true -> lived P past w l.
Proof. intros B P H l. induction l as [|o l IH]; intros past w E; [exact I|]. cbn [livedb] in E. apply andb_true_iff in E. destruct E as (E1 & E2). split; [apply H; exact E1|apply IH; exact E2]. Qed.
Lemma lmodestb_ok : forall past w o, lmodestb past w o = true -> modest past w o.
Proof.
  intros past w [v late a|o] H.
  - cbn [lmodestb] in H. apply andb_true_iff in H. destruct H as (H & H4). apply andb_true_iff in H. destruct H as (H & H3). apply andb_true_iff in H. destruct H as (H1 & H2).
    apply andb_true_iff in H4. destruct H4 as (H4 & H5). split; [split; [apply inclb_ok; exact H1|split; [exact (nodupb_ok _ _ _ H2)|exact (nodupb_ok _ _ _ H3)]]|]. split.
    + intros t Ht E. rewrite forallb_forall in H4. specialize (H4 t Ht). rewrite E, String.eqb_refl in H4. cbn [negb orb] in H4. unfold of_template. lia.
    + intros sg S. destruct (p_surge w) as [[z| |]|]; try discriminate. cbn in S. subst sg. apply Forall_forall. intros t Ht. rewrite forallb_forall in H5. specialize (H5 t Ht). lia.
  - cbn [modest]. apply (modestb_ok [o] w). cbn [alwaysb]. change (modestb w o = true) in H. rewrite H. reflexivity.
Qed.
Lemma caughtb_ok : forall past w o, caughtb past w o = true -> caught_up past w o.
Proof. intros past w [v late a|o] H; [apply inclb_ok; exact H|exact I]. Qed.
Lemma forwardb_ok : forall l seen w, forwardb seen w l = true -> forward seen w l.
Proof.
  intros l. induction l as [|o l IH]; intros seen w E; [exact I|]. cbn [forwardb] in E. apply andb_true_iff in E. destruct E as (E1 & E2). split; [|apply IH; exact E2].
  destruct o as [v late a|o]; [apply inclb_ok; exact E1|exact I].
Qed.
Lemma now_run : forall l w, run w (now l) = WishModel.run w l.
Proof. intros l. induction l as [|o l IH]; intro w; [reflexivity|]. exact (IH (WishModel.step w o)). Qed.
Lemma now_count : forall P l k w, WishSpec.count P k w l -> count P k w (now l).
Proof.
  intros P l. induction l as [|o l IH]; intros k w H; [destruct k; exact H|]. destruct k as [|k]; [exact I|]. destruct H as [(H1 & H2)|H]; [left; split; [exact H1|exact (IH k _ H2)]|right; exact (IH (S k) _ H)].
Qed.
Lemma count_app : forall P l m j k w, count P j w l -> count P k (run w l) m -> count P (j + k) w (l ++ m).
Proof.
  intros P l. induction l as [|o l IH]; intros m j k w H K.
  - destruct j; [exact K|contradiction].
  - destruct j as [|j].
    + destruct k as [|k]; [exact I|]. cbn [Nat.add app count]. right. apply (IH m 0%nat (S k) (step w o)); [destruct l; exact I|exact K].
    + cbn [Nat.add app count]. destruct H as [(H1 & H2)|H]; [left; split; [exact H1|apply (IH m j k (step w o)); assumption]|right; apply (IH m (S j) k (step w o)); assumption].
Qed.
Lemma count_skip : forall P o l k w, count P k (step w o) l -> count P k w (o :: l).
Proof. intros P o l k w H. destruct k; [exact I|]. right. exact H. Qed.
Lemma now_no_edit : forall l, Forall WishSpec.no_edit l -> Forall no_edit (now l).
Proof. intros l H. apply Forall_forall. intros o Ho. apply in_map_iff in Ho. destruct Ho as (x & <- & Hx). rewrite Forall_forall in H. exact (H x Hx). Qed.

(** C111_same: a reconcile on a cache that shows what is stored is the one of C110. *)
Theorem C111_same : forall w a, proper w -> step w (Behind (p_sets w) None a) = step w (Now (Do a)).
Proof. exact same_step. Qed.
Print Assumptions C111_same.

Example C111_same_case : let w := run ex_w (ex_l0 ++ ex_l1) in step w (Behind (p_sets w) None (calls "f")) = step w (Now (Do (calls "f"))) /\
  step w (Behind old_view None (calls "f")) <> step w (Now (Do (calls "f"))).
Proof. split; [vm_compute; reflexivity|]. vm_compute. discriminate. Qed.

(** C111_defined_partial: whatever happens to a deployment that was made, and whatever the cache shows - every set
    in any version that was ever stored, or not at all -, as long as at least one machine is always asked for
    and no product exceeds int32, the share of every set is defined at every reconcile; sizes, names and
    templates of the sets stay in order. Missing: a wanted size of zero in between
    (C110_undefined_share_refuted). *)
Theorem C111_defined_partial : forall w l, fresh w -> lived modest [] w l -> always possible w l /\ proper (run w l).
Proof.
  intros w l F A. destruct (fresh_ok w F) as (P & H & T). destruct (modest_run l [] w P H T (Forall_nil _) A) as (B & C & _). split; assumption.
Qed.
Print Assumptions C111_defined_partial.

Lemma ex_modest : lived modest [] ex_w (ex_l0 ++ ex_l1 ++ ex_l2).
Proof. apply (livedb_ok lmodestb modest lmodestb_ok). vm_compute. reflexivity. Qed.
Example C111_defined_partial_case : fresh ex_w /\ lived modest [] ex_w (ex_l0 ++ ex_l1 ++ ex_l2) /\ List.length (p_sets (run ex_w (ex_l0 ++ ex_l1))) = 3%nat.
Proof. split; [exact ex_fresh|]. split; [exact ex_modest|vm_compute; reflexivity]. Qed.

(** C111_taken: two reconciles that see what is stored and whose calls succeed, while the user changes
    nothing, and the last change is taken up, and stays so, whatever a lagging cache makes others do
    before, between and after them. *)
Theorem C111_taken : forall w l, proper w -> p_paused w = false -> always possible w l -> Forall no_edit l -> count successful 2 w l ->
  taken_up (run w l) /\ p_size (run w l) = p_size w /\ p_surge (run w l) = p_surge w /\ p_unavail (run w l) = p_unavail w /\
  (p_back w = None -> wish (run w l) = wish w).
Proof.
  intros w l P U A N C. destruct (run_settings l w P A N) as (S & W). unfold settings in S. injection S as S1 S2 S3 S4.
  split; [exact (proj1 (two_successes l w P U A N) C)|]. auto.
Qed.
Print Assumptions C111_taken.

Lemma ex_l1_two : count successful 2 (run ex_w ex_l0) ex_l1.
Proof.
  set (w := run ex_w ex_l0). set (a := now (rounds ["d"]%string w) ++ [Behind old_view None (calls "d"); Behind mid_view None (calls "d")]).
  assert (ex_l1 = a ++ now (rounds ["e"]%string (run ex_w (ex_l0 ++ a)))) as -> by reflexivity. apply (count_app successful a _ 1 1).
  - unfold a. apply (count_app successful _ _ 1 0); [|exact I]. apply now_count.
    assert (1%nat = good_rounds (fun _ => true) ["d"]%string w) as E by (vm_compute; reflexivity). rewrite E.
    apply rounds_count. intros x nm H. apply go_ok. exact H.
  - rewrite (run_app ex_l0 a ex_w). fold w. apply now_count.
    assert (1%nat = good_rounds (fun _ => true) ["e"]%string (run w a)) as E by (vm_compute; reflexivity). rewrite E.
    apply rounds_count. intros x nm H. apply go_ok. exact H.
Qed.
Lemma ex_l1_quiet : Forall no_edit ex_l1.
Proof.
  unfold ex_l1. apply Forall_app. split; [apply Forall_app; split; [apply now_no_edit, rounds_no_edit|]|apply now_no_edit, rounds_no_edit]. repeat constructor.
Qed.
Example C111_taken_case : let w := run ex_w ex_l0 in p_paused w = false /\ Forall no_edit ex_l1 /\ count successful 2 w ex_l1 /\ ~ taken_up w.
Proof.
  split; [vm_compute; reflexivity|]. split; [exact ex_l1_quiet|]. split; [exact ex_l1_two|].
  intros (_ & _ & (t & Ht & E) & _). revert Ht E. vm_compute. intros [<-|[<-|[]]]; discriminate.
Qed.

(** C111_no_step_back: from then on a reconcile never makes more of what is left to do, as long as the cache shows
    no set that requests machines and remembers another size than the wanted one. *)
Theorem C111_no_step_back : forall w l, proper w -> taken_up w -> always possible w l -> Forall no_edit l -> always sees_size w l ->
  todo (run w l) <= todo w.
Proof.
  intros w l P T A N S. pose proof (helped_todo l 0 w P T A N S ltac:(destruct l; exact I)) as H. pose proof (proj2 (todo_zero w P (taken_new w T))). lia.
Qed.
Print Assumptions C111_no_step_back.

(** C111_ends: and then as many helpful reconciles as machines are to be moved - reconciles that see what is stored,
    succeed, and find the sets complete and the template's available - bring the deployment where the change
    wants it, whatever else fails and however much the cache lags in between. *)
Theorem C111_ends : forall w l k, proper w -> taken_up w -> always possible w l -> Forall no_edit l -> always sees_size w l -> count helpful k w l ->
  todo w <= Z.of_nat k -> fulfilled (run w l) /\ wish (run w l) = wish w.
Proof.
  intros w l k P T A N S C L. destruct (taken_run l w P T A N) as (T' & W). split; [|exact W].
  pose proof (run_may l w P A) as P'. pose proof (todo_zero _ P' (taken_new _ T')) as (Z1 & Z2). apply Z1.
  pose proof (helped_todo l k w P T A N S C). lia.
Qed.
Print Assumptions C111_ends.

(** C111_caught_up: a cache that shows nothing older than what was stored when the change had been taken up shows
    the wanted size. *)
Theorem C111_caught_up : forall w l, proper w -> taken_up w -> always possible w l -> Forall no_edit l -> lived caught_up (p_sets w) w l -> always sees_size w l.
Proof. intros w l P T A N C. exact (caught_sees l _ w P T A N (taken_telling w T) C). Qed.
Print Assumptions C111_caught_up.

Lemma ex_caught : lived caught_up (p_sets w_taken) w_taken ex_l2.
Proof. apply (livedb_ok caughtb caught_up caughtb_ok). vm_compute. reflexivity. Qed.
Lemma ex_l2_quiet : Forall no_edit ex_l2.
Proof.
  unfold ex_l2, ex_l2a, ex_l2b. apply Forall_app. split; [apply Forall_app; split; [apply now_no_edit, rounds_no_edit|]|apply now_no_edit, rounds_no_edit]. repeat constructor.
Qed.
Lemma ex_l2_many : exists k, (6 <= k)%nat /\ count helpful k w_taken ex_l2.
Proof.
  exists (good_rounds completeb ["f"; "f"; "f"]%string w_taken + 0 + good_rounds completeb ["f"; "f"; "f"; "f"; "f"]%string (run w_taken ex_l2a))%nat. split; [vm_compute; lia|].
  unfold ex_l2. apply count_app.
  - unfold ex_l2a. apply count_app; [|exact I]. apply now_count. apply rounds_count. intros x nm H. apply go_helps. exact H.
  - unfold ex_l2b. apply now_count. apply rounds_count. intros x nm H. apply go_helps. exact H.
Qed.
Lemma w_taken_eq : w_taken = run (run ex_w ex_l0) ex_l1.
Proof. unfold w_taken. exact (run_app ex_l0 ex_l1 ex_w). Qed.
Lemma ex_taken : proper w_taken /\ taken_up w_taken /\ always possible w_taken ex_l2.
Proof.
  destruct (C111_defined_partial ex_w _ ex_fresh ex_modest) as (Po & _). apply always_app in Po. destruct Po as (Po0 & Po). apply always_app in Po. destruct Po as (Po1 & Po2).
  destruct (fresh_ok ex_w ex_fresh) as (P & _). pose proof (run_may _ _ P Po0) as P0. rewrite w_taken_eq.
  split; [exact (run_may _ _ P0 Po1)|]. split; [|exact Po2]. refine (proj1 (C111_taken _ _ P0 _ Po1 ex_l1_quiet ex_l1_two)). vm_compute. reflexivity.
Qed.
Example C111_no_step_back_case : proper w_taken /\ taken_up w_taken /\ always possible w_taken ex_l2 /\ Forall no_edit ex_l2 /\ always sees_size w_taken ex_l2 /\ todo w_taken = 6.
Proof.
  destruct ex_taken as (P & T & A). split; [exact P|]. split; [exact T|]. split; [exact A|]. split; [exact ex_l2_quiet|].
  split; [exact (C111_caught_up _ _ P T A ex_l2_quiet ex_caught)|vm_compute; reflexivity].
Qed.
Example C111_caught_up_case : taken_up w_taken /\ lived caught_up (p_sets w_taken) w_taken ex_l2 /\ exists v late a, In (Behind v late a) ex_l2 /\ v = p_sets w_taken.
Proof.
  destruct ex_taken as (_ & T & _). split; [exact T|]. split; [exact ex_caught|]. exists (p_sets w_taken), None, (calls "f"). split; [|reflexivity].
  unfold ex_l2, ex_l2a. apply in_or_app. left. apply in_or_app. right. left. reflexivity.
Qed.
Example C111_ends_case : taken_up w_taken /\ Forall no_edit ex_l2 /\ (exists k, (6 <= k)%nat /\ count helpful k w_taken ex_l2) /\ todo w_taken = 6 /\ ~ fulfilled w_taken.
Proof.
  destruct ex_taken as (_ & T & _). split; [exact T|]. split; [exact ex_l2_quiet|]. split; [exact ex_l2_many|]. split; [vm_compute; reflexivity|].
  intros (_ & F). vm_compute in F. inversion F as [|? ? (A & _) _]; subst. specialize (A eq_refl). discriminate.
Qed.

(** C111_last_change_partial: a deployment is made; whatever the user does to it, whatever fails and however the cache
    lags, once they leave it alone and not paused, two successful reconciles that see what is stored and, while
    the cache shows nothing older than that, as many helpful ones as machines are to be moved bring it where the
    last change wants it. Missing: a wanted size of zero in between (C110_undefined_share_refuted). *)
Theorem C111_last_change_partial : forall w l0 l1 l2 k, fresh w -> lived modest [] w (l0 ++ l1 ++ l2) -> p_paused (run w l0) = false ->
  Forall no_edit (l1 ++ l2) -> count successful 2 (run w l0) l1 ->
  let w1 := run w (l0 ++ l1) in lived caught_up (p_sets w1) w1 l2 -> count helpful k w1 l2 -> todo w1 <= Z.of_nat k ->
  let w' := run w (l0 ++ l1 ++ l2) in
  fulfilled w' /\ p_size w' = p_size (run w l0) /\ (p_back (run w l0) = None -> p_tmpl w' = p_tmpl (run w l0)).
Proof.
  intros w l0 l1 l2 k F A U N C1 w1 Cu C2 L w'. destruct (C111_defined_partial w _ F A) as (Po & _). apply always_app in Po. destruct Po as (Po0 & Po1).
  apply always_app in Po1. destruct Po1 as (Po1 & Po2). apply Forall_app in N. destruct N as (N1 & N2).
  destruct (fresh_ok w F) as (P & _). pose proof (run_may l0 w P Po0) as P0. pose proof (run_may l1 _ P0 Po1) as P1.
  destruct (C111_taken _ l1 P0 U Po1 N1 C1) as (T & Sz & _ & _ & W). unfold w1 in *. rewrite run_app in Cu, C2, L.
  destruct (C111_ends _ l2 k P1 T Po2 N2 (C111_caught_up _ l2 P1 T Po2 N2 Cu) C2 L) as (E1 & E2). unfold w'. rewrite !run_app. split; [exact E1|]. unfold wish in *. split.
  - transitivity (p_size (run (run w l0) l1)); [congruence|exact Sz].
  - intro B. specialize (W B). congruence.
Qed.
Print Assumptions C111_last_change_partial.

Example C111_last_change_partial_case : fresh ex_w /\ lived modest [] ex_w (ex_l0 ++ ex_l1 ++ ex_l2) /\ p_paused (run ex_w ex_l0) = false /\
  Forall no_edit (ex_l1 ++ ex_l2) /\ count successful 2 (run ex_w ex_l0) ex_l1 /\ lived caught_up (p_sets w_taken) w_taken ex_l2 /\
  (exists k, (6 <= k)%nat /\ count helpful k w_taken ex_l2) /\ todo w_taken = 6 /\
  map (fun t => (name t, t_tmpl t, spec t)) (p_sets (run ex_w (ex_l0 ++ ex_l1 ++ ex_l2))) = [("d", 3, 3); ("c", 2, 0); ("a", 1, 0)]%string.
Proof.
  split; [exact ex_fresh|]. split; [exact ex_modest|]. split; [vm_compute; reflexivity|]. split; [apply Forall_app; split; [exact ex_l1_quiet|exact ex_l2_quiet]|].
  split; [exact ex_l1_two|]. split; [exact ex_caught|]. split; [exact ex_l2_many|]. split; vm_compute; reflexivity.
Qed.

(** C111_forward_partial: where the cache never goes back, as that of one process does not, a third reconcile that sees what is
    stored takes the place of the condition on the cache. *)
Theorem C111_forward_partial : forall w l0 l1 a l2 k, fresh w -> let l := l0 ++ l1 ++ Now (Do a) :: l2 in
  lived modest [] w l -> forward [] w l -> p_paused (run w l0) = false ->
  Forall no_edit (l1 ++ l2) -> count successful 2 (run w l0) l1 ->
  let w1 := run w (l0 ++ l1) in count helpful k w1 (Now (Do a) :: l2) -> todo w1 <= Z.of_nat k ->
  fulfilled (run w l) /\ p_size (run w l) = p_size (run w l0) /\ (p_back (run w l0) = None -> p_tmpl (run w l) = p_tmpl (run w l0)).
Proof.
  intros w l0 l1 a l2 k F l A Fw U N C1 w1 C2 L. refine (C111_last_change_partial w l0 l1 (Now (Do a) :: l2) k F A U _ C1 _ C2 L).
  - apply Forall_app in N. destruct N as (N1 & N2). apply Forall_app. split; [exact N1|]. constructor; [exact I|exact N2].
  - unfold l in Fw. rewrite app_assoc in Fw. destruct (forward_after _ _ _ _ Fw) as (seen & G). fold w1 in G. destruct G as (_ & G). split; [exact I|].
    refine (forward_caught _ _ _ _ _ _ G); [|apply incl_appl, incl_refl]. apply incl_app; [apply incl_appl, incl_refl|apply incl_appr, incl_refl].
Qed.
Print Assumptions C111_forward_partial.

(* A history in which the cache lags, and moves on only: two machines of template 1; the change to template 2 is
   reconciled twice more on the cache from before. *)
Definition fw_l0 : list Op := now (rounds ["a"; "b"]%string ex_w ++ [Change_ (SetTemplate 2)]).
Definition fw_w0 : Dep := run ex_w fw_l0.
Definition fw_l1a : list Op :=
  [Now (go "c"); Behind (p_sets fw_w0) None (calls "c"); Behind (p_sets fw_w0) (hd_error (p_sets (step fw_w0 (Now (go "c"))))) (calls "c")].
Definition fw_l1b : list Op := now (rounds ["d"]%string (run fw_w0 fw_l1a)).
Definition fw_w1 : Dep := run (run fw_w0 fw_l1a) fw_l1b.
Definition fw_l2a : list Op := tl (now (rounds ["f"]%string fw_w1)).
Definition fw_w2 : Dep := run fw_w1 (now (rounds ["f"]%string fw_w1)).
Definition fw_l2 : list Op := fw_l2a ++ [Behind (p_sets fw_w1) None (calls "f")] ++ now (rounds ["f"; "f"; "f"; "f"]%string fw_w2).
Definition fw_l : list Op := fw_l0 ++ (fw_l1a ++ fw_l1b) ++ Now (go "f") :: fw_l2.
Lemma fw_tl : Now (go "f") :: fw_l2a = now (rounds ["f"]%string fw_w1).
Proof. reflexivity. Qed.
Lemma fw_w2_eq : run fw_w1 (now (rounds ["f"]%string fw_w1)) = fw_w2.
Proof. unfold fw_w2. reflexivity. Qed.
Lemma fw_count : count helpful (good_rounds completeb ["f"]%string fw_w1 + (0 + good_rounds completeb ["f"; "f"; "f"; "f"]%string fw_w2)) fw_w1 (Now (go "f") :: fw_l2).
Proof.
  unfold fw_l2. rewrite app_comm_cons, fw_tl. apply count_app.
  - apply now_count. apply rounds_count. intros x nm H. apply go_helps. exact H.
  - rewrite fw_w2_eq. apply count_app; [exact I|]. assert (run fw_w2 [Behind (p_sets fw_w1) None (calls "f")] = fw_w2) as E by (vm_compute; reflexivity). rewrite E.
    apply now_count. apply rounds_count. intros x nm H. apply go_helps. exact H.
Qed.
Lemma fw_two : count successful 2 fw_w0 (fw_l1a ++ fw_l1b).
Proof.
  apply (count_app successful fw_l1a fw_l1b 1 1).
  - left. split; [|exact I]. apply go_ok. vm_compute. reflexivity.
  - unfold fw_l1b. apply now_count. assert (1%nat = good_rounds (fun _ => true) ["d"]%string (run fw_w0 fw_l1a)) as E by (vm_compute; reflexivity). rewrite E.
    apply rounds_count. intros x nm H. apply go_ok. exact H.
Qed.
Example C111_forward_partial_case : lived modest [] ex_w fw_l /\ forward [] ex_w fw_l /\ p_paused fw_w0 = false /\
  count successful 2 fw_w0 (fw_l1a ++ fw_l1b) /\ (exists k, (2 <= k)%nat /\ count helpful k fw_w1 (Now (go "f") :: fw_l2)) /\ todo fw_w1 = 2 /\
  (step fw_w1 (Behind (p_sets fw_w0) None (calls "f")) <> step fw_w1 (Now (go "f"))).
Proof.
  split; [apply (livedb_ok lmodestb modest lmodestb_ok); vm_compute; reflexivity|]. split; [apply forwardb_ok; vm_compute; reflexivity|]. split; [vm_compute; reflexivity|].
  split; [exact fw_two|]. split; [eexists; split; [|exact fw_count]; vm_compute; lia|]. split; [vm_compute; reflexivity|]. vm_compute. discriminate.
Qed.

(** C111_stays: what is as wanted stays so, whatever fails and however the cache lags, while the cache shows the
    wanted size. *)
Theorem C111_stays : forall w l, proper w -> taken_up w -> fulfilled w -> always possible w l -> Forall no_edit l -> always sees_size w l ->
  fulfilled (run w l) /\ wish (run w l) = wish w.
Proof.
  intros w l P T F A N S. apply (C111_ends w l 0%nat P T A N S); [destruct l; exact I|]. pose proof (todo_zero w P (taken_new w T)) as (Z1 & _). apply Z1 in F. lia.
Qed.
Print Assumptions C111_stays.

Example C111_stays_case : let w := run ex_w fw_l in fulfilled w /\ taken_up w.
Proof.
  split.
  - split; [eexists; split; [vm_compute; left; reflexivity|vm_compute; reflexivity]|]. vm_compute. repeat constructor; intro; congruence.
  - split; [vm_compute; reflexivity|]. split; [vm_compute; reflexivity|]. split; [eexists; split; [vm_compute; left; reflexivity|vm_compute; reflexivity]|].
    vm_compute. repeat constructor; intros; congruence.
Qed.

(** C111_back_refuted: after a restart on a cache from before - one moment of the past, all sets as they were then - a deployment that
    was as wanted loses machines of its template. The sets a and b shared the deployment when it was scaled
    down from 8 to 6; the update of a failed and was made up for later; then the user lowered the surge, and a
    was emptied. A cache from before the second update shows a with 3 machines of a deployment of 8; b is
    taken to be too large by its share of them, and as b itself did not change since, its update is accepted
    (deployment_sync.go 441-477). *)
Definition at_ (nm : string) (t : Z) (k : nat) : WishModel.Op := Do (mkCalls all_ok true nm t true k).
Definition up (nm : string) : WishModel.Op := Happens nm CReady.
Definition back_w : Dep := mkDep 1 8 (Some (IOSInt 2)) (Some (IOSInt 0)) false None [].
Definition back_l0 : list WishModel.Op :=
  [at_ "a" 1 99; Happens "a" (CWork 9); up "a"; up "a"; up "a"; up "a"; up "a"; up "a"; up "a"; up "a"; Happens "a" (CReport 8 8);
   Change_ (SetTemplate 2); at_ "b" 9 99; Happens "b" (CWork 9); up "b"; up "b"; up "b"; up "b"; Happens "b" (CReport 4 4);
   at_ "c" 9 99; Happens "a" (CWork 9); Happens "a" (CReport 4 4); at_ "c" 9 99; Happens "b" (CWork 9); up "b"; Happens "b" (CReport 6 5);
   at_ "c" 9 99; Happens "a" (CWork 9); Happens "a" (CReport 3 3); at_ "c" 9 99;
   Change_ (SetSize 6); at_ "c" 9 1].
Definition back_l1 : list WishModel.Op :=
  [at_ "c" 9 99; Happens "a" (CWork 9); Happens "a" (CReport 2 2); Change_ (SetBudget (Some (IOSInt 0)) (Some (IOSInt 1))); at_ "c" 9 99; at_ "c" 9 99].
Definition back_view : list TSet := p_sets (WishModel.run back_w back_l0).
Definition back_end : Dep := run back_w (now (back_l0 ++ back_l1)).
Definition ask (w : Dep) : list (string * Z * Z) := map (fun t => (name t, t_tmpl t, spec t)) (p_sets w).
Theorem C111_back_refuted : fresh back_w /\ taken_up back_end /\ fulfilled back_end /\ p_size back_end = 6 /\
  ask (WishModel.run back_w back_l0) = [("b", 2, 6); ("a", 1, 3)]%string /\ ask back_end = [("b", 2, 6); ("a", 1, 0)]%string /\
  let w := step back_end (Behind back_view None (calls "c")) in ask w = [("b", 2, 4); ("a", 1, 0)]%string /\ ~ fulfilled w.
Proof.
  split; [split; [reflexivity|cbn; lia]|].
  assert (p_paused back_end = false /\ p_back back_end = None /\ p_size back_end = 6 /\ p_tmpl back_end = 2) as (E1 & E2 & E3 & E4) by (vm_compute; auto).
  split; [|split].
  - split; [exact E1|]. split; [exact E2|]. split; [eexists; split; [vm_compute; left; reflexivity|vm_compute; reflexivity]|]. vm_compute. repeat constructor; intros; congruence.
  - split; [eexists; split; [vm_compute; left; reflexivity|vm_compute; reflexivity]|]. vm_compute. repeat constructor; intro; congruence.
  - split; [exact E3|]. split; [vm_compute; reflexivity|]. split; [vm_compute; reflexivity|]. cbv zeta. split; [vm_compute; reflexivity|].
    intros (_ & F). vm_compute in F. inversion F as [|? ? (A & _) _]; subst. specialize (A eq_refl). discriminate.
Qed.
Print Assumptions C111_back_refuted.

(* Its hypotheses are those of C111_last_change_partial, save that the cache has gone back. *)
Example C111_back_refuted_case : lived modest [] back_w (now (back_l0 ++ back_l1) ++ [Behind back_view None (calls "c")]) /\
  ~ sees_size back_end (Behind back_view None (calls "c")).
Proof.
  split.
  - apply (livedb_ok (fun past w o => match o with Now (Change_ (SetBudget (Some (IOSInt s)) (Some (IOSInt u)))) => (0 <=? s) && (0 <=? u) | _ => lmodestb past w o end) modest).
    + intros past w o H. destruct o as [v late a|[a|[t|n|[[s| |]|] [[u| |]|]|b|nm]|nm c|nm]]; try (apply lmodestb_ok; exact H). cbn [modest WishSpec.modest]. cbn [good_budget]. lia.
    + vm_compute. reflexivity.
  - intro S. cbn [sees_size views] in S.
    assert (In (nth 1 back_view (mkT 0 (mkX (mkMS "" 0 false 0 0 0 0 0 0 AnnMissing AnnMissing) 0 0))) back_view) as I1 by (apply nth_In; vm_compute; lia).
    assert (p_size back_end = 6) as E by (vm_compute; reflexivity). specialize (S _ 8 I1 ltac:(vm_compute; reflexivity) ltac:(vm_compute; reflexivity)). rewrite E in S. discriminate S.
Qed.
