(** Proofs for C107. *)
Require Import Coq.ZArith.ZArith Coq.Lists.List Coq.Strings.String Coq.Bool.Bool Coq.Arith.PeanoNat Coq.micromega.Lia Coq.micromega.ZifyBool.
From Verif Require Import MachModel HealthModel HealthSpec HealthProofs MSetModel MSetSpec MSetProofs HealModel HealSpec.
Import ListNotations.
Open Scope string_scope.
Open Scope list_scope.
Open Scope Z_scope.

(* What a step does to one machine that is there. *)
Definition upd (c : HConf) (w : HW) (o : HOp) (m : HM) : option HM :=
  match o with
  | HTick _ => Some m
  | HNode i ans => Some (if Nat.eqb (h_id m) i then mkHM (h_id m) (h_marked m) (h_st m) (h_del m) (h_vm m) ans (h_ctime m) else m)
  | HPass i seen permit ok => Some (if Nat.eqb (h_id m) i then pass c (k_now w) seen permit ok m else m)
  | HMade i ph vm => Some (if Nat.eqb (h_id m) i then
      if negb (h_del m) && (String.eqb (h_phase m) "" || String.eqb (h_phase m) "CrashLoopBackOff") &&
         (String.eqb ph "Pending" || String.eqb ph "CrashLoopBackOff" || String.eqb ph "Failed")
      then mkHM (h_id m) (h_marked m) (withPhase (k_now w) ph (h_st m)) (h_del m) (h_vm m || vm) (h_node m) (h_ctime m) else m else m)
  | HSet api view =>
      let p := manageReplicas (k_spec w) (k_frozen w) view in
      Some (match find (fun t => Nat.eqb (m_id t) (h_id m)) (pl_stale p ++ pl_surplus p) with
            | Some t => hTerminate api (k_now w) (m_deleting t) m
            | None => m
            end)
  | HMark i => Some (if Nat.eqb (h_id m) i then mkHM (h_id m) true (h_st m) (h_del m) (h_vm m) (h_node m) (h_ctime m) else m)
  | HTerm i => Some (if Nat.eqb (h_id m) i then if h_del m then setStatus (withPhase (k_now w) "Terminating" (h_st m)) m else m else m)
  | HVm i => Some (if Nat.eqb (h_id m) i then if h_del m then mkHM (h_id m) (h_marked m) (h_st m) (h_del m) false (h_node m) (h_ctime m) else m else m)
  | HGone i => if Nat.eqb (h_id m) i && h_del m && negb (h_vm m) then None else Some m
  end.
Definition made (w : HW) (o : HOp) : nat :=
  match o with HSet api view => snd (fst (slowStartBatch (pl_create (manageReplicas (k_spec w) (k_frozen w) view)) 1 (a_create api))) | _ => O end.
Fixpoint fmap {A B} (f : A -> option B) (l : list A) : list B :=
  match l with [] => [] | a :: r => match f a with Some b => b :: fmap f r | None => fmap f r end end.

Lemma fmap_some : forall {A B} (f : A -> B) l, fmap (fun a => Some (f a)) l = map f l.
Proof. intros A B f l. induction l as [|a l IH]; cbn; [reflexivity|now rewrite IH]. Qed.
Lemma fmap_in : forall {A B} (f : A -> option B) l b, In b (fmap f l) <-> exists a, In a l /\ f a = Some b.
Proof.
  intros A B f l b. induction l as [|a l IH]; cbn.
  - split; [intros []|intros (a & [] & _)].
  - destruct (f a) as [b'|] eqn:E; cbn; rewrite IH; split.
    + intros [<-|(a' & I & F)]; [exists a|exists a']; auto.
    + intros (a' & [<-|I] & F); [left; congruence|right; exists a'; auto].
    + intros (a' & I & F). exists a'. auto.
    + intros (a' & [<-|I] & F); [congruence|exists a'; auto].
Qed.

Lemma step_ms : forall c w o, k_ms (hstep c w o) = fmap (upd c w o) (k_ms w) ++ hCreated (k_now w) (k_next w) (made w o).
Proof.
  intros c w o. destruct o as [d|i a|i s p ok|i ph vm|api v|i|i|i|i]; cbn [hstep made hCreated]; cbv beta iota zeta delta [upd];
    try (cbn [onMach k_ms]; rewrite (fmap_some (B := HM)), app_nil_r; reflexivity).
  - cbn [k_ms]. rewrite fmap_some, map_id, app_nil_r. reflexivity.
  - unfold setPass. destruct (slowStartBatch _ _ _) as ((x, ok), e). cbn [k_ms fst snd]. cbv zeta. rewrite (fmap_some (B := HM)). reflexivity.
  - cbn [k_ms]. rewrite app_nil_r. induction (k_ms w) as [|m l IH]; [reflexivity|]. cbn [filter fmap].
    destruct (Nat.eqb (h_id m) i && h_del m && negb (h_vm m)); cbn [negb]; rewrite IH; reflexivity.
Qed.
Lemma step_now : forall c w o, k_now (hstep c w o) = match o with HTick d => k_now w + Z.of_nat d | _ => k_now w end.
Proof. intros c w o. destruct o; try reflexivity. cbn [hstep]. unfold setPass. destruct (slowStartBatch _ _ _) as ((x, ok), e). reflexivity. Qed.
Lemma step_spec : forall c w o, k_spec (hstep c w o) = k_spec w /\ k_frozen (hstep c w o) = k_frozen w.
Proof. intros c w o. destruct o; try (split; reflexivity). cbn [hstep]. unfold setPass. destruct (slowStartBatch _ _ _) as ((x, ok), e). split; reflexivity. Qed.
Lemma step_next : forall c w o, k_next (hstep c w o) = (k_next w + made w o)%nat.
Proof. intros c w o. destruct o; try (cbn; lia). cbn [hstep made]. unfold setPass. destruct (slowStartBatch _ _ _) as ((x, ok), e). reflexivity. Qed.

Lemma created_h : forall now n from m, In m (hCreated now from n) ->
  (from <= h_id m < from + n)%nat /\ h_marked m = false /\ h_st m = noStatus /\ h_del m = false /\ h_vm m = false /\ h_node m = NodeMissing.
Proof.
  intros now n. induction n as [|n IH]; intros from m; cbn; [intros []|]. intros [<-|I]; [cbn; repeat split; lia|].
  destruct (IH _ _ I) as (A & B). split; [lia|exact B].
Qed.
Lemma created_nodup : forall now n from, NoDup (map h_id (hCreated now from n)).
Proof.
  intros now n. induction n as [|n IH]; intros from; cbn; constructor; [|apply IH].
  intros I. apply in_map_iff in I. destruct I as (m & E & I). apply created_h in I. lia.
Qed.
Lemma created_len : forall now n from, List.length (hCreated now from n) = n.
Proof. intros now n. induction n as [|n IH]; intros from; cbn; [reflexivity|now rewrite IH]. Qed.

Lemma pass_id : forall c now s p ok m, h_id (pass c now s p ok m) = h_id m /\ h_marked (pass c now s p ok m) = h_marked m /\
  h_del (pass c now s p ok m) = h_del m /\ h_vm (pass c now s p ok m) = h_vm m /\ h_node (pass c now s p ok m) = h_node m.
Proof.
  intros c now s p ok m. unfold pass. destruct (h_del m || _); [repeat split|].
  destruct (reconcileMachineHealth _ _ _ _ _ _ _) as [| st | d st | |]; repeat split;
    try (destruct ok; reflexivity); destruct (p && canMark s && ok); reflexivity.
Qed.
Lemma term_id : forall api now sd m, h_id (hTerminate api now sd m) = h_id m /\ h_marked (hTerminate api now sd m) = h_marked m /\
  h_vm (hTerminate api now sd m) = h_vm m /\ h_node (hTerminate api now sd m) = h_node m /\ ms_conds (h_st (hTerminate api now sd m)) = ms_conds (h_st m) /\
  (h_del m = true -> h_del (hTerminate api now sd m) = true).
Proof. intros api now sd m. unfold hTerminate. destruct sd; repeat split; auto; cbn; [destruct (a_status _ _); reflexivity|]. intros ->. reflexivity. Qed.
Lemma upd_id : forall c w o m m', upd c w o m = Some m' -> h_id m' = h_id m.
Proof.
  intros c w o m m' H. destruct o as [d|i a|i s p ok|i ph vm|api v|i|i|i|i]; cbn in H; try (injection H as <-); try reflexivity;
    try (destruct (Nat.eqb (h_id m) i); try reflexivity).
  - apply pass_id.
  - destruct (negb _ && _ && _); reflexivity.
  - destruct (find _ _); [apply term_id|reflexivity].
  - destruct (h_del m); reflexivity.
  - destruct (h_del m); reflexivity.
  - destruct (h_del m && negb (h_vm m)) eqn:E; cbn in H; [|]; destruct (h_del m), (h_vm m); cbn in H; try discriminate; now injection H as <-.
  - cbn in H. now injection H as <-.
Qed.

(* ---- well-formed worlds ---- *)
Definition good (m : HM) : Prop := proper (h_node m) /\ NoDup (map nc_type (ms_conds (h_st m))) /\ (h_phase m = "Running" -> ms_conds (h_st m) <> []).
Definition base (w : HW) : Prop := NoDup (map h_id (k_ms w)) /\ Forall (fun m => (h_id m < k_next w)%nat) (k_ms w) /\ Forall good (k_ms w).

Lemma fmap_ids : forall (f : HM -> option HM) l, (forall m m', f m = Some m' -> h_id m' = h_id m) -> NoDup (map h_id l) -> NoDup (map h_id (fmap f l)).
Proof.
  intros f l F. induction l as [|m l IH]; cbn; intros N; [constructor|]. inversion N as [|? ? N1 N2]. subst.
  destruct (f m) as [m'|] eqn:E; [|now apply IH]. cbn. constructor; [|now apply IH]. rewrite (F _ _ E). intros I. apply N1.
  apply in_map_iff in I. destruct I as (b & Eb & I). apply fmap_in in I. destruct I as (a & Ia & Fa). apply F in Fa. apply in_map_iff. exists a. split; [congruence|exact Ia].
Qed.
Lemma nodup_app : forall (a b : list nat), NoDup a -> NoDup b -> (forall x, In x a -> In x b -> False) -> NoDup (a ++ b).
Proof.
  intros a b A B D. induction A as [|x l N A IH]; cbn; [exact B|]. constructor; [|apply IH; intros y Y1 Y2; apply (D y); [now right|exact Y2]].
  intros I. apply in_app_iff in I. destruct I as [I|I]; [contradiction|]. apply (D x); [now left|exact I].
Qed.

(* The conditions of a status written by the health check. *)
Lemma written_conds : forall c now m s,
  (reconcileMachineHealth (c_show c) (c_creation c) (c_health c) (c_bad c) now (h_node m) (asObj m) = HWrite s \/
   exists d, reconcileMachineHealth (c_show c) (c_creation c) (c_health c) (c_bad c) now (h_node m) (asObj m) = HTryFail d s) ->
  ms_conds s = ms_conds (h_st m) \/ exists conds cr, h_node m = NodeIs conds cr /\ ms_conds s = conds.
Proof.
  intros c now m s H. unfold reconcileMachineHealth in H.
  change (mo_status (asObj m)) with (h_st m) in H. cbv beta zeta in H. destruct (h_node m) as [| |conds cr].
  - destruct H as [H|(d & H)]; discriminate.
  - left. repeat match type of H with context [if ?b then _ else _] => destruct b end; destruct H as [H|(d & H)]; try discriminate; injection H; intros; subst; reflexivity.
  - destruct (nodeConditionsHaveChanged (ms_conds (h_st m)) conds); [right; exists conds, cr; split; [reflexivity|]|left];
      repeat match type of H with context [if ?b then _ else _] => destruct b end; destruct H as [H|(d & H)]; try discriminate; injection H; intros; subst; reflexivity.
Qed.

Lemma pass_good : forall c now s p ok m, good m -> good (pass c now s p ok m).
Proof.
  intros c now s p ok m (G1 & G2 & G3). destruct (pass_id c now s p ok m) as (_ & _ & _ & _ & N). unfold good. rewrite N. split; [exact G1|]. clear N.
  unfold pass. destruct (h_del m || _); [split; assumption|].
  destruct (reconcileMachineHealth _ _ _ _ _ _ _) as [| st | d st | |] eqn:E; try (split; assumption).
  - destruct ok; [|split; assumption].
    assert (C : NoDup (map nc_type (ms_conds st))).
    { destruct (written_conds c now m st (or_introl E)) as [->|(conds & cr & Hn & ->)]; [exact G2|]. rewrite Hn in G1. exact G1. }
    split; [exact C|]. cbn [setStatus h_phase h_st]. unfold h_phase. cbn [h_st setStatus]. intros P.
    destruct (phases _ _ _ _ _ _ _ _ E) as [Q|[(_ & _ & (Q & _) & _)|[(Q & _)|(Q & _)]]]; unfold phase_of in *; try congruence; try exact Q.
    assert (RM : h_phase m = "Running") by (unfold h_phase; unfold phase in Q; cbn in Q; congruence).
    destruct (written_conds c now m st (or_introl E)) as [->|(conds & cr & Hn & HC)]; [now apply G3|].
    rewrite HC. intros Z. subst conds. unfold reconcileMachineHealth in E. rewrite Hn in E. change (mo_status (asObj m)) with (h_st m) in E. cbv beta zeta in E. rewrite Z in E.
    change (phase (asObj m)) with (h_phase m) in E. rewrite RM in E.
    destruct (ms_conds (h_st m)) as [|c0 cs] eqn:Cs; [now apply G3|]. cbn in E.
    injection E as <-. cbn in Q. unfold phase, asObj in Q. cbn in Q. unfold h_phase in RM. congruence.
  - destruct (p && canMark s && ok); [|split; assumption]. split.
    + cbn. destruct (written_conds c now m st (or_intror (ex_intro _ d E))) as [->|(conds & cr & Hn & ->)]; [exact G2|]. rewrite Hn in G1. exact G1.
    + intros P. discriminate.
Qed.
Lemma upd_good : forall c w o m m', proper_op o -> good m -> upd c w o m = Some m' -> good m'.
Proof.
  intros c w o m m' P (G1 & G2 & G3) H. destruct o as [d|i a|i s p ok|i ph vm|api v|i|i|i|i]; cbn in H; try (injection H as <-);
    try (destruct (Nat.eqb (h_id m) i); [|repeat split; assumption]).
  - repeat split; assumption.
  - split; [exact P|]. split; assumption.
  - apply pass_good. repeat split; assumption.
  - destruct (negb (h_del m) && _ && _) eqn:E; [|repeat split; assumption]. repeat split; [exact G1|exact G2|]. unfold h_phase. cbn. intros ->.
    rewrite andb_comm in E. discriminate.
  - destruct (find _ _) as [t|]; [|repeat split; assumption]. destruct (term_id api (k_now w) (m_deleting t) m) as (_ & _ & _ & N & C & _).
    unfold good. rewrite N, C. repeat split; [exact G1|exact G2|]. unfold h_phase, hTerminate. destruct (m_deleting t); [exact G3|]. cbn. destruct (a_status api (h_id m)); [discriminate|exact G3].
  - repeat split; assumption.
  - destruct (h_del m); [|repeat split; assumption]. repeat split; [exact G1|exact G2|discriminate].
  - destruct (h_del m); repeat split; assumption.
  - destruct (Nat.eqb (h_id m) i && h_del m && negb (h_vm m)); [discriminate|injection H as <-; repeat split; assumption].
Qed.
Lemma base_step : forall c w o, proper_op o -> base w -> base (hstep c w o).
Proof.
  intros c w o P (N & L & G). unfold base. rewrite step_ms, step_next. rewrite Forall_forall in L, G.
  assert (U := fun m m' => upd_id c w o m m'). split; [|split].
  - rewrite map_app. apply nodup_app; [now apply fmap_ids|apply created_nodup|]. intros x A B.
    apply in_map_iff in A, B. destruct A as (a & Ea & A), B as (b & Eb & B). apply fmap_in in A. destruct A as (m & I & Hm). apply U in Hm.
    specialize (L _ I). apply created_h in B. cbv beta in L. lia.
  - apply Forall_forall. intros m I. apply in_app_iff in I. destruct I as [I|I].
    + apply fmap_in in I. destruct I as (a & I & Ha). apply U in Ha. specialize (L _ I). cbv beta in L. lia.
    + apply created_h in I. lia.
  - apply Forall_forall. intros m I. apply in_app_iff in I. destruct I as [I|I].
    + apply fmap_in in I. destruct I as (a & I & Ha). apply (upd_good c w o a m P (G _ I) Ha).
    + apply created_h in I. destruct I as (_ & _ & S & _ & _ & Nd). unfold good, h_phase. rewrite S, Nd. repeat split; [constructor|discriminate].
Qed.
Lemma base_run : forall c l w, Forall proper_op l -> base w -> base (hrun c w l).
Proof. intros c l. induction l as [|o l IH]; intros w P B; [exact B|]. inversion P; subst. cbn. apply IH; [assumption|now apply base_step]. Qed.
Lemma beginning_base : forall w, beginning w -> base w.
Proof.
  intros w (N & F). rewrite Forall_forall in F. split; [exact N|]. split; apply Forall_forall; intros m I; destruct (F _ I) as (A & B & C & D & E); [exact A|].
  repeat split; [exact C|exact D|]. destruct E as [E|(E & X)]; [congruence|auto].
Qed.

(* ---- the health check on these machines ---- *)
Lemma broken_conds : forall c now m s, good m ->
  (reconcileMachineHealth (c_show c) (c_creation c) (c_health c) (c_bad c) now (h_node m) (asObj m) = HWrite s \/
   exists d, reconcileMachineHealth (c_show c) (c_creation c) (c_health c) (c_bad c) now (h_node m) (asObj m) = HTryFail d s) ->
  forall conds cr, h_node m = NodeIs conds cr -> (no_problem (c_bad c) (ms_conds s) <-> no_problem (c_bad c) conds).
Proof.
  intros c now m s (G1 & G2 & _) H conds cr Hn. rewrite Hn in G1. cbn in G1.
  assert (R := recorded (c_show c) (c_creation c) (c_health c) (c_bad c) now conds cr (asObj m) G2 G1). rewrite Hn in H.
  assert (A : agrees (ms_conds s) conds) by (destruct H as [H|(d & H)]; rewrite H in R; exact R).
  split; apply agrees_no_problem; [now apply agrees_sym|exact A].
Qed.
Lemma pass_cases : forall c now seen permit ok m, good m -> h_del m = false -> let m' := pass c now seen permit ok m in
  h_st m' = h_st m \/
  (ok = true /\ h_phase m <> "" /\
   ((h_phase m' = h_phase m /\ ms_cur (h_st m') = ms_cur (h_st m)) \/
    (h_phase m' = "Running" /\ sound c (h_node m)) \/
    (h_phase m' = "Unknown" /\ h_phase m = "Running" /\ broken c (h_node m) /\ cs_time (ms_cur (h_st m')) = now) \/
    (h_phase m' = "Failed" /\ h_phase m = "Pending" /\ cs_time (ms_cur (h_st m)) + c_creation c < now) \/
    (h_phase m' = "Failed" /\ h_phase m = "Unknown" /\ cs_time (ms_cur (h_st m)) + c_health c < now /\ broken c (h_node m) /\ permit = true /\
     forall p, In p seen -> p = "Unknown" \/ p = "Running"))).
Proof.
  intros c now seen permit ok m G D m'. unfold m', pass. rewrite D. cbn [orb].
  destruct (String.eqb (h_phase m) "") eqn:E0; [now left|]. apply String.eqb_neq in E0.
  destruct (reconcileMachineHealth _ _ _ _ _ _ _) as [| st | d st | |] eqn:E; try now left.
  - destruct ok; [right|now left]. split; [reflexivity|]. split; [exact E0|].
    assert (B := broken_conds c now m st G (or_introl E)). destruct (said _ _ _ _ _ _ _ _ E) as (_ & S1 & S2 & _).
    destruct (phases _ _ _ _ _ _ _ _ E) as [Q|[(Q & _ & Q1 & conds & cr & Q2 & _)|[(Q & Q1 & Q2)|(Q & Q1 & Q2)]]].
    + left. destruct (S1 Q) as (_ & S). split; [exact Q|exact S].
    + right. left. split; [exact Q|]. rewrite Q2. apply (B conds cr Q2). exact Q1.
    + right. right. left. split; [exact Q|]. split; [exact Q1|]. split.
      * destruct Q2 as [Q2|(conds & cr & Q2 & Q3)]; rewrite Q2; [exact I|]. cbn. rewrite <- (B conds cr Q2). exact Q3.
      * assert (NE : phase_of st <> phase (asObj m)) by (rewrite Q, Q1; discriminate). apply (S2 NE).
    + right. right. right. left. split; [exact Q|]. split; [exact Q1|exact Q2].
  - destruct (permit && canMark seen && ok) eqn:K; [right|now left]. apply andb_true_iff in K. destruct K as (K & K3). apply andb_true_iff in K. destruct K as (K1 & K2).
    split; [exact K3|]. split; [exact E0|]. right. right. right. right. destruct (try_fail _ _ _ _ _ _ _ _ _ E) as (Q & Q1 & Q2).
    assert (B := broken_conds c now m st G (or_intror (ex_intro _ d E))).
    split; [reflexivity|]. split; [exact Q|]. split; [exact Q1|]. split.
    + destruct Q2 as [Q2|(conds & cr & Q2 & Q3)]; rewrite Q2; [exact I|]. cbn. rewrite <- (B conds cr Q2). exact Q3.
    + split; [exact K1|]. intros p Hp. unfold canMark in K2. rewrite forallb_forall in K2. specialize (K2 _ Hp). apply orb_true_iff in K2.
      destruct K2 as [K2|K2]; apply String.eqb_eq in K2; auto.
Qed.
Lemma pass_sound : forall c now seen permit m, good m -> h_del m = false -> h_phase m <> "" -> h_phase m <> "Running" -> h_phase m <> "Pending" ->
  sound c (h_node m) -> h_phase (pass c now seen permit true m) = "Running".
Proof.
  intros c now seen permit m (G1 & G2 & _) D E0 E1 E2 S. unfold pass. rewrite D. cbn [orb]. apply String.eqb_neq in E0. rewrite E0.
  destruct (h_node m) as [| |conds cr]; try contradiction. cbn in S, G1.
  destruct (must_run (c_show c) (c_creation c) (c_health c) (c_bad c) now conds cr (asObj m) G2 G1 S E1) as (s & H & P); [intros X; exfalso; exact (E2 X)|].
  rewrite H. exact P.
Qed.

(* ---- how long a machine has been broken ---- *)
Definition no_sound_pass (c : HConf) (w0 : HW) (i : nat) (pre l : list HOp) : Prop :=
  forall a s p b, l = a ++ HPass i s p true :: b -> ~ has (hrun c w0 (pre ++ a)) i (fun m => sound c (h_node m)).
Definition broken_since (c : HConf) (w0 : HW) (i : nat) (t : Z) (ops : list HOp) : Prop :=
  exists ops0 s p opsm, ops = ops0 ++ HPass i s p true :: opsm /\ has (hrun c w0 ops0) i (fun m => broken c (h_node m)) /\
    k_now (hrun c w0 ops0) = t /\ no_sound_pass c w0 i (ops0 ++ [HPass i s p true]) opsm.
Definition pending_since (c : HConf) (w0 : HW) (i : nat) (t : Z) (ops : list HOp) : Prop :=
  exists ops0 vm opsm, ops = ops0 ++ HMade i "Pending" vm :: opsm /\ k_now (hrun c w0 ops0) = t.
Definition sinceinv (c : HConf) (w0 : HW) (ops : list HOp) : Prop :=
  forall m, In m (k_ms (hrun c w0 ops)) -> h_del m = false ->
    (h_phase m = "Unknown" -> broken_since c w0 (h_id m) (cs_time (ms_cur (h_st m))) ops) /\
    (h_phase m = "Pending" -> pending_since c w0 (h_id m) (cs_time (ms_cur (h_st m))) ops).

Lemma run_snoc : forall c w ops o, hrun c w (ops ++ [o]) = hstep c (hrun c w ops) o.
Proof. intros. unfold hrun. rewrite fold_left_app. reflexivity. Qed.
Lemma unique_id : forall w m m', base w -> In m (k_ms w) -> In m' (k_ms w) -> h_id m = h_id m' -> m = m'.
Proof.
  intros w m m' (N & _). induction (k_ms w) as [|a l IH]; [intros []|]. cbn in N. inversion N as [|? ? N1 N2]. subst. intros [A|A] [B|B] E; subst; try reflexivity.
  - exfalso. apply N1. rewrite E. now apply in_map.
  - exfalso. apply N1. rewrite <- E. now apply in_map.
  - now apply IH.
Qed.
Lemma broken_since_snoc : forall c w0 i t ops o, broken_since c w0 i t ops ->
  ((exists s p, o = HPass i s p true) -> ~ has (hrun c w0 ops) i (fun m => sound c (h_node m))) -> broken_since c w0 i t (ops ++ [o]).
Proof.
  intros c w0 i t ops o (ops0 & s & p & opsm & E & B & T & N) H. exists ops0, s, p, (opsm ++ [o]). split; [rewrite E, <- app_assoc; reflexivity|].
  split; [exact B|]. split; [exact T|]. intros a s' p' b Eb. destruct b as [|x b] using rev_ind.
  - apply app_inj_tail in Eb. destruct Eb as (-> & ->). rewrite <- app_assoc. cbn [app]. rewrite <- E. apply H. eauto.
  - clear IHb. rewrite app_comm_cons, app_assoc in Eb. apply app_inj_tail in Eb. destruct Eb as (Eb & _). exact (N _ _ _ _ Eb).
Qed.
Lemma pending_since_snoc : forall c w0 i t ops o, pending_since c w0 i t ops -> pending_since c w0 i t (ops ++ [o]).
Proof. intros c w0 i t ops o (ops0 & vm & opsm & E & T). exists ops0, vm, (opsm ++ [o]). split; [rewrite E, <- app_assoc; reflexivity|exact T]. Qed.

Lemma since_step : forall c w0 ops o, base (hrun c w0 ops) -> sinceinv c w0 ops -> sinceinv c w0 (ops ++ [o]).
Proof.
  intros c w0 ops o Bs S m' I D'. rewrite run_snoc, step_ms in I. apply in_app_iff in I. destruct I as [I|I].
  2:{ apply created_h in I. destruct I as (_ & _ & St & _). unfold h_phase. rewrite St. split; discriminate. }
  apply fmap_in in I. destruct I as (m & I & U). assert (Ei := upd_id _ _ _ _ _ U).
  assert (Keep : h_del m = false -> h_phase m' = h_phase m -> cs_time (ms_cur (h_st m')) = cs_time (ms_cur (h_st m)) ->
            ((exists s p, o = HPass (h_id m) s p true) -> h_phase m = "Unknown" -> ~ sound c (h_node m)) ->
            (h_phase m' = "Unknown" -> broken_since c w0 (h_id m') (cs_time (ms_cur (h_st m'))) (ops ++ [o])) /\
            (h_phase m' = "Pending" -> pending_since c w0 (h_id m') (cs_time (ms_cur (h_st m'))) (ops ++ [o]))).
  { intros D P T N. rewrite Ei, P, T. destruct (S m I D) as (S1 & S2). split; intros Q.
    - apply broken_since_snoc; [now apply S1|]. intros X (mm & Im & Eim & Sm). apply (N X Q). rewrite (unique_id _ m mm Bs I Im (eq_sym Eim)). exact Sm.
    - apply pending_since_snoc. now apply S2. }
  destruct o as [d|i a|i s p ok|i ph vm|api v|i|i|i|i]; cbn in U.
  - injection U as <-. apply Keep; auto. intros (s & p & X). discriminate.
  - injection U as <-. destruct (Nat.eqb (h_id m) i); apply Keep; auto; intros (s & p & X); discriminate.
  - injection U as <-. destruct (Nat.eqb (h_id m) i) eqn:E.
    2:{ apply Keep; auto. intros (s' & p' & X). injection X as -> _ _ _. rewrite Nat.eqb_refl in E. discriminate. }
    apply Nat.eqb_eq in E. subst i. destruct (pass_id c (k_now (hrun c w0 ops)) s p ok m) as (_ & _ & Pd & _ & _). rewrite Pd in D'.
    assert (G : good m) by (destruct Bs as (_ & _ & G); rewrite Forall_forall in G; now apply G).
    assert (NS : (exists s0 p0, HPass (h_id m) s p ok = HPass (h_id m) s0 p0 true) -> h_phase (pass c (k_now (hrun c w0 ops)) s p ok m) = h_phase m -> h_phase m = "Unknown" -> ~ sound c (h_node m)).
    { intros (s0 & p0 & X) Q Un So. injection X as _ _ ->. assert (R := pass_sound c (k_now (hrun c w0 ops)) s p m G D'). rewrite Un in *.
      rewrite R in Q; try discriminate. exact So. }
    destruct (pass_cases c (k_now (hrun c w0 ops)) s p ok m G D') as [Q|(O & N0 & [(Q & Q1)|[(Q & _)|[(Q & Q1 & Q2 & Q3)|[(Q & _)|(Q & _)]]]])].
    + assert (QP : h_phase (pass c (k_now (hrun c w0 ops)) s p ok m) = h_phase m) by (unfold h_phase; now rewrite Q). apply Keep; auto. now rewrite Q.
    + apply Keep; auto. now rewrite Q1.
    + rewrite Q. split; discriminate.
    + rewrite Q. split; [|discriminate]. intros _. rewrite Ei, Q3. exists ops, s, p, []. split; [now rewrite O|]. split; [exists m; auto|]. split; [reflexivity|].
      intros a s' p' b X. destruct a; discriminate.
    + rewrite Q. split; discriminate.
    + rewrite Q. split; discriminate.
  - injection U as <-. destruct (Nat.eqb (h_id m) i) eqn:E; [|apply Keep; auto; intros (s & p & X); discriminate].
    apply Nat.eqb_eq in E. subst i.
    destruct (negb (h_del m) && _ && _) eqn:C; [|apply Keep; auto; intros (s & p & X); discriminate]. apply andb_true_iff in C. destruct C as (_ & C).
    unfold h_phase. cbn. split; [intros ->; discriminate|]. intros ->. exists ops, vm, []. split; reflexivity.
  - injection U as <-. destruct (find _ _) as [t|]; [|apply Keep; auto; intros (s & p & X); discriminate].
    unfold hTerminate in *. destruct (m_deleting t); [apply Keep; auto; intros (s & p & X); discriminate|]. cbn in D'. apply orb_false_iff in D'. destruct D' as (D' & _).
    unfold h_phase. cbn. destruct (a_status api (h_id m)); [cbn; split; discriminate|]. apply (Keep D'); auto. intros (s & p & X); discriminate.
  - injection U as <-. destruct (Nat.eqb (h_id m) i); apply Keep; auto; intros (s & p & X); discriminate.
  - injection U as <-. destruct (Nat.eqb (h_id m) i); [|apply Keep; auto; intros (s & p & X); discriminate].
    destruct (h_del m) eqn:Dm; [cbn in D'; congruence|apply Keep; auto; intros (s & p & X); discriminate].
  - injection U as <-. destruct (Nat.eqb (h_id m) i); [|apply Keep; auto; intros (s & p & X); discriminate].
    destruct (h_del m) eqn:Dm; apply Keep; auto; intros (s & p & X); discriminate.
  - destruct (Nat.eqb (h_id m) i && h_del m && negb (h_vm m)); [discriminate|]. injection U as <-. apply Keep; auto. intros (s & p & X); discriminate.
Qed.
Lemma since_run : forall c w0 ops, beginning w0 -> Forall proper_op ops -> sinceinv c w0 ops.
Proof.
  intros c w0 ops B. induction ops as [|o ops IH] using rev_ind; intros P.
  - intros m I D. destruct B as (_ & F). rewrite Forall_forall in F. destruct (F _ I) as (_ & _ & _ & _ & [E|(E & _)]); rewrite E; split; discriminate.
  - apply Forall_app in P. destruct P as (P & _). apply since_step; [|now apply IH]. apply base_run; [exact P|now apply beginning_base].
Qed.

Lemma failed_when : forall c w0 ops i seen permit ok, beginning w0 -> Forall proper_op ops ->
  let w := hrun c w0 ops in
  forall m m', In m (k_ms w) -> h_id m = i -> h_phase m <> "Failed" -> In m' (k_ms (hstep c w (HPass i seen permit ok))) -> h_id m' = i -> h_phase m' = "Failed" ->
  (h_phase m = "Pending" /\ exists ops0 vm opsm, ops = ops0 ++ HMade i "Pending" vm :: opsm /\ k_now (hrun c w0 ops0) + c_creation c < k_now w) \/
  (h_phase m = "Unknown" /\ broken c (h_node m) /\ exists ops0 s p opsm, ops = ops0 ++ HPass i s p true :: opsm /\
     has (hrun c w0 ops0) i (fun m => broken c (h_node m)) /\ k_now (hrun c w0 ops0) + c_health c < k_now w /\
     (forall a s' p' b, opsm = a ++ HPass i s' p' true :: b -> ~ has (hrun c w0 ((ops0 ++ [HPass i s p true]) ++ a)) i (fun m => sound c (h_node m)))).
Proof.
  intros c w0 ops i seen permit ok B P w m m' I Ei NF I' Ei' F.
  assert (Bs : base w) by (apply base_run; [exact P|now apply beginning_base]).
  assert (S := since_run c w0 ops B P). fold w in S.
  rewrite step_ms in I'. cbn [made hCreated] in I'. rewrite app_nil_r in I'. apply fmap_in in I'. destruct I' as (m1 & I1 & U).
  assert (E1 := upd_id _ _ _ _ _ U). assert (m1 = m) as -> by (apply (unique_id w); auto; congruence). cbn in U. injection U as <-.
  rewrite Ei in F. rewrite Nat.eqb_refl in F.
  assert (G : good m) by (destruct Bs as (_ & _ & G); rewrite Forall_forall in G; now apply G).
  destruct (h_del m) eqn:D. { unfold pass in F. rewrite D in F. contradiction. }
  destruct (S m I D) as (S1 & S2).
  destruct (pass_cases c (k_now w) seen permit ok m G D) as [Q|(_ & _ & [(Q & _)|[(Q & _)|[(Q & _)|[(Q & Q1 & Q2)|(Q & Q1 & Q2 & Q3 & _)]]]])]; try congruence.
  - unfold h_phase in F. rewrite Q in F. contradiction.
  - left. split; [exact Q1|]. destruct (S2 Q1) as (ops0 & vm & opsm & E & T). exists ops0, vm, opsm. rewrite T. rewrite Ei in E. split; assumption.
  - right. split; [exact Q1|]. split; [exact Q3|]. destruct (S1 Q1) as (ops0 & s & p & opsm & E & Br & T & N). exists ops0, s, p, opsm. rewrite T. rewrite Ei in E, Br, N. auto.
Qed.

(* ---- only broken machines are deleted ---- *)
Definition keep (m : HM) : bool := negb (h_del m) && negb (h_marked m).
Definition cnt (f : HM -> bool) (l : list HM) : Z := Z.of_nat (List.length (filter f l)).
(* All machines but [ex]. *)
Definition J (ex : nat -> bool) (w : HW) : Prop :=
  cnt (fun m => keep m && negb (ex (h_id m))) (k_ms w) <= k_spec w /\
  (forall m, In m (k_ms w) -> ex (h_id m) = false -> h_del m = true -> h_phase m = "Failed" \/ h_phase m = "Terminating" \/ h_marked m = true) /\
  (forall m, In m (k_ms w) -> ex (h_id m) = false -> h_del m = false -> h_phase m <> "Terminating").

Lemma cnt_fmap_le : forall (f : HM -> bool) (g : HM -> option HM) l, (forall m m', In m l -> g m = Some m' -> f m' = true -> f m = true) -> cnt f (fmap g l) <= cnt f l.
Proof.
  intros f g l H. unfold cnt. induction l as [|m l IH]; [cbn; lia|]. assert (IH' : Z.of_nat (List.length (filter f (fmap g l))) <= Z.of_nat (List.length (filter f l))).
  { apply IH. intros a a' I. apply H. now right. } clear IH. cbn [fmap filter]. destruct (g m) as [m'|] eqn:E.
  - cbn [filter]. destruct (f m') eqn:F.
    + rewrite (H m m' (or_introl eq_refl) E F). cbn [List.length]. lia.
    + destruct (f m); cbn [List.length]; lia.
  - destruct (f m); cbn [List.length]; lia.
Qed.
Lemma cnt_app : forall f a b, cnt f (a ++ b) = cnt f a + cnt f b.
Proof. intros. unfold cnt. rewrite filter_app, app_length. lia. Qed.
Lemma seen_now_as : forall w, seen_now w = map asMach (k_ms w).
Proof. reflexivity. Qed.
Lemma cnt_mono : forall (f g : HM -> bool) l, (forall m, In m l -> f m = true -> g m = true) -> cnt f l <= cnt g l.
Proof.
  intros f g l H. unfold cnt. induction l as [|m l IH]; [cbn; lia|].
  assert (IH' : Z.of_nat (List.length (filter f l)) <= Z.of_nat (List.length (filter g l))) by (apply IH; intros; apply H; [now right|assumption]).
  cbn [filter]. destruct (f m) eqn:F; [rewrite (H m (or_introl eq_refl) F)|destruct (g m)]; cbn [List.length]; lia.
Qed.
Lemma nserving_seen : forall w, nserving (seen_now w) = cnt (fun m => servingb (asMach m)) (k_ms w).
Proof.
  intros w. rewrite seen_now_as. unfold nserving, cnt. f_equal. induction (k_ms w) as [|m l IH]; [reflexivity|]. cbn [map filter].
  destruct (servingb (asMach m)); cbn [List.length]; now rewrite IH.
Qed.
Lemma serving_as : forall m, servingb (asMach m) = negb (String.eqb (h_phase m) "Failed") && negb (String.eqb (h_phase m) "Terminating") && negb (h_marked m).
Proof. intros m. unfold servingb, asMach. cbn. rewrite andb_true_r. destruct (h_marked m); reflexivity. Qed.
Lemma stale_as : forall m, isStale (asMach m) = String.eqb (h_phase m) "Failed" || h_marked m.
Proof. intros m. unfold isStale, IsMachineFailed, IsMachineTriggeredForDeletion, asMach. cbn. destruct (h_marked m); reflexivity. Qed.
Lemma made_le : forall w api v, Z.of_nat (made w (HSet api v)) <= Z.max 0 (k_spec w - nserving v).
Proof.
  intros w api v. cbn [made]. destruct (slowStartBatch _ _ _) as ((cc, s), e) eqn:E. cbn [fst snd]. apply slow_start in E.
  assert (C := plan_create (k_spec w) (k_frozen w) v).
  assert (L : (s <= pl_create (manageReplicas (k_spec w) (k_frozen w) v))%nat) by (destruct E as (E1 & E2 & _); assert (X := nsucc_le (a_create api) cc 0); lia).
  clear E. destruct (k_frozen w); lia.
Qed.
Lemma no_surplus : forall spec fr v, nserving v <= spec -> pl_surplus (manageReplicas spec fr v) = [] /\ pl_stale (manageReplicas spec fr v) = filter isStale v.
Proof.
  intros spec fr v L. unfold manageReplicas. rewrite filter_active. unfold nserving in L.
  destruct (_ <? 0); [split; reflexivity|]. destruct (_ >? 0) eqn:E; [lia|split; reflexivity].
Qed.
Lemma set_upd : forall c w api m, base w -> nserving (seen_now w) <= k_spec w -> In m (k_ms w) ->
  upd c w (HSet api (seen_now w)) m = Some (if isStale (asMach m) then hTerminate api (k_now w) (h_del m) m else m).
Proof.
  intros c w api m B L I. cbn [upd]. cbv zeta. destruct (no_surplus (k_spec w) (k_frozen w) (seen_now w) L) as (-> & ->). rewrite app_nil_r. f_equal.
  destruct (find _ (filter isStale (seen_now w))) as [t|] eqn:F.
  - apply find_some in F. destruct F as (F & E). apply filter_In in F. destruct F as (F & S). rewrite seen_now_as in F. apply in_map_iff in F. destruct F as (m2 & <- & I2).
    apply Nat.eqb_eq in E. cbn in E. assert (m2 = m) as -> by (apply (unique_id w); auto). rewrite S. reflexivity.
  - destruct (isStale (asMach m)) eqn:S; [|reflexivity]. exfalso. assert (X := find_none _ _ F (asMach m)). cbv beta in X. cbn [asMach m_id] in X. rewrite Nat.eqb_refl in X.
    assert (true = false); [|discriminate]. apply X. apply filter_In. split; [|exact S]. rewrite seen_now_as. now apply in_map.
Qed.
Lemma J_serving : forall ex w, J ex w -> (forall m, In m (k_ms w) -> ex (h_id m) = true -> servingb (asMach m) = false) -> nserving (seen_now w) <= k_spec w.
Proof.
  intros ex w (J1 & J2 & _) X. rewrite nserving_seen. etransitivity; [|exact J1]. apply cnt_mono. intros m I S. destruct (ex (h_id m)) eqn:E; [rewrite (X m I E) in S; discriminate|].
  rewrite serving_as in S. unfold keep. destruct (h_marked m) eqn:M; [rewrite andb_false_r in S; discriminate|]. destruct (h_del m) eqn:D; [|reflexivity].
  destruct (J2 m I E D) as [H|[H|H]]; [rewrite H in S; discriminate|rewrite H in S; rewrite andb_false_r in S; discriminate|congruence].
Qed.

Definition fine (w : HW) (o : HOp) : Prop := proper_op o /\ truthful w o /\ deletes o.
Lemma upd_keep : forall c w o m m', upd c w o m = Some m' -> keep m' = true -> keep m = true.
Proof.
  intros c w o m m' U. unfold keep. destruct o as [d|i a|i s p ok|i ph vm|api v|i|i|i|i]; cbn in U; try (injection U as <-); try (destruct (Nat.eqb (h_id m) i)); auto.
  - destruct (pass_id c (k_now w) s p ok m) as (_ & M & D & _). rewrite M, D. auto.
  - destruct (negb (h_del m) && (_ || _) && _); auto.
  - destruct (find _ _) as [t|]; auto. destruct (term_id api (k_now w) (m_deleting t) m) as (_ & M & _ & _ & _ & D). rewrite M. destruct (h_del m); [rewrite D by reflexivity; auto|].
    intros K. apply andb_true_iff in K. now destruct K.
  - cbn. rewrite andb_false_r. discriminate.
  - destruct (h_del m) eqn:E; cbn; rewrite ?E; auto.
  - destruct (h_del m) eqn:E; cbn; rewrite ?E; auto.
  - cbn [andb] in U. destruct (h_del m && negb (h_vm m)); [discriminate|]. injection U as <-. auto.
  - cbn [andb] in U. injection U as <-. auto.
Qed.
Lemma J_step : forall ex c w o, base w -> J ex w -> (forall m, In m (k_ms w) -> ex (h_id m) = true -> servingb (asMach m) = false) -> (forall n, (k_next w <= n)%nat -> ex n = false) ->
  fine w o -> J ex (hstep c w o).
Proof.
  intros ex c w o B JJ X N (P & T & D). assert (L := J_serving ex w JJ X). destruct JJ as (J1 & J2 & J3).
  unfold J. rewrite step_ms. destruct (step_spec c w o) as (-> & _). split; [|split].
  - rewrite cnt_app. destruct o as [d|i a|i s p ok|i ph vm|api v|i|i|i|i];
      try (cbn [made hCreated]; unfold cnt at 2; cbn [filter List.length]; rewrite Z.add_0_r; etransitivity; [|exact J1]; apply cnt_fmap_le; intros m m' _ U K;
           rewrite (upd_id _ _ _ _ _ U) in K; apply andb_true_iff in K; destruct K as (K1 & K2); rewrite (upd_keep _ _ _ _ _ U K1), K2; reflexivity).
    cbn in T. subst v. assert (Ml := made_le w api (seen_now w)). assert (Cr : cnt (fun m => keep m && negb (ex (h_id m))) (hCreated (k_now w) (k_next w) (made w (HSet api (seen_now w)))) <= Z.of_nat (made w (HSet api (seen_now w)))).
    { unfold cnt. rewrite <- (created_len (k_now w) (made w (HSet api (seen_now w))) (k_next w)) at 2. remember (hCreated _ _ _) as l. clear.
      induction l as [|a l IH]; cbn [filter List.length]; [lia|]. destruct (keep a && negb (ex (h_id a))); cbn [List.length]; lia. }
    assert (Fm : cnt (fun m => keep m && negb (ex (h_id m))) (fmap (upd c w (HSet api (seen_now w))) (k_ms w)) <= nserving (seen_now w)).
    { rewrite nserving_seen. etransitivity; [|apply (cnt_mono (fun m => keep m && negb (ex (h_id m)) && servingb (asMach m)))].
      - assert (Q : forall m m', In m (k_ms w) -> upd c w (HSet api (seen_now w)) m = Some m' -> keep m' && negb (ex (h_id m')) = true -> keep m && negb (ex (h_id m)) && servingb (asMach m) = true).
        { intros m m' I U K. rewrite (upd_id _ _ _ _ _ U) in K. apply andb_true_iff in K. destruct K as (K1 & K2). rewrite (upd_keep _ _ _ _ _ U K1), K2. cbn [andb].
          rewrite (set_upd c w api m B L I) in U. injection U as U. rewrite serving_as. assert (Km := K1). destruct (isStale (asMach m)) eqn:S.
          - exfalso. subst m'. assert (K0 := upd_keep c w (HSet api (seen_now w)) m (hTerminate api (k_now w) (h_del m) m)). rewrite (set_upd c w api m B L I), S in K0. specialize (K0 eq_refl K1).
            unfold keep in K0. unfold hTerminate in K1. destruct (h_del m); [discriminate|]. unfold keep in K1. cbn in K1. rewrite (D (h_id m)) in K1. discriminate.
          - subst m'. rewrite stale_as in S. apply orb_false_iff in S. destruct S as (S1 & S2). rewrite S1, S2. cbn. rewrite andb_true_r. unfold keep in K1. apply andb_true_iff in K1. destruct K1 as (K1 & _).
            apply negb_true_iff in K1, K2. apply negb_true_iff. apply String.eqb_neq. now apply J3. }
        clear - Q. induction (k_ms w) as [|m l IH]; [unfold cnt; cbn; lia|].
        assert (IH' := IH (fun a a' I => Q a a' (or_intror I))). clear IH. unfold cnt in *. cbn [fmap filter]. destruct (upd c w (HSet api (seen_now w)) m) as [m'|] eqn:U.
        + cbn [filter]. destruct (keep m' && negb (ex (h_id m'))) eqn:K; [rewrite (Q m m' (or_introl eq_refl) U K)|destruct (keep m && negb (ex (h_id m)) && servingb (asMach m))]; cbn [List.length]; lia.
        + destruct (keep m && negb (ex (h_id m)) && servingb (asMach m)); cbn [List.length]; lia.
      - intros m _ K. apply andb_true_iff in K. now destruct K. }
    lia.
  - intros m' I E Dl. apply in_app_iff in I. destruct I as [I|I]; [|apply created_h in I; destruct I as (_ & _ & _ & K & _); congruence].
    apply fmap_in in I. destruct I as (m & I & U). assert (Ei := upd_id _ _ _ _ _ U). rewrite Ei in E.
    destruct o as [d|i a|i s p ok|i ph vm|api v|i|i|i|i].
    + injection U as <-. auto.
    + cbn in U. injection U as <-. destruct (Nat.eqb (h_id m) i); apply (J2 m I E Dl).
    + cbn in U. injection U as <-. destruct (Nat.eqb (h_id m) i); [|auto]. destruct (pass_id c (k_now w) s p ok m) as (_ & _ & Dp & _). rewrite Dp in Dl. unfold pass. rewrite Dl. auto.
    + cbn in U. injection U as <-. destruct (Nat.eqb (h_id m) i); [|auto]. destruct (negb (h_del m) && _ && _) eqn:C; [|auto]. cbn in Dl. rewrite Dl in C. discriminate.
    + cbn in T. subst v. rewrite (set_upd c w api m B L I) in U. injection U as <-. destruct (isStale (asMach m)) eqn:S; [|auto]. unfold hTerminate in *. destruct (h_del m) eqn:Dm; [auto|].
      unfold h_phase. cbn in *. rewrite stale_as in S. apply orb_true_iff in S. destruct (a_status api (h_id m)); [now right; left|]. destruct S as [S|S]; [left; now apply String.eqb_eq|auto].
    + cbn in U. injection U as <-. destruct (Nat.eqb (h_id m) i); [cbn; auto|auto].
    + cbn in U. injection U as <-. destruct (Nat.eqb (h_id m) i); [|auto]. destruct (h_del m) eqn:Dm; [now right; left|auto].
    + cbn in U. injection U as <-. destruct (Nat.eqb (h_id m) i); [|auto]. destruct (h_del m) eqn:Dm; [apply (J2 m I E Dm)|auto].
    + cbn in U. destruct (Nat.eqb (h_id m) i && h_del m && negb (h_vm m)); [discriminate|]. injection U as <-. auto.
  - intros m' I E Dl. apply in_app_iff in I. destruct I as [I|I]; [|apply created_h in I; destruct I as (_ & _ & K & _); unfold h_phase; rewrite K; discriminate].
    apply fmap_in in I. destruct I as (m & I & U). assert (Ei := upd_id _ _ _ _ _ U). rewrite Ei in E.
    destruct o as [d|i a|i s p ok|i ph vm|api v|i|i|i|i].
    + injection U as <-. auto.
    + cbn in U. injection U as <-. destruct (Nat.eqb (h_id m) i); apply (J3 m); auto.
    + cbn in U. injection U as <-. destruct (Nat.eqb (h_id m) i); [|auto]. destruct (pass_id c (k_now w) s p ok m) as (_ & _ & Dp & _). rewrite Dp in Dl.
      assert (G : good m) by (destruct B as (_ & _ & G); rewrite Forall_forall in G; now apply G).
      destruct (pass_cases c (k_now w) s p ok m G Dl) as [Q|(_ & _ & [(Q & _)|[(Q & _)|[(Q & _)|[(Q & _)|(Q & _)]]]])]; try (rewrite Q; try discriminate; now apply J3).
      unfold h_phase. rewrite Q. now apply J3.
    + cbn in U. injection U as <-. destruct (Nat.eqb (h_id m) i); [|auto]. destruct (negb (h_del m) && _ && _) eqn:C; [|auto]. unfold h_phase. cbn. intros ->. rewrite andb_comm in C. discriminate.
    + cbn in T. subst v. rewrite (set_upd c w api m B L I) in U. injection U as <-. destruct (isStale (asMach m)) eqn:S; [|auto]. unfold hTerminate in *. destruct (h_del m) eqn:Dm; [congruence|].
      cbn in Dl. rewrite (D (h_id m)) in Dl. discriminate.
    + cbn in U. injection U as <-. destruct (Nat.eqb (h_id m) i); apply (J3 m); auto.
    + cbn in U. injection U as <-. destruct (Nat.eqb (h_id m) i); [|auto]. destruct (h_del m) eqn:Dm; [cbn in Dl; congruence|auto].
    + cbn in U. injection U as <-. destruct (Nat.eqb (h_id m) i); [|auto]. destruct (h_del m) eqn:Dm; [cbn in Dl; congruence|auto].
    + cbn in U. destruct (Nat.eqb (h_id m) i && h_del m && negb (h_vm m)); [discriminate|]. injection U as <-. auto.
Qed.

Lemma J_run : forall c l w, base w -> J (fun _ => false) w -> hEach c fine w l -> base (hrun c w l) /\ J (fun _ => false) (hrun c w l).
Proof.
  intros c l. induction l as [|o l IH]; intros w B JJ H; [now split|]. destruct H as (F & H). cbn. apply IH; [now apply base_step; [apply F|]| |exact H].
  apply J_step; auto. discriminate.
Qed.
Lemma J_begin : forall w, beginning w -> in_use w <= k_spec w -> J (fun _ => false) w.
Proof.
  intros w (_ & F) L. rewrite Forall_forall in F. split; [|split].
  - unfold in_use in L. unfold cnt, keep. etransitivity; [|exact L]. apply (cnt_mono _ (fun m => negb (h_del m) && negb (h_marked m))). intros m _ K. apply andb_true_iff in K. now destruct K.
  - intros m I _ D. destruct (F _ I) as (_ & D' & _). congruence.
  - intros m I _ _ T. destruct (F _ I) as (_ & _ & _ & _ & [E|(E & _)]); congruence.
Qed.
Lemma only_failed : forall c w0 ops api view, beginning w0 -> in_use w0 <= k_spec w0 -> hEach c fine w0 (ops ++ [HSet api view]) ->
  let w := hrun c w0 ops in forall m m', In m (k_ms w) -> In m' (k_ms (hstep c w (HSet api view))) -> h_id m = h_id m' -> h_del m = false -> h_del m' = true ->
  h_phase m = "Failed" \/ h_marked m = true.
Proof.
  intros c w0 ops api view B U H w m m' I I' Ei D D'.
  assert (E : hEach c fine w0 ops /\ fine w (HSet api view)).
  { subst w. clear - H. revert w0 H. induction ops as [|o ops IH]; intros w0 H; cbn in *; [split; [exact Logic.I|apply H]|]. destruct H as (H1 & H2). destruct (IH _ H2) as (A & C). auto. }
  destruct E as (E & (_ & T & _)). cbn in T. subst view.
  destruct (J_run c ops w0 (beginning_base _ B) (J_begin _ B U) E) as (Bw & Jw). fold w in Bw, Jw.
  assert (L := J_serving _ w Jw (fun m _ (X : false = true) => False_ind _ (diff_false_true X))).
  rewrite step_ms in I'. apply in_app_iff in I'. destruct I' as [I'|I']; [|apply created_h in I'; destruct I' as (_ & _ & _ & K & _); congruence].
  apply fmap_in in I'. destruct I' as (m1 & I1 & Up). assert (E1 := upd_id _ _ _ _ _ Up). assert (m1 = m) as -> by (apply (unique_id w); auto; congruence).
  rewrite (set_upd c w api m Bw L I) in Up. injection Up as <-. destruct (isStale (asMach m)) eqn:S; [|congruence]. rewrite stale_as in S. apply orb_true_iff in S.
  destruct S as [S|S]; [left; now apply String.eqb_eq|now right].
Qed.

(* ---- a broken machine is replaced ---- *)
Lemma byType_unique : forall l c, NoDup (map nc_type l) -> In c l -> byType (nc_type c) l = Some c.
Proof.
  intros l c N I. destruct (byType (nc_type c) l) as [d|] eqn:B.
  - apply byType_in in B. destruct B as (B1 & B2). f_equal. apply (unique_type l); auto.
  - exfalso. exact (byType_none _ _ B c I eq_refl).
Qed.
Lemma agrees_unchanged : forall a b, NoDup (map nc_type a) -> NoDup (map nc_type b) -> agrees a b -> nodeConditionsHaveChanged a b = false.
Proof.
  intros a b Na Nb A. unfold nodeConditionsHaveChanged. apply orb_false_iff. split.
  - apply not_true_is_false. intros H. apply existsb_exists in H. destruct H as (c & I & H).
    destruct (proj2 (A (nc_type c) (nc_status c)) (ex_intro _ c (conj I (conj eq_refl eq_refl)))) as (d & Id & Td & Sd).
    rewrite <- Td, (byType_unique a d Na Id), Sd, String.eqb_refl in H. discriminate.
  - apply not_true_is_false. intros H. apply existsb_exists in H. destruct H as (c & I & H).
    destruct (proj1 (A (nc_type c) (nc_status c)) (ex_intro _ c (conj I (conj eq_refl eq_refl)))) as (d & Id & Td & Sd).
    rewrite <- Td, (byType_unique b d Nb Id) in H. discriminate.
Qed.
Lemma canMark_spec : forall l, (forall p, In p l -> p = "Unknown" \/ p = "Running") -> canMark l = true.
Proof. intros l H. unfold canMark. apply forallb_forall. intros p I. destruct (H p I) as [->| ->]; reflexivity. Qed.
Lemma broken_healthy : forall c m, broken c (h_node m) -> good m -> noted m -> forall conds cr, h_node m = NodeIs conds cr ->
  nodeConditionsHaveChanged (ms_conds (h_st m)) conds = false /\ isHealthy (c_bad c) (ms_conds (h_st m)) = false.
Proof.
  intros c m Br (G1 & G2 & _) R conds cr Hn. unfold noted in R. rewrite Hn in *. cbn in *. split; [now apply agrees_unchanged|].
  apply not_true_is_false. intros H. apply healthy_iff in H. apply Br. revert H. apply agrees_no_problem. now apply agrees_sym.
Qed.
Lemma pass_fails : forall c now seen m, good m -> h_del m = false -> broken c (h_node m) -> noted m -> canMark seen = true ->
  (h_phase m = "Unknown" /\ cs_time (ms_cur (h_st m)) + c_health c < now \/ h_phase m = "Pending" /\ cs_time (ms_cur (h_st m)) + c_creation c < now) ->
  h_phase (pass c now seen true true m) = "Failed".
Proof.
  intros c now seen m G D Br R K T.
  assert (NE : h_phase m = "" -> False) by (destruct T as [(T & _)|(T & _)]; rewrite T; discriminate).
  assert (BH := broken_healthy c m Br G R). unfold pass. rewrite D. cbn [orb]. destruct (String.eqb (h_phase m) "") eqn:E0; [apply String.eqb_eq in E0; contradiction|].
  unfold reconcileMachineHealth. change (mo_status (asObj m)) with (h_st m). change (phase (asObj m)) with (h_phase m). cbv beta zeta.
  destruct (h_node m) as [| |conds cr] eqn:Hn; [contradiction| |destruct (BH conds cr eq_refl) as (-> & ->)]; destruct T as [(-> & T)|(-> & T)];
    rewrite ?andb_false_r; cbn [String.eqb Ascii.eqb Bool.eqb orb andb negb];
    replace (0 <? now - _ - cs_time (ms_cur (h_st m))) with true by lia; try rewrite K; reflexivity.
Qed.
Lemma pass_notices : forall c now seen permit m, good m -> h_del m = false -> broken c (h_node m) -> h_phase m = "Running" ->
  h_phase (pass c now seen permit true m) = "Unknown".
Proof.
  intros c now seen permit m (G1 & G2 & G3) D Br R. unfold pass. rewrite D. cbn [orb]. destruct (String.eqb (h_phase m) "") eqn:E0; [apply String.eqb_eq in E0; congruence|].
  destruct (must_unknown (c_show c) (c_creation c) (c_health c) (c_bad c) now (h_node m) (asObj m) G2 R (G3 R)) as (s & H & P).
  - destruct (h_node m) as [| |conds cr]; [contradiction|now left|right; exists conds, cr; auto].
  - rewrite H. exact P.
Qed.

Definition rk (m : HM) : nat :=
  if h_del m then (if h_vm m then 3 else 4)%nat
  else if String.eqb (h_phase m) "Running" then 0%nat else if String.eqb (h_phase m) "Failed" then 2%nat else 1%nat.
Definition tracked (c : HConf) (m : HM) : Prop :=
  h_del m = true \/ (broken c (h_node m) /\ (h_phase m = "Running" \/ h_phase m = "Unknown" \/ h_phase m = "Pending" \/ h_phase m = "Failed")).
Definition lvl (c : HConf) (x k : nat) (w : HW) : Prop :=
  (x < k_next w)%nat /\ ((forall m, In m (k_ms w) -> h_id m <> x) \/ has w x (fun m => tracked c m /\ (k <= rk m)%nat)).

Lemma rk_le : forall m, (rk m <= 4)%nat /\ (h_del m = true -> (3 <= rk m)%nat) /\ (h_del m = false -> (rk m <= 2)%nat).
Proof. intros m. unfold rk. destruct (h_del m), (h_vm m); try destruct (String.eqb (h_phase m) "Running"); try destruct (String.eqb (h_phase m) "Failed"); repeat split; intros; try discriminate; lia. Qed.
Lemma rk_same : forall m m', h_del m' = h_del m -> h_vm m' = h_vm m -> h_phase m' = h_phase m -> rk m' = rk m.
Proof. intros m m' A B C. unfold rk. now rewrite A, B, C. Qed.

Lemma rk_leq : forall m m', h_del m' = h_del m -> h_vm m' = h_vm m -> h_phase m' = h_phase m -> (rk m <= rk m')%nat.
Proof. intros m m' A B C. rewrite (rk_same m m') by assumption. lia. Qed.
Lemma firstn_in : forall {A} n (l : list A) x, In x (firstn n l) -> In x l.
Proof. intros A n. induction n as [|n IH]; intros l x; [intros []|]. destruct l as [|a l]; [intros []|]. intros [H|H]; [now left|right; now apply IH]. Qed.

Lemma upd_rank : forall c w x o m m', base w -> In m (k_ms w) -> h_id m = x -> tracked c m -> stays_broken c x o -> upd c w o m = Some m' ->
  tracked c m' /\ (rk m <= rk m')%nat.
Proof.
  intros c w x o m m' B I Ex T S U.
  assert (G : good m) by (destruct B as (_ & _ & G); rewrite Forall_forall in G; now apply G).
  destruct o as [d|i a|i s p ok|i ph vm|api v|i|i|i|i]; cbn in U.
  - injection U as <-. auto.
  - injection U as <-. destruct (Nat.eqb (h_id m) i) eqn:E; [|auto]. apply Nat.eqb_eq in E. destruct S as (S1 & _); [congruence|]. split.
    + destruct T as [T|(_ & T)]; [now left|right]. split; [exact S1|exact T].
    + now apply rk_leq.
  - injection U as <-. destruct (Nat.eqb (h_id m) i); [|auto]. destruct (pass_id c (k_now w) s p ok m) as (_ & _ & Pd & Pv & Pn).
    destruct (h_del m) eqn:D.
    + replace (pass c (k_now w) s p ok m) with m by (unfold pass; now rewrite D). auto.
    + destruct T as [T|(Br & T)]; [congruence|]. unfold tracked. rewrite Pd, Pn.
      destruct (pass_cases c (k_now w) s p ok m G D) as [Q|(_ & _ & [(Q & _)|[(_ & Q)|[(Q & Q1 & _)|[(Q & Q1 & _)|(Q & Q1 & _)]]]])].
      * assert (QP : h_phase (pass c (k_now w) s p ok m) = h_phase m) by (unfold h_phase; now rewrite Q). rewrite QP. split; [right; split; [exact Br|exact T]|]. apply rk_leq; congruence.
      * rewrite Q. split; [right; split; [exact Br|exact T]|]. apply rk_leq; congruence.
      * exfalso. destruct (h_node m); cbn in *; auto.
      * rewrite Q. split; [right; auto|]. unfold rk. rewrite Pd, Q, Q1. cbn. rewrite D. lia.
      * rewrite Q. split; [right; auto|]. unfold rk. rewrite Pd, Q, Q1. cbn. rewrite D. lia.
      * rewrite Q. split; [right; auto|]. unfold rk. rewrite Pd, Q, Q1. cbn. rewrite D. lia.
  - injection U as <-. destruct (Nat.eqb (h_id m) i); [|auto]. destruct (negb (h_del m) && _ && _) eqn:C; [|auto]. exfalso.
    apply andb_true_iff in C. destruct C as (C & _). apply andb_true_iff in C. destruct C as (C1 & C2). apply negb_true_iff in C1.
    destruct T as [T|(_ & [T|[T|[T|T]]])]; try congruence; rewrite T in C2; discriminate.
  - injection U as <-. destruct (find _ _) as [t|]; [|auto]. unfold hTerminate. destruct (m_deleting t); [auto|]. cbn in S. rewrite Ex. destruct (h_del m) eqn:D.
    + cbn [orb]. split; [now left|]. unfold rk. cbn [h_del h_vm]. rewrite D. lia.
    + cbn [orb]. destruct (a_delete api x) eqn:A.
      * split; [now left|]. unfold rk at 2. cbn [h_del h_vm]. assert (R := rk_le m). destruct R as (_ & _ & R). specialize (R D). destruct (h_vm m); lia.
      * destruct (a_status api x); [specialize (S eq_refl); congruence|]. split; [|now apply rk_leq].
        destruct T as [T|T]; [congruence|right; exact T].
  - injection U as <-. destruct (Nat.eqb (h_id m) i); [|auto]. split; [destruct T as [T|T]; [now left|now right]|]. now apply rk_leq.
  - injection U as <-. destruct (Nat.eqb (h_id m) i); [|auto]. destruct (h_del m) eqn:D; [|auto]. split; [now left|]. unfold rk. cbn [setStatus h_del h_vm]. rewrite D. lia.
  - injection U as <-. destruct (Nat.eqb (h_id m) i); [|auto]. destruct (h_del m) eqn:D; [|auto]. split; [now left|]. unfold rk. cbn [h_del h_vm]. rewrite D. destruct (h_vm m); lia.
  - destruct (Nat.eqb (h_id m) i && h_del m && negb (h_vm m)); [discriminate|]. injection U as <-. auto.
Qed.

Lemma gone_step : forall c w x o, (x < k_next w)%nat -> (forall m, In m (k_ms w) -> h_id m <> x) -> forall m, In m (k_ms (hstep c w o)) -> h_id m <> x.
Proof.
  intros c w x o L G m I. rewrite step_ms in I. apply in_app_iff in I. destruct I as [I|I].
  - apply fmap_in in I. destruct I as (a & I & U). rewrite (upd_id _ _ _ _ _ U). now apply G.
  - apply created_h in I. lia.
Qed.
(* What becomes of machine x. *)
Lemma after : forall c w x o m, base w -> In m (k_ms w) -> h_id m = x ->
  match upd c w o m with
  | Some m' => In m' (k_ms (hstep c w o)) /\ h_id m' = x
  | None => forall m2, In m2 (k_ms (hstep c w o)) -> h_id m2 <> x
  end.
Proof.
  intros c w x o m B I E. destruct (upd c w o m) as [m'|] eqn:U.
  - split; [|now rewrite (upd_id _ _ _ _ _ U)]. rewrite step_ms. apply in_app_iff. left. apply fmap_in. exists m. auto.
  - intros m2 I2. rewrite step_ms in I2. apply in_app_iff in I2. destruct I2 as [I2|I2].
    + apply fmap_in in I2. destruct I2 as (a & Ia & Ua). intros X. assert (Ea := upd_id _ _ _ _ _ Ua). assert (a = m) as -> by (apply (unique_id w); auto; congruence). congruence.
    + apply created_h in I2. destruct B as (_ & L & _). rewrite Forall_forall in L. specialize (L _ I). cbv beta in L. lia.
Qed.
Lemma lvl_step : forall c w x k o, base w -> lvl c x k w -> stays_broken c x o -> lvl c x k (hstep c w o).
Proof.
  intros c w x k o B (L & H) S. split; [rewrite step_next; lia|]. destruct H as [H|(m & I & E & T & R)]; [left; now apply gone_step|].
  assert (A := after c w x o m B I E). destruct (upd c w o m) as [m'|] eqn:U; [right|now left]. destruct A as (A1 & A2).
  destruct (upd_rank c w x o m m' B I E T S U) as (T' & R'). exists m'. repeat split; auto. lia.
Qed.
Lemma lvl_forward : forall c w x k o, base w -> (k < 5)%nat -> lvl c x k w -> stays_broken c x o -> forward c x w o -> lvl c x (S k) (hstep c w o).
Proof.
  intros c w x k o B K (L & H) S F. split; [rewrite step_next; lia|]. destruct H as [H|(m & I & E & T & R)]; [left; now apply gone_step|].
  assert (G : good m) by (destruct B as (_ & _ & G); rewrite Forall_forall in G; now apply G).
  assert (A := after c w x o m B I E).
  assert (Un : forall P, has w x P -> P m) by (intros P (m2 & I2 & E2 & P2); rewrite (unique_id w m m2 B I I2); congruence).
  destruct o as [d|i a|i s p ok|i ph vm|api v|i|i|i|i]; cbn [forward] in F; try contradiction.
  - destruct F as (-> & -> & F). right. destruct (upd c w (HPass x s p true) m) as [m'|] eqn:U; [|discriminate]. destruct A as (A1 & A2).
    destruct (upd_rank c w x _ m m' B I E T S U) as (T' & R'). exists m'. split; [exact A1|]. split; [exact A2|]. split; [exact T'|].
    cbn in U. rewrite E, Nat.eqb_refl in U. injection U as <-. destruct (pass_id c (k_now w) s p true m) as (_ & _ & Pd & _).
    destruct F as [F|(F1 & -> & F2 & F3)].
    + apply Un in F. cbv beta in F. destruct F as (D & P). destruct T as [T|(Br & _)]; [congruence|].
      assert (Q := pass_notices c (k_now w) s p m G D Br P). clear R'. unfold rk. unfold rk in R. rewrite D, P in R. rewrite Pd, D, Q. cbn in *. lia.
    + apply Un in F1, F3. cbv beta in F1, F3. destruct F1 as (D & P), F3 as (N & T1 & T2). destruct T as [T|(Br & _)]; [congruence|].
      assert (Q : h_phase (pass c (k_now w) s true true m) = "Failed").
      { apply pass_fails; auto; [now apply canMark_spec|]. destruct P as [P|P]; [left|right]; auto. }
      clear R'. unfold rk. unfold rk in R. rewrite D in R. rewrite Pd, D, Q. destruct P as [P|P]; rewrite P in R; cbn in *; lia.
  - destruct F as (F & -> & Da). right. destruct (upd c w (HSet api (seen_now w)) m) as [m'|] eqn:U; [|discriminate]. destruct A as (A1 & A2).
    destruct (upd_rank c w x _ m m' B I E T S U) as (T' & R'). exists m'. split; [exact A1|]. split; [exact A2|]. split; [exact T'|].
    apply Un in F. cbv beta in F. destruct F as (D & P). cbn in U. injection U as <-.
    remember (manageReplicas (k_spec w) (k_frozen w) (seen_now w)) as pl.
    assert (St : In (asMach m) (pl_stale pl)).
    { assert (Q : pl_stale pl = filter isStale (seen_now w)) by (rewrite Heqpl; unfold manageReplicas; destruct (_ <? 0); [|destruct (_ >? 0)]; reflexivity).
      rewrite Q. apply filter_In. split; [rewrite seen_now_as; now apply in_map|]. rewrite stale_as, P. reflexivity. }
    destruct (find (fun t => Nat.eqb (m_id t) (h_id m)) (pl_stale pl ++ pl_surplus pl)) as [t|] eqn:Fd.
    2:{ exfalso. assert (X := find_none _ _ Fd (asMach m)). cbn in X. rewrite Nat.eqb_refl in X. assert (true = false); [|discriminate]. apply X. apply in_app_iff. now left. }
    assert (Et : t = asMach m).
    { apply find_some in Fd. destruct Fd as (Fi & Fe). apply Nat.eqb_eq in Fe. assert (Iv : In t (seen_now w)).
      { rewrite Heqpl in Fi. unfold manageReplicas in Fi.
        destruct (_ <? 0); [|destruct (_ >? 0)]; cbn [pl_stale pl_surplus] in Fi; rewrite ?app_nil_r in Fi; try (apply filter_In in Fi; now destruct Fi).
        apply in_app_iff in Fi. destruct Fi as [Fi|Fi]; [apply filter_In in Fi; now destruct Fi|].
        unfold getMachinesToDelete in Fi. apply firstn_in in Fi.
        assert (Fi2 : In t (filter isActive (seen_now w))) by (destruct (Nat.ltb _ _); [now apply Sort.isort_in in Fi|exact Fi]). apply filter_In in Fi2. now destruct Fi2. }
      rewrite seen_now_as in Iv. apply in_map_iff in Iv. destruct Iv as (m2 & <- & I2). cbn in Fe. f_equal. symmetry. apply (unique_id w); auto. }
    rewrite Et. cbn [asMach m_deleting]. rewrite D. unfold hTerminate. unfold rk. cbn [h_del h_vm]. rewrite E, Da, orb_true_r.
    unfold rk in R. rewrite D, P in R. cbn in R. destruct (h_vm m); lia.
  - destruct F as (-> & F). apply Un in F. cbv beta in F. destruct F as (D & V). right. cbn in A. rewrite E, Nat.eqb_refl in A. destruct A as (A1 & A2). rewrite D in A1.
    eexists. split; [exact A1|]. split; [reflexivity|]. split; [left; reflexivity|]. unfold rk in *. cbn. rewrite D, V in R. lia.
  - destruct F as (-> & F). apply Un in F. cbv beta in F. destruct F as (D & V). left. cbn [upd] in A. rewrite E, Nat.eqb_refl, D, V in A. exact A.
Qed.
Lemma replaced : forall c x n l w k, base w -> lvl c x k w -> (k + n = 5)%nat -> Forall (stays_broken c x) l -> Forall proper_op l -> forwarded c x n w l ->
  forall m, In m (k_ms (hrun c w l)) -> h_id m <> x.
Proof.
  intros c x n l. revert n. induction l as [|o l IH]; intros n w k B L K S P F.
  - destruct n; [|contradiction]. assert (k = 5%nat) by lia. subst k. destruct L as (_ & [L|(m & _ & _ & _ & R)]); [exact L|]. assert (X := rk_le m). lia.
  - inversion S as [|? ? S1 S2]; inversion P as [|? ? P1 P2]; subst. cbn. assert (B' := base_step c w o P1 B).
    destruct n as [|n]; cbn in F.
    + apply (IH O _ k); auto; [now apply lvl_step|]. destruct l; exact Logic.I.
    + destruct F as [(F1 & F2)|F].
      * apply (IH n _ (Datatypes.S k)); auto; [|lia]. apply lvl_forward; auto. lia.
      * apply (IH (Datatypes.S n) _ k); auto. now apply lvl_step.
Qed.

(* ---- replaced in the same pass ---- *)
Lemma created_servingh : forall now n from, cnt (fun m => servingb (asMach m)) (hCreated now from n) = Z.of_nat n.
Proof. intros now n. induction n as [|n IH]; intros from; [reflexivity|]. specialize (IH (Datatypes.S from)). unfold cnt in *. cbn [hCreated filter]. change (servingb (asMach (mkHM from false noStatus false false NodeMissing now))) with true. cbn [List.length]. lia. Qed.
Lemma same_pass : forall c w api, base w -> k_frozen w = false -> nserving (seen_now w) <= k_spec w <= nserving (seen_now w) + 100 ->
  (forall i, a_create api i = true) ->
  let w' := hstep c w (HSet api (seen_now w)) in
  nserving (seen_now w') = k_spec w /\
  (forall m, In m (k_ms w) -> h_phase m = "Failed" -> h_del m = false -> a_delete api (h_id m) = true ->
     has w' (h_id m) (fun m' => h_del m' = true /\ (h_phase m' = "Failed" \/ h_phase m' = "Terminating"))) /\
  (forall m, In m (k_ms w) -> h_phase m <> "Failed" -> h_marked m = false -> In m (k_ms w')).
Proof.
  intros c w api B Fr (L & L2) A w'. unfold w'. split; [|split].
  - rewrite nserving_seen, step_ms, cnt_app, created_servingh.
    assert (E : cnt (fun m => servingb (asMach m)) (fmap (upd c w (HSet api (seen_now w))) (k_ms w)) = nserving (seen_now w)).
    { rewrite nserving_seen. assert (Q : forall m, In m (k_ms w) -> exists m', upd c w (HSet api (seen_now w)) m = Some m' /\ servingb (asMach m') = servingb (asMach m)).
      { intros m I. rewrite (set_upd c w api m B L I). eexists. split; [reflexivity|]. destruct (isStale (asMach m)) eqn:S; [|reflexivity].
        rewrite (stale_not_serving _ S). rewrite stale_as in S. rewrite serving_as. destruct (term_id api (k_now w) (h_del m) m) as (_ & M & _). rewrite M.
        apply orb_true_iff in S. destruct S as [S|S]; [|rewrite S; apply andb_false_r]. unfold hTerminate. destruct (h_del m); [now rewrite S|]. unfold h_phase. cbn. destruct (a_status api (h_id m)); [reflexivity|]. unfold h_phase in S. now rewrite S. }
      clear - Q. induction (k_ms w) as [|m l IH]; [reflexivity|]. assert (IH' := IH (fun a I => Q a (or_intror I))). clear IH. destruct (Q m (or_introl eq_refl)) as (m' & U & S).
      unfold cnt in *. cbn [fmap filter]. rewrite U. cbn [filter]. rewrite S. destruct (servingb (asMach m)); cbn [List.length]; lia. }
    rewrite E. cbn [made]. destruct (slowStartBatch _ _ _) as ((cc, s), e) eqn:Sl. cbn [fst snd]. apply slow_start in Sl. destruct Sl as (S1 & S2 & S3 & S4).
    assert (C := plan_create (k_spec w) (k_frozen w) (seen_now w)). rewrite Fr in C. destruct e.
    + destruct (S4 eq_refl) as (d & b & _ & _ & _ & (i & _ & F) & _). rewrite A in F. discriminate.
    + destruct (S3 eq_refl) as (_ & ->). rewrite Fr. lia.
  - intros m I P D Da. assert (Af := after c w (h_id m) (HSet api (seen_now w)) m B I eq_refl). rewrite (set_upd c w api m B L I) in Af.
    rewrite stale_as, P in Af. cbn [String.eqb Ascii.eqb Bool.eqb orb] in Af. destruct Af as (Af & _). eexists. split; [exact Af|]. split; [apply term_id|].
    unfold hTerminate. rewrite D. unfold h_phase. cbn [h_del h_st]. rewrite Da, orb_true_r. split; [reflexivity|]. destruct (a_status api (h_id m)); [now right|left; exact P].
  - intros m I P M. assert (Af := after c w (h_id m) (HSet api (seen_now w)) m B I eq_refl). rewrite (set_upd c w api m B L I) in Af.
    rewrite stale_as, M in Af. apply String.eqb_neq in P. rewrite P in Af. exact (proj1 Af).
Qed.

(* ---- one failed delete call ---- *)
Definition stuck (c : HConf) (x y : nat) (w : HW) : Prop :=
  base w /\ J (Nat.eqb x) w /\
  has w x (fun m => h_del m = false /\ h_marked m = false /\ h_phase m = "Terminating" /\ h_vm m = true /\ broken c (h_node m)) /\
  has w y (fun m => h_del m = false /\ h_marked m = false /\ h_phase m = "Unknown" /\ h_vm m = true /\ broken c (h_node m)).
Lemma stuck_upd : forall c w x y z ph o m, base w -> nserving (seen_now w) <= k_spec w -> In "Terminating" (phases_of w) -> on_its_own c x y w o -> (z = x \/ z = y) ->
  In m (k_ms w) -> h_id m = z -> ph = "Terminating" \/ ph = "Unknown" ->
  (h_del m = false /\ h_marked m = false /\ h_phase m = ph /\ h_vm m = true /\ broken c (h_node m)) ->
  exists m', upd c w o m = Some m' /\ h_del m' = false /\ h_marked m' = false /\ h_phase m' = ph /\ h_vm m' = true /\ broken c (h_node m').
Proof.
  intros c w x y z ph o m B L Te O Z I Ez Ph (D & M & P & V & Br).
  assert (G : good m) by (destruct B as (_ & _ & G); rewrite Forall_forall in G; now apply G).
  destruct o as [d|i a|i s p ok|i ph' vm|api v|i|i|i|i]; cbn [on_its_own] in O.
  - exists m. split; [reflexivity|]. repeat split; assumption.
  - cbn. eexists. split; [reflexivity|]. destruct (Nat.eqb (h_id m) i) eqn:E; [|repeat split; assumption]. apply Nat.eqb_eq in E. destruct O as (_ & O). repeat split; try assumption. apply O. destruct Z; [left|right]; congruence.
  - cbn. eexists. split; [reflexivity|]. destruct (Nat.eqb (h_id m) i) eqn:E; [|repeat split; assumption]. destruct (pass_id c (k_now w) s p ok m) as (_ & Pm & Pd & Pv & Pn). rewrite Pm, Pd, Pv, Pn. repeat split; auto.
    destruct (pass_cases c (k_now w) s p ok m G D) as [Q|(_ & _ & [(Q & _)|[(_ & Q)|[(Q & Q1 & _)|[(Q & Q1 & _)|(Q & Q1 & _ & _ & _ & Q2)]]]])].
    + unfold h_phase. now rewrite Q.
    + congruence.
    + exfalso. destruct (h_node m); cbn in *; auto.
    + exfalso. destruct Ph; congruence.
    + exfalso. destruct Ph; congruence.
    + exfalso. subst s. destruct (Q2 _ Te); discriminate.
  - cbn. eexists. split; [reflexivity|]. destruct (Nat.eqb (h_id m) i); [|repeat split; assumption]. replace (negb (h_del m) && _ && _) with false; [repeat split; assumption|]. rewrite D, P. destruct Ph as [->| ->]; reflexivity.
  - destruct O as (-> & _). rewrite (set_upd c w api m B L I). eexists. split; [reflexivity|]. replace (isStale (asMach m)) with false; [repeat split; assumption|]. rewrite stale_as, M, P. destruct Ph as [->| ->]; reflexivity.
  - contradiction.
  - cbn. rewrite D. eexists. split; [reflexivity|]. destruct (Nat.eqb (h_id m) i); repeat split; assumption.
  - cbn. rewrite D. eexists. split; [reflexivity|]. destruct (Nat.eqb (h_id m) i); repeat split; assumption.
  - cbn. rewrite D, andb_false_r. cbn. eexists. split; [reflexivity|]. repeat split; assumption.
Qed.
Lemma stuck_step : forall c x y w o, x <> y -> stuck c x y w -> on_its_own c x y w o -> stuck c x y (hstep c w o).
Proof.
  intros c x y w o Ne (B & JJ & Hx & Hy) O.
  assert (X : forall m, In m (k_ms w) -> Nat.eqb x (h_id m) = true -> servingb (asMach m) = false).
  { intros m I E. apply Nat.eqb_eq in E. destruct Hx as (mx & Ix & Ex & _ & _ & Px & _). assert (m = mx) as -> by (apply (unique_id w); auto; congruence). rewrite serving_as, Px. reflexivity. }
  assert (L := J_serving _ w JJ X). assert (F : fine w o) by (unfold fine; destruct o; cbn in O |- *; repeat split; try exact Logic.I; try contradiction; destruct O; assumption).
  assert (Te : In "Terminating" (phases_of w)) by (destruct Hx as (mx & Ix & _ & _ & _ & Px & _); unfold phases_of; rewrite <- Px; now apply in_map).
  split; [apply base_step; [apply F|exact B]|]. split.
  - apply J_step; auto. intros n Hn. apply Nat.eqb_neq. destruct Hx as (mx & Ix & Ex & _). destruct B as (_ & Lt & _). rewrite Forall_forall in Lt. specialize (Lt _ Ix). cbv beta in Lt. lia.
  - split.
    + destruct Hx as (m & I & E & H). destruct (stuck_upd c w x y x "Terminating" o m B L Te O (or_introl eq_refl) I E (or_introl eq_refl) H) as (m' & U & H').
      assert (A := after c w x o m B I E). rewrite U in A. destruct A as (A1 & A2). exists m'. split; [exact A1|]. split; [exact A2|exact H'].
    + destruct Hy as (m & I & E & H). destruct (stuck_upd c w x y y "Unknown" o m B L Te O (or_intror eq_refl) I E (or_intror eq_refl) H) as (m' & U & H').
      assert (A := after c w y o m B I E). rewrite U in A. destruct A as (A1 & A2). exists m'. split; [exact A1|]. split; [exact A2|exact H'].
Qed.
Lemma stuck_run : forall c x y l w, x <> y -> stuck c x y w -> hEach c (on_its_own c x y) w l -> stuck c x y (hrun c w l).
Proof. intros c x y l. induction l as [|o l IH]; intros w N S H; [exact S|]. destruct H as (O & H). cbn. apply IH; auto. now apply stuck_step. Qed.

(* ---- the VM goes first ---- *)
Lemma vm_first : forall c x l w, has w x (fun _ => True) -> (forall m, In m (k_ms (hrun c w l)) -> h_id m <> x) ->
  exists a b, l = a ++ HGone x :: b /\ has (hrun c w a) x (fun m => h_del m = true /\ h_vm m = false).
Proof.
  intros c x. induction l as [|o l IH]; intros w (m & I & E & _) G.
  - exfalso. now apply (G m I).
  - destruct (upd c w o m) as [m'|] eqn:U.
    + destruct (IH (hstep c w o)) as (a & b & -> & H).
      * exists m'. split; [|split; [now rewrite (upd_id _ _ _ _ _ U)|exact Logic.I]]. rewrite step_ms. apply in_app_iff. left. apply fmap_in. exists m. auto.
      * exact G.
      * exists (o :: a), b. split; [reflexivity|exact H].
    + destruct o; cbn [upd] in U; try discriminate. destruct (Nat.eqb (h_id m) i && h_del m && negb (h_vm m)) eqn:C; [|discriminate].
      apply andb_true_iff in C. destruct C as (C & V). apply andb_true_iff in C. destruct C as (C & D). apply Nat.eqb_eq in C. apply negb_true_iff in V. subst i. rewrite E in *.
      exists [], l. split; [reflexivity|]. exists m. auto.
Qed.
