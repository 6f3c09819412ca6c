(** Proofs about the time a creation takes. *)
Require Import Coq.ZArith.ZArith Coq.Lists.List Coq.Strings.String Coq.Bool.Bool Coq.NArith.NArith Coq.Arith.PeanoNat Coq.micromega.Lia Coq.micromega.ZifyBool.
From Verif Require Import CodesModel MachModel LevModel HealthModel LifeModel LifeSpec LifeProofs CreaSpec LiveSpec LiveProofs JoinSpec JoinProofs SoonModel SoonSpec SoonProofs GoneModel GoneSpec ComeModel ComeSpec.
Import ListNotations.
Open Scope string_scope.
Open Scope list_scope.
Open Scope Z_scope.

Definition isWrite (c : Call) : option MObj := match c with WMeta x | WStatus x => Some x | _ => None end.
Definition mergeOf (c : Call) : MObj -> MObj -> MObj := match c with WMeta _ => mergeMeta | _ => mergeStatus end.

(** ** What the rest of a reconcile does *)

(** No writes any more. *)
Fixpoint tail (p : rprog) : Prop :=
  match p with
  | RDone _ _ => True
  | RPanic | RLater _ _ => False
  | RDo c k => isWrite c = None /\ forall r, tail (k r)
  end.

(** All writes carry resource version [n], and are rejected. *)
Fixpoint lame (cf : Cfg) (n : nat) (p : rprog) : Prop :=
  match p with
  | RDone _ _ | RPanic => True
  | RLater _ p => lame cf n p
  | RDo c k =>
      match isWrite c with
      | Some x => mo_rv x = n /\ forall e, lame cf n (k (RErr e))
      | None => forall up r, answers cf up c r -> lame cf n (k r)
      end
  end.

(** The same, and the machine is looked at again soon. *)
Fixpoint stale (cf : Cfg) (n : nat) (pend : bool) (p : rprog) : Prop :=
  match p with
  | RDone d _ => d <= 5000
  | RPanic => False
  | RLater d p => pend = true /\ d <= 60000 /\ tail p
  | RDo c k =>
      match isWrite c with
      | Some x => mo_rv x = n /\ forall e, stale cf n pend (k (RErr e))
      | None => forall up r, answers cf up c r -> stale cf n pend (k r)
      end
  end.

(** A machine that has come up. *)
Definition landed (m : MObj) : Prop :=
  mo_dt m = None /\ phase m = "Running" /\ hasFin m = true /\ recorded m /\ nodeName m <> "" /\ NoDup (map nc_type (ms_conds (mo_status m))).

(** It stays up. *)
Fixpoint keeps (cf : Cfg) (o : MObj) (p : rprog) : Prop :=
  match p with
  | RDone _ _ | RPanic => True
  | RLater _ p => keeps cf o p
  | RDo c k =>
      match isWrite c with
      | Some x => mo_rv x = mo_rv o /\ mo_uid x = mo_uid o /\
          (o = mergeOf c o x -> keeps cf o (k (RObj o))) /\
          (o <> mergeOf c o x -> forall n, landed (withRv n (mergeOf c o x)) /\ lame cf (mo_rv o) (k (RObj (withRv n (mergeOf c o x)))))
      | None => forall r, answers cf true c r -> keeps cf o (k r)
      end
  end.

(** ** Versions carried by writes *)
Lemma tail_lame cf n p : tail p -> lame cf n p.
Proof. induction p as [d f| |d p IH|c k IH]; cbn; auto; try contradiction. intros [E T]. rewrite E. intros up r _. apply IH, T. Qed.

Lemma stale_lame cf n p : stale cf n false p -> lame cf n p.
Proof.
  induction p as [d f| |d p IH|c k IH]; cbn; auto; try contradiction.
  - intros (Q & _). discriminate Q.
  - destruct (isWrite c); [intros [A1 A2]; split; auto|]. intros A up r Q. apply IH, (A up), Q.
Qed.
Lemma lame_done cf n r d f : lame cf n (written r (RDone d f)).
Proof. destruct r; exact Logic.I. Qed.
Lemma lame_status cf m d c s t cur lks x f : lame cf (mo_rv m) (rStatusUpdate m d c s t cur lks x f).
Proof.
  unfold rStatusUpdate. cbn [lame isWrite]. intros up r _. destruct r; try exact Logic.I. destruct (machineStatusUpdate _ _ _ _ _); [|exact Logic.I].
  cbn [lame isWrite]. split; [reflexivity|]. intros e. apply lame_done.
Qed.
Lemma lame_init cf n m : lame cf n (rInitializeMachine cf m).
Proof.
  unfold rInitializeMachine. cbn [lame isWrite]. intros up r A. cbn in A. destruct A as [(a & b & c & ->)|(t & rs & msg & -> & F)]; [exact Logic.I|].
  rewrite F. exact Logic.I.
Qed.
Lemma lame_finish cf m u node pid : lame cf (mo_rv m) (rFinishCreation cf m u node pid).
Proof.
  unfold rFinishCreation. destruct (_ || _ || _).
  - cbn [lame isWrite]. split; [reflexivity|]. intros e. destruct u; [apply lame_init|exact Logic.I].
  - destruct u; [apply lame_init|]. unfold rSetPending. destruct (_ || _); [|exact Logic.I]. cbn [lame isWrite]. intros up r _.
    destruct r; try exact Logic.I. cbn [lame isWrite]. split; [reflexivity|]. intros e. exact Logic.I.
Qed.
Lemma lame_creation cf m : lame cf (mo_rv m) (rCreationIfNeeded cf m).
Proof.
  unfold rCreationIfNeeded. destruct (_ || _ || _); [|exact Logic.I]. unfold rTriggerCreationFlow. cbn [lame isWrite].
  intros up r A. cbn in A. subst r. cbn [lame isWrite]. intros up' r A. destruct r; try exact Logic.I; [apply lame_finish|].
  destruct (FromError _) as [st ok]. destruct (negb ok); [exact Logic.I|]. destruct (_ || _).
  { destruct (has _ _); [apply lame_finish|]. unfold rCreateVM. cbn [lame isWrite]. intros up2 r B. cbn in B. destruct B as (n & p & l & -> & _).
    cbn [lame isWrite]. intros up3 r B. cbn in B. subst r. cbn [andb]. apply lame_finish. }
  destruct (N.eqb _ _); [destruct resp as [[[a b] c]|]; [apply lame_finish|exact Logic.I]|]. apply lame_status.
Qed.
Lemma lame_machine cf m : lame cf (mo_rv m) (rReconcileMachine cf m).
Proof.
  unfold rReconcileMachine. cbn [lame isWrite]. intros up r A. cbn in A. subst r. cbn [lame isWrite]. intros up' r A. cbn in A. subst r.
  destruct (negb (hasFin m)). { cbn [lame isWrite]. split; [reflexivity|]. intros e. exact Logic.I. }
  destruct (_ && _); [|apply lame_creation]. unfold rHealthThenCreate. cbn [lame isWrite]. intros up2 r _. destruct r; try exact Logic.I.
  cbn [lame isWrite]. intros up3 r _. destruct r; try exact Logic.I.
  assert (GO : lame cf (mo_rv m) (RDo (CSync m) (fun r => match r with RUnit => rCreationIfNeeded cf m | _ => written r (RDone ShortRetry true) end))).
  { cbn [lame isWrite]. intros up4 r A. cbn in A. subst r. apply lame_creation. }
  destruct (reconcileMachineHealth _ _ _ _ _ _ _); try exact Logic.I; try exact GO.
  - cbn [lame isWrite]. split; [reflexivity|]. intros e. apply lame_done.
  - cbn [lame isWrite]. intros up4 r _. destruct r as [| | |[]| | | | | |]; try exact Logic.I. cbn [lame isWrite]. split; [reflexivity|]. intros e. exact Logic.I.
Qed.

(** ** Stays up *)
Lemma healthy_back bad old new : nodeConditionsHaveChanged old new = false -> isHealthy bad old = true -> isHealthy bad new = true.
Proof.
  intros C H. unfold nodeConditionsHaveChanged in C. apply orb_false_iff in C. destruct C as (C1 & C2).
  destruct new as [|x new].
  - exfalso. destruct old as [|o old]; [discriminate|]. cbn in C2. discriminate.
  - unfold isHealthy in *. apply forallb_forall. intros c Hc.
    destruct (byType (nc_type c) old) as [o|] eqn:B.
    + destruct (jn_bytype _ _ _ B) as (O1 & O2).
      assert (Q : nc_status o = nc_status c).
      { destruct (String.eqb_spec (nc_status o) (nc_status c)) as [|n]; [assumption|exfalso].
        assert (X : existsb (fun c0 => match byType (nc_type c0) old with Some o => negb (String.eqb (nc_status o) (nc_status c0)) | None => true end) (x :: new) = true); [|congruence].
        apply existsb_exists. exists c. split; [exact Hc|]. rewrite B. apply negb_true_iff, String.eqb_neq. exact n. }
      destruct old as [|o0 old]; [destruct O1|]. rewrite forallb_forall in H. specialize (H o O1). rewrite O2, Q in H. exact H.
    + exfalso. assert (X : existsb (fun c0 => match byType (nc_type c0) old with Some o => negb (String.eqb (nc_status o) (nc_status c0)) | None => true end) (x :: new) = true); [|congruence].
      apply existsb_exists. exists c. rewrite B. auto.
Qed.

Lemma landed_keeps cf o : landed o -> keeps cf o (rReconcileMachine cf o).
Proof.
  intros (D & P & F & R & N & ND). unfold rReconcileMachine. cbn [keeps isWrite]. intros r A. cbn in A. subst r. cbn [keeps isWrite]. intros r A. cbn in A. subst r.
  rewrite F. cbn [negb]. pose proof N as NB. apply String.eqb_neq in NB. rewrite NB, P. cbn [negb andb String.eqb]. unfold rHealthThenCreate. cbn [keeps isWrite].
  intros r (a & -> & CL & J). destruct (proj2 J eq_refl) as (conds & -> & HH). cbn in CL.
  cbn [keeps isWrite]. intros r _. destruct r; try exact Logic.I.
  assert (GO : keeps cf o (RDo (CSync o) (fun r => match r with RUnit => rCreationIfNeeded cf o | _ => written r (RDone ShortRetry true) end))).
  { cbn [keeps isWrite]. intros r A. cbn in A. subst r. unfold rCreationIfNeeded. destruct R as (_ & _ & R). apply String.eqb_neq in R. rewrite R, P. exact Logic.I. }
  unfold reconcileMachineHealth. rewrite P. cbn [negb andb orb String.eqb Ascii.eqb Bool.eqb].
  set (cs := if nodeConditionsHaveChanged (ms_conds (mo_status o)) conds then conds else ms_conds (mo_status o)).
  assert (CS : isHealthy (cf_bad cf) cs = true /\ NoDup (map nc_type cs)).
  { unfold cs. destruct (nodeConditionsHaveChanged _ conds) eqn:X; [auto|]. split; [|exact ND]. apply (jn_same_health (cf_bad cf) _ conds ND X HH). }
  destruct CS as [CS NC]. rewrite CS. destruct (nodeConditionsHaveChanged _ _); [|exact GO].
  cbn [keeps isWrite]. split; [reflexivity|]. split; [reflexivity|]. split; [intros _; exact Logic.I|]. intros _ n. split; [|exact Logic.I].
  split; [exact D|]. split; [exact P|]. split; [exact F|]. split; [exact R|]. split; [exact N|exact NC].
Qed.

(** ** The way up *)
Section Reconcile.
Variables (cf : Cfg) (base : Z).

(** A machine on its way: new, with its VM recorded, or waiting for its node since [base] at the earliest. *)
Definition fit (m : MObj) : Prop :=
  mo_dt m = None /\
  ((phase m = "" /\ ms_conds (mo_status m) = [] /\ (get "node" (mo_labels m) = None \/ hasFin m = true /\ recorded m /\ nodeName m <> "")) \/
   (phase m = "Pending" /\ hasFin m = true /\ recorded m /\ nodeName m <> "" /\ NoDup (map nc_type (ms_conds (mo_status m))) /\
    base <= cs_time (ms_cur (mo_status m)))).
Definition rank (m : MObj) : nat :=
  if String.eqb (phase m) "Pending" then 1 else if negb (hasFin m) then 4 else if has "node" (mo_labels m) then 2 else 3.

(** After a write that changed [v] to [y]. *)
Definition next (b s : bool) (v y : MObj) (p : rprog) : Prop :=
  stale cf (mo_rv v) false p /\
  (landed y /\ s = true \/ fit y /\ (S (rank y) = rank v \/ b = false /\ rank y = 1%nat /\ rank v = 1%nat)).

(** What a reconcile does whose writes are based on [v]. [b]: VM and node were up when it began; [s]: they are now. *)
Fixpoint safe (b s : bool) (v : MObj) (p : rprog) (tm : Z) : Prop :=
  match p with
  | RDone d _ => b = false /\ d <= 5000
  | RPanic => False
  | RLater d p => b = false /\ d <= 60000 /\ tail p /\ phase v = "Pending"
  | RDo c k =>
      match isWrite c with
      | Some x => mo_rv x = mo_rv v /\ mo_uid x = mo_uid v /\ v <> mergeOf c v x /\
          forall n, next b s v (withRv n (mergeOf c v x)) (k (RObj (withRv n (mergeOf c v x))))
      | None => match c with
                | CNow => forall t, tm <= t <= base + cf_creation cf -> safe b s v (k (RTime t)) t
                | _ => forall up r, (b = true -> up = true) -> (s = true -> up = true) -> answers cf up c r -> safe b up v (k r) tm
                end
      end
  end.

Lemma written_short n pend e d f : d <= 5000 -> stale cf n pend (written (RErr e) (RDone d f)).
Proof. intros L. cbn. destruct (isConflict _); unfold ConflictRetry, ShortRetry; lia. Qed.
Ltac sh := cbn; unfold ShortRetry; lia.

Lemma stale_init n m : stale cf n false (rInitializeMachine cf m).
Proof.
  unfold rInitializeMachine. cbn [stale isWrite]. intros up r A. cbn in A. destruct A as [(a & b & c & ->)|(t & rs & msg & -> & F)]; [sh|].
  rewrite F. sh.
Qed.

Lemma status_ans m up r : answers cf up (CGetStatus m) r ->
  (exists n p l, r = POk n p l /\ n <> "" /\ p <> "") \/
  (up = false /\ exists t n p l st, r = PFail t (Some (n, p, l)) /\ n <> "" /\ p <> "" /\ FromError t = (st, true) /\ s_code st = cUninitialized) \/
  (exists t rs st, r = PFail t rs /\ FromError t = (st, true) /\ (N.eqb (s_code st) cNotFound || N.eqb (s_code st) cUnimplemented)%bool = true /\ (get "node" (mo_labels m) = None \/ recorded m)).
Proof.
  intros [A|[(U & t & n & p & l & E & Hn & Hp & F)|(U & K)]]; [now left| |].
  - right. left. split; [exact U|]. destruct F as (t' & rs & msg & E' & F). rewrite E in E'. injection E' as <- <-. exists t, n, p, l. eexists. repeat split; try eassumption; reflexivity.
  - right. right. destruct U as [(t & rs & msg & EQ & FE)|(t & rs & msg & EQ & FE)]; exists t, rs; eexists; (split; [exact EQ|]; split; [exact FE|]; split; [reflexivity|exact K]).
Qed.

(** The end of the creation flow. *)
Lemma stale_finish v u node pid : phase v = "" -> stale cf (mo_rv v) false (rFinishCreation cf v u node pid).
Proof.
  intros P. unfold rFinishCreation. destruct (_ || _ || _).
  - cbn [stale isWrite]. split; [reflexivity|]. intros e. destruct u; [apply stale_init|sh].
  - destruct u; [apply stale_init|]. unfold rSetPending. rewrite P. cbn [String.eqb orb stale isWrite]. intros up r _.
    destruct r; try sh. cbn [stale isWrite]. split; [reflexivity|]. intros e. sh.
Qed.

Lemma stale_machine v : fit v -> stale cf (mo_rv v) (String.eqb (phase v) "Pending") (rReconcileMachine cf v).
Proof.
  intros (D & FT). unfold rReconcileMachine. cbn [stale isWrite]. intros up r A. cbn in A. subst r. cbn [stale isWrite]. intros up' r A. cbn in A. subst r.
  destruct (hasFin v) eqn:HF; cbn [negb]. 2:{ cbn [stale isWrite]. split; [reflexivity|]. intros e. sh. }
  destruct FT as [(P & CO & K)|(P & _ & R & N & ND & T)].
  - rewrite P. cbn [String.eqb negb]. rewrite andb_false_r. unfold rCreationIfNeeded. rewrite P. cbn [String.eqb]. rewrite orb_true_r. cbn [orb].
    unfold rTriggerCreationFlow. cbn [stale isWrite]. intros up2 r A. cbn in A. subst r. cbn [stale isWrite]. intros up3 r A.
    destruct (status_ans _ _ _ A) as [(n & p & l & -> & Hn & Hp)|[(U & t & n & p & l & st & -> & Hn & Hp & F & CD)|(t & rs & st & -> & F & CD & K2)]].
    + apply stale_finish; auto.
    + rewrite F, CD. cbn [negb]. cbn. apply stale_finish; auto.
    + rewrite F, CD. cbn [negb]. destruct (has _ _); [apply stale_finish; auto|]. unfold rCreateVM. cbn [stale isWrite]. intros up4 r B. cbn in B. destruct B as (n & p & l & -> & _).
      cbn [stale isWrite]. intros up5 r B. cbn in B. subst r. cbn [andb]. apply stale_finish; auto.
  - pose proof N as NB. apply String.eqb_neq in NB. rewrite NB, P. cbn [String.eqb negb andb Ascii.eqb Bool.eqb]. unfold rHealthThenCreate. cbn [stale isWrite].
    intros up2 r (a & -> & CL & J). cbn [stale isWrite]. intros up3 r _. destruct r; try sh.
    assert (GO : tail (RDo (CSync v) (fun r => match r with RUnit => rCreationIfNeeded cf v | _ => written r (RDone ShortRetry true) end))).
    { cbn [tail isWrite]. split; [reflexivity|]. intros r. assert (X : tail (rCreationIfNeeded cf v)). { unfold rCreationIfNeeded. destruct R as (_ & _ & R). apply String.eqb_neq in R. rewrite R, P. exact Logic.I. }
      destruct r; try exact Logic.I. exact X. }
    assert (WR : forall s, stale cf (mo_rv v) true (RDo (WStatus (withStatus s v)) (fun r => written r (RDone ShortRetry true)))).
    { intros s. cbn [stale isWrite]. split; [reflexivity|]. intros e. apply written_short. unfold ShortRetry. lia. }
    assert (LT : stale cf (mo_rv v) true (RLater sleepTime (RDo (CSync v) (fun r => match r with RUnit => rCreationIfNeeded cf v | _ => written r (RDone ShortRetry true) end)))).
    { cbn [stale]. split; [reflexivity|]. split; [unfold sleepTime; lia|exact GO]. }
    unfold reconcileMachineHealth. rewrite P. cbn [negb andb orb String.eqb Ascii.eqb Bool.eqb]. rewrite !andb_false_r.
    destruct a as [| |conds crit]; [sh| |].
    + destruct (0 <? _); [apply WR|exact LT].
    + destruct (isHealthy _ _).
      * destruct crit; cbn [negb]; [|apply WR]. destruct (nodeConditionsHaveChanged _ _); [apply WR|]. destruct (0 <? _); [apply WR|exact LT].
      * destruct (nodeConditionsHaveChanged _ _); [apply WR|]. destruct (0 <? _); [apply WR|exact LT].
Qed.

Lemma has_get m : has "node" (mo_labels m) = match get "node" (mo_labels m) with Some _ => true | None => false end.
Proof. reflexivity. Qed.

Lemma recorded_has m : recorded m -> has "node" (mo_labels m) = true.
Proof. intros (A & _). rewrite has_get. destruct (get _ _); [reflexivity|now contradict A]. Qed.

(** Node and VM get recorded. *)
Lemma safe_label b s v u node pid tm : fit v -> hasFin v = true -> get "node" (mo_labels v) = None -> phase v = "" -> node <> "" -> pid <> "" ->
  safe b s v (rFinishCreation cf v u node pid) tm.
Proof.
  intros (D & FT) HF G P Hn Hp. unfold rFinishCreation. rewrite has_get, G. cbn [negb orb safe isWrite mergeOf].
  destruct (jn_labelled v node pid Hp) as (L1 & L2).
  split; [reflexivity|]. split; [reflexivity|]. split.
  { intros E. destruct L1 as (L1 & _). apply L1. rewrite E in G. exact G. }
  intros n. split; [destruct u; [apply stale_init|sh]|]. right. split.
  - split; [exact D|]. left. split; [exact P|]. destruct FT as [(_ & CO & _)|(Q & _)]; [|congruence]. split; [exact CO|].
    right. split; [exact HF|]. split; [exact L1|]. change (nodeName (labelled v node pid) <> ""). rewrite L2. exact Hn.
  - left. unfold rank. change (phase (withRv n (mergeMeta v (labelled v node pid)))) with (phase v).
    change (hasFin (withRv n (mergeMeta v (labelled v node pid)))) with (hasFin v).
    change (mo_labels (withRv n (mergeMeta v (labelled v node pid)))) with (mo_labels (labelled v node pid)).
    rewrite (recorded_has _ L1), HF, P, has_get, G. reflexivity.
Qed.

(** The machine becomes Pending. *)
Lemma safe_pending b s v tm : base <= tm -> fit v -> hasFin v = true -> recorded v -> nodeName v <> "" -> phase v = "" -> safe b s v (rSetPending v) tm.
Proof.
  intros TM (D & FT) HF R N P. unfold rSetPending. rewrite P. cbn [String.eqb orb safe isWrite]. intros t LT. cbn [safe isWrite mergeOf].
  split; [reflexivity|]. split; [reflexivity|]. split.
  { intros E. assert (X : phase v = "Pending") by (rewrite E; reflexivity). congruence. }
  intros n. split; [sh|]. right. split.
  - split; [exact D|]. right. split; [reflexivity|]. split; [exact HF|]. split; [exact R|]. split; [exact N|]. split; [|cbn; lia].
    destruct FT as [(_ & CO & _)|(Q & _)]; [|congruence]. cbn. rewrite CO. constructor.
  - left. unfold rank. cbn [String.eqb]. rewrite HF, P, (recorded_has _ R). reflexivity.
Qed.

Lemma safe_machine b s v tm : base <= tm -> fit v -> safe b s v (rReconcileMachine cf v) tm.
Proof.
  intros TM FIT. pose proof FIT as (D & FT). unfold rReconcileMachine. cbn [safe isWrite]. intros u1 r B1 S1 A. cbn in A. subst r. cbn [safe isWrite]. intros u2 r B2 S2 A. cbn in A. subst r.
  destruct (hasFin v) eqn:HF; cbn [negb].
  2:{ cbn [safe isWrite mergeOf]. split; [reflexivity|]. split; [reflexivity|]. split.
      { intros E. assert (X : hasFin v = true) by (rewrite E; reflexivity). congruence. }
      destruct FT as [(P & CO & K)|(P & Q & _)]; [|congruence]. destruct K as [K|(Q & _)]; [|congruence].
      intros n. split; [sh|]. right. split; [split; [exact D|]; left; split; [exact P|]; split; [exact CO|]; left; exact K|].
      left. unfold rank. change (phase (withRv n (mergeMeta v (withFins (MCM :: mo_fins v) v)))) with (phase v). rewrite P, HF. cbn [String.eqb negb].
      change (has "node" (mo_labels (withRv n (mergeMeta v (withFins (MCM :: mo_fins v) v))))) with (has "node" (mo_labels v)). rewrite has_get, K. reflexivity. }
  destruct FT as [(P & CO & K)|(P & _ & R & N & ND & T)].
  - rewrite P. cbn [String.eqb negb]. rewrite andb_false_r. unfold rCreationIfNeeded. rewrite P. cbn [String.eqb]. rewrite orb_true_r. cbn [orb].
    unfold rTriggerCreationFlow. cbn [safe isWrite]. intros u3 r B3 S3 A. cbn in A. subst r. cbn [safe isWrite]. intros u4 r B4 S4 A.
    destruct K as [K|(_ & R & N)].
    + destruct (status_ans _ _ _ A) as [(n & p & l & -> & Hn & Hp)|[(U & t & n & p & l & st & -> & Hn & Hp & F & CD)|(t & rs & st & -> & F & CD & K2)]].
      * apply safe_label; auto.
      * rewrite F, CD. cbn [negb]. cbn. apply safe_label; auto.
      * rewrite F, CD, has_get, K. cbn [negb]. unfold rCreateVM. cbn [safe isWrite]. intros u5 r B5 S5 B. cbn in B. destruct B as (n & p & l & -> & Hn & Hp).
        cbn [safe isWrite]. intros u6 r B6 S6 B. cbn in B. subst r. cbn [andb]. apply safe_label; auto.
    + assert (FR : forall u node pid, rFinishCreation cf v u node pid = if u then rInitializeMachine cf v else rSetPending v).
      { intros u node pid. unfold rFinishCreation. pose proof R as RB. apply jn_rec in RB. rewrite RB. reflexivity. }
      destruct (status_ans _ _ _ A) as [(n & p & l & -> & Hn & Hp)|[(U & t & n & p & l & st & -> & Hn & Hp & F & CD)|(t & rs & st & -> & F & CD & K2)]].
      * rewrite FR. apply safe_pending; auto.
      * rewrite F, CD. cbn [negb]. cbn. rewrite FR. unfold rInitializeMachine. cbn [safe isWrite]. intros u5 r B5 S5 B. cbn in B.
        assert (BF : b = false) by (destruct b; [rewrite (B4 eq_refl) in U; discriminate|reflexivity]).
        destruct B as [(x & y & z & ->)|(t' & rs & msg & -> & F')]; [split; [exact BF|unfold ShortRetry; lia]|]. rewrite F'. cbn. split; [exact BF|unfold ShortRetry; lia].
      * rewrite F, CD, (recorded_has _ R). cbn [negb]. rewrite FR. apply safe_pending; auto.
  - pose proof N as NB. apply String.eqb_neq in NB. rewrite NB, P. cbn [String.eqb negb andb]. unfold rHealthThenCreate. cbn [safe isWrite].
    intros u3 r B3 S3 (a & -> & CL & J). cbn [safe isWrite]. intros t LT.
    assert (GO : tail (RDo (CSync v) (fun r => match r with RUnit => rCreationIfNeeded cf v | _ => written r (RDone ShortRetry true) end))).
    { cbn [tail isWrite]. split; [reflexivity|]. intros r. assert (X : tail (rCreationIfNeeded cf v)). { unfold rCreationIfNeeded. destruct R as (_ & _ & R). apply String.eqb_neq in R. rewrite R, P. exact Logic.I. }
      destruct r; try exact Logic.I. exact X. }
    assert (LATE : (0 <? t - cf_creation cf - cs_time (ms_cur (mo_status v))) = false) by lia.
    assert (BF : ~ joined cf a -> b = false). { intros NJ. destruct b; [|reflexivity]. exfalso. apply NJ, J, B3. reflexivity. }
    unfold reconcileMachineHealth. rewrite P. cbn [negb andb orb String.eqb Ascii.eqb Bool.eqb]. rewrite !andb_false_r, LATE.
    assert (WAIT : ~ joined cf a -> safe b u3 v (RLater sleepTime (RDo (CSync v) (fun r => match r with RUnit => rCreationIfNeeded cf v | _ => written r (RDone ShortRetry true) end))) t).
    { intros NJ. cbn [safe]. split; [auto|]. split; [unfold sleepTime; lia|]. split; [exact GO|exact P]. }
    destruct a as [| |conds crit].
    + cbn. split; [|unfold ShortRetry; lia]. apply BF. intros (c & E & _). discriminate E.
    + apply WAIT. intros (c & E & _). discriminate E.
    + cbn in CL. set (cs := if nodeConditionsHaveChanged (ms_conds (mo_status v)) conds then conds else ms_conds (mo_status v)).
      assert (NC : NoDup (map nc_type cs)). { unfold cs. destruct (nodeConditionsHaveChanged _ conds); assumption. }
      assert (JO : isHealthy (cf_bad cf) cs && negb crit = true <-> joined cf (NodeIs conds crit)).
      { split.
        - intros E. apply andb_true_iff in E. destruct E as [E1 E2]. destruct crit; [discriminate|]. exists conds. split; [reflexivity|].
          unfold cs in E1. destruct (nodeConditionsHaveChanged _ conds) eqn:X; [exact E1|]. exact (healthy_back _ _ _ X E1).
        - intros (c & E & H). injection E as <- ->. rewrite andb_true_r. unfold cs. destruct (nodeConditionsHaveChanged _ conds) eqn:X; [exact H|].
          exact (jn_same_health _ _ _ ND X H). }
      assert (CHG : ~ joined cf (NodeIs conds crit) -> nodeConditionsHaveChanged (ms_conds (mo_status v)) conds = true ->
        safe b u3 v (RDo (WStatus (withStatus (mkMS cs (ms_op (mo_status v)) (ms_cur (mo_status v)) (ms_lks (mo_status v))) v)) (fun r => written r (RDone ShortRetry true))) t).
      { intros NJ X. cbn [safe isWrite mergeOf]. split; [reflexivity|]. split; [reflexivity|]. split.
        - intros E. assert (Q : ms_conds (mo_status v) = cs) by (rewrite E at 1; reflexivity). unfold cs in Q. rewrite X in Q.
          rewrite Q in X. rewrite jn_unchanged in X by exact CL. discriminate X.
        - intros n. split; [sh|]. right. split.
          + split; [exact D|]. right. split; [exact P|]. split; [exact HF|]. split; [exact R|]. split; [exact N|]. split; [exact NC|exact T].
          + right. split; [auto|]. unfold rank. change (phase (withRv n (mergeStatus v (withStatus (mkMS cs (ms_op (mo_status v)) (ms_cur (mo_status v)) (ms_lks (mo_status v))) v)))) with (phase v).
            rewrite P. split; reflexivity. }
      destruct (isHealthy (cf_bad cf) cs) eqn:HC.
      * destruct crit; cbn [negb].
        -- assert (NJ : ~ joined cf (NodeIs conds true)) by (intros Q; apply JO in Q; discriminate Q).
           destruct (nodeConditionsHaveChanged _ _) eqn:X; [exact (CHG NJ eq_refl)|exact (WAIT NJ)].
        -- assert (JJ : joined cf (NodeIs conds false)) by (apply JO; reflexivity).
           cbn [safe isWrite mergeOf]. split; [reflexivity|]. split; [reflexivity|]. split.
           { intros E. assert (X : phase v = "Running") by (rewrite E; reflexivity). congruence. }
           intros n. split; [sh|]. left. split; [|apply J, JJ].
           split; [exact D|]. split; [reflexivity|]. split; [exact HF|]. split; [exact R|]. split; [exact N|exact NC].
      * assert (NJ : ~ joined cf (NodeIs conds crit)) by (intros Q; apply JO in Q; discriminate Q).
        destruct (nodeConditionsHaveChanged _ _) eqn:X; [exact (CHG NJ eq_refl)|exact (WAIT NJ)].
Qed.
End Reconcile.

(** ** Versions *)
Record Hist (w : GW) : Prop := mkHist {
  h_vers : forall v, In (Some v) (g_hist w) -> (mo_rv v < g_next w)%nat /\ forall o, g_obj w = Some o -> mo_rv v = mo_rv o -> v = o;
  h_view : In (z_view (g_z w)) (g_hist w);
  h_obj : In (g_obj w) (g_hist w) }.

Lemma hist_init now m : Hist (cinit now m).
Proof.
  split; cbn; try (left; reflexivity). intros v [E|[]]. injection E as <-. split; [lia|]. intros o E. injection E as <-. auto.
Qed.

Lemma step_view cf z op : (forall v, op <> ZSee v) -> z_view (zstep cf false z op) = z_view z.
Proof.
  intros N. unfold zstep. destruct (z_dead z); [reflexivity|]. destruct op as [d|v| | |r lim]; try reflexivity.
  - exfalso. exact (N v eq_refl).
  - unfold zAdd. destruct (z_queued z); reflexivity.
  - unfold zStart. destruct (z_run z); [reflexivity|]. destruct (z_queued z); [|reflexivity]. destruct (z_view z) as [m|] eqn:E; [|cbn; auto]. destruct (mo_dt m); cbn; auto.
  - unfold zStep. destruct (z_run z) as [[x f| |x p|c k]|]; try reflexivity.
    + unfold zFinish. cbn. apply after_keeps.
    + cbn. apply after_keeps.
Qed.

Lemma write_hist merge x w : Hist w -> Hist (fst (gWrite merge x w)) /\ z_view (g_z (fst (gWrite merge x w))) = z_view (g_z w).
Proof.
  intros H. unfold gWrite. destruct (g_obj w) as [o|] eqn:O; [|split; [exact H|reflexivity]].
  destruct (_ && _); [|split; [exact H|reflexivity]]. cbv zeta.
  destruct (MObj_eq_dec _ _); [split; [exact H|reflexivity]|]. destruct H as [A B C].
  split; [|reflexivity]. cbn [fst]. set (y := withRv _ _). set (st := match mo_dt y with Some _ => _ | None => _ end).
  assert (ST : st = None \/ st = Some y). { unfold st. destruct (mo_dt y); [destruct (mo_fins y)|]; auto. }
  split; cbn [g_hist g_obj g_next g_z].
  - intros v [E|I].
    + destruct ST as [ST|ST]; rewrite ST in *; [discriminate|]. injection E as <-. split; [cbn; lia|]. intros o' E. injection E as <-. auto.
    + destruct (A v I) as [L _]. split; [lia|]. intros o' E R. destruct ST as [ST|ST]; rewrite ST in E; [discriminate|]. injection E as <-.
      cbn in R. lia.
  - right. exact B.
  - left. reflexivity.
Qed.

Lemma hist_step cf w op : Hist w -> Hist (cstep cf w op).
Proof.
  intros H. destruct op as [d|n| | |r lim]; unfold cstep.
  - destruct H as [A B C]. split; cbn [onZ g_z g_hist g_obj g_next]; auto. rewrite step_view by discriminate. exact B.
  - destruct (nth_error (g_hist w) n) eqn:E; [|exact H]. destruct H as [A B C]. split; cbn [onZ g_z g_hist g_obj g_next]; auto.
    unfold zstep. destruct (z_dead (g_z w)); [exact B|]. cbn. exact (nth_error_In _ _ E).
  - destruct H as [A B C]. split; cbn [onZ g_z g_hist g_obj g_next]; auto. rewrite step_view by discriminate. exact B.
  - destruct H as [A B C]. split; cbn [onZ g_z g_hist g_obj g_next]; auto. rewrite step_view by discriminate. exact B.
  - assert (K : forall w' r', Hist w' -> z_view (g_z w') = z_view (g_z w) -> Hist (onZ (zstep cf false (g_z w) (ZStep r' lim)) w')).
    { intros w' r' [A B C] V. split; cbn [onZ g_z g_hist g_obj g_next]; auto. rewrite step_view by discriminate. rewrite <- V. exact B. }
    destruct (z_run (g_z w)) as [[x f| |x p|c k]|]; try (apply K; [exact H|reflexivity]).
    destruct c; try (apply K; [exact H|reflexivity]).
    + destruct (write_hist mergeMeta m w H) as [H1 H2]. destruct (gWrite mergeMeta m w) as [w' r']. apply K; assumption.
    + destruct (write_hist mergeStatus m w H) as [H1 H2]. destruct (gWrite mergeStatus m w) as [w' r']. apply K; assumption.
Qed.

Lemma run_keep cf z op : (forall r lim, op <> ZStep r lim) -> op <> ZStart -> z_run (zstep cf false z op) = z_run z.
Proof.
  intros N M. unfold zstep. destruct (z_dead z); [reflexivity|]. destruct op as [d|v| | |r lim]; try reflexivity; try contradiction.
  - unfold zAdd. destruct (z_queued z); reflexivity.
  - exfalso. exact (N r lim eq_refl).
Qed.
Lemma now_step cf z op : z_now z <= z_now (zstep cf false z op).
Proof.
  unfold zstep. destruct (z_dead z); [lia|]. destruct op as [d|v| | |r lim]; cbn; try lia.
  - unfold zAdd. destruct (z_queued z); cbn; lia.
  - unfold zStart. destruct (z_run z); [lia|]. destruct (z_queued z); [|lia]. destruct (z_view z) as [m|]; [destruct (mo_dt m)|]; cbn; lia.
  - unfold zStep. destruct (z_run z) as [[x f| |x p|c k]|]; cbn; try lia; pose proof (proj1 (after_keeps x z)); lia.
Qed.

Lemma write_rejected merge x w : (forall o, g_obj w = Some o -> mo_rv o <> mo_rv x) -> exists e, gWrite merge x w = (w, RErr e).
Proof.
  intros N. unfold gWrite. destruct (g_obj w) as [o|]; [|eauto]. specialize (N o eq_refl).
  destruct (Nat.eqb_spec (mo_rv o) (mo_rv x)); [contradiction|]. cbn. eauto.
Qed.

(** ** The end: the machine is up *)
Record Final (cf : Cfg) (since : Z) (w : GW) : Prop := mkFinal {
  f_since : since <= z_now (g_z w);
  f_dead : z_dead (g_z w) = true -> z_run (g_z w) = None;
  f_obj : exists o, g_obj w = Some o /\ landed o /\ (mo_rv o < g_next w)%nat /\
    forall p, z_run (g_z w) = Some p -> keeps cf o p \/ exists n, n <> mo_rv o /\ lame cf n p }.

Lemma final_step cf since w op : Hist w -> easy cf since w op -> Final cf since w -> Final cf since (cstep cf w op).
Proof.
  intros HI EA [SI DE (o & OB & LA & RV & RU)].
  assert (SS : forall op', since <= z_now (zstep cf false (g_z w) op')) by (intros op'; pose proof (now_step cf (g_z w) op'); lia).
  assert (K : forall op', (forall r lim, op' <> ZStep r lim) -> op' <> ZStart -> Final cf since (onZ (zstep cf false (g_z w) op') w)).
  { intros op' N M. split; cbn [onZ g_z g_obj g_next]; [apply SS| |].
    - rewrite run_keep by assumption. intros X. apply DE. rewrite <- X. symmetry. unfold zstep. destruct (z_dead (g_z w)) eqn:Q; [exact Q|]. destruct op'; try contradiction; cbn; auto.
      + unfold zAdd. destruct (z_queued (g_z w)); auto.
      + exfalso. exact (N r lim eq_refl).
    - exists o. split; [exact OB|]. split; [exact LA|]. split; [exact RV|]. rewrite run_keep by assumption. exact RU. }
  destruct op as [d|n| | |r lim]; unfold cstep.
  - apply K; discriminate.
  - destruct (nth_error _ _); [apply K; discriminate|]. split; eauto 8.
  - apply K; discriminate.
  - unfold zstep. destruct (z_dead (g_z w)) eqn:DD.
    { split; cbn [onZ g_z g_obj g_next]; auto. exists o. auto. }
    unfold zStart. destruct (z_run (g_z w)) eqn:R.
    { split; cbn [onZ g_z g_obj g_next]; auto; [congruence|]. exists o. rewrite R. auto. }
    destruct (z_queued (g_z w)).
    2:{ split; cbn [onZ g_z g_obj g_next]; auto. exists o. rewrite R. auto. }
    destruct (z_view (g_z w)) as [v|] eqn:V; [|split; cbn; auto; exists o; split; [exact OB|]; split; [exact LA|]; split; [exact RV|]; discriminate].
    destruct (mo_dt v); [split; cbn; auto; exists o; split; [exact OB|]; split; [exact LA|]; split; [exact RV|]; discriminate|]. split; cbn; auto; [congruence|].
    exists o. split; [exact OB|]. split; [exact LA|]. split; [exact RV|]. intros p E. injection E as <-.
    destruct (Nat.eq_dec (mo_rv v) (mo_rv o)) as [Q|Q].
    + left. destruct (h_vers w HI v) as [_ U]. { rewrite <- V. exact (h_view w HI). } rewrite (U o OB Q). apply landed_keeps, LA.
    + right. exists (mo_rv v). split; [exact Q|apply lame_machine].
  - cbn [easy] in EA. destruct (z_run (g_z w)) as [p|] eqn:R.
    2:{ split; cbn [onZ g_z g_obj g_next]; [apply SS| |].
        - intros _. unfold zstep. destruct (z_dead (g_z w)); [exact R|]. unfold zStep. rewrite R. exact R.
        - exists o. split; [exact OB|]. split; [exact LA|]. split; [exact RV|]. unfold zstep. destruct (z_dead (g_z w)); [rewrite R; discriminate|]. unfold zStep. rewrite R, R. discriminate. }
    assert (DD : z_dead (g_z w) = false). { destruct (z_dead (g_z w)); [|reflexivity]. discriminate (DE eq_refl). }
    specialize (RU _ eq_refl). destruct p as [x f| |x p|c k].
    + split; cbn [onZ g_z g_obj g_next]; [apply SS| |]; unfold zstep; rewrite DD; unfold zStep; rewrite R; cbn.
      * reflexivity.
      * exists o. split; [exact OB|]. split; [exact LA|]. split; [exact RV|]. discriminate.
    + split; cbn [onZ g_z g_obj g_next]; [apply SS| |]; unfold zstep; rewrite DD; unfold zStep; rewrite R; cbn.
      * reflexivity.
      * exists o. split; [exact OB|]. split; [exact LA|]. split; [exact RV|]. discriminate.
    + split; cbn [onZ g_z g_obj g_next]; [apply SS| |]; unfold zstep; rewrite DD; unfold zStep; rewrite R; cbn.
      * destruct (after_keeps x (g_z w)) as (_ & _ & _ & Q & _). rewrite Q, DD. discriminate.
      * exists o. split; [exact OB|]. split; [exact LA|]. split; [exact RV|]. intros q E. injection E as <-. exact RU.
    + assert (STEP : forall w' r' o', g_obj w' = Some o' -> landed o' -> (mo_rv o' < g_next w')%nat ->
        (keeps cf o' (k (match c with CNow => RTime (z_now (g_z w) / 1000) | _ => r' end)) \/ exists n, n <> mo_rv o' /\ lame cf n (k (match c with CNow => RTime (z_now (g_z w) / 1000) | _ => r' end))) ->
        Final cf since (onZ (zstep cf false (g_z w) (ZStep r' lim)) w')).
      { intros w' r' o' A1 A2 A3 A4. split; cbn [onZ g_z g_obj g_next]; [apply SS| |]; unfold zstep; rewrite DD; unfold zStep; rewrite R; cbn.
        - rewrite DD. discriminate.
        - exists o'. split; [exact A1|]. split; [exact A2|]. split; [exact A3|]. intros q E. injection E as <-. exact A4. }
      destruct (isWrite c) as [x|] eqn:IW.
      * assert (WR : match c with WMeta x => gWrite mergeMeta x w | WStatus x => gWrite mergeStatus x w | _ => (w, r) end = gWrite (mergeOf c) x w).
        { destruct c; try discriminate IW; injection IW as <-; reflexivity. }
        assert (NN : forall r', match c with CNow => RTime (z_now (g_z w) / 1000) | _ => r' end = r') by (intros r'; destruct c; try discriminate IW; reflexivity).
        rewrite WR. destruct RU as [KP|(n & N & L)].
        -- cbn [keeps] in KP. rewrite IW in KP. destruct KP as (K1 & K2 & K3 & K4). unfold gWrite. rewrite OB, K1, K2, !Nat.eqb_refl. cbn [andb]. cbv zeta.
           destruct (MObj_eq_dec _ _) as [E|E]; [apply (STEP w _ o); auto; rewrite NN; left; exact (K3 E)|].
           destruct (K4 E (g_next w)) as [LY LL]. set (y := withRv _ _) in *.
           assert (ST : match mo_dt y with Some _ => match mo_fins y with [] => None | _ => Some y end | None => Some y end = Some y) by (rewrite (proj1 LY); reflexivity).
           rewrite ST. apply (STEP _ _ y); [reflexivity|exact LY|cbn; lia|]. rewrite NN. right. exists (mo_rv o). split; [cbn; lia|exact LL].
        -- cbn [lame] in L. rewrite IW in L. destruct L as [L1 L2]. destruct (write_rejected (mergeOf c) x w) as [e E].
           { intros o' Eo. rewrite OB in Eo. injection Eo as <-. rewrite L1. auto. }
           rewrite E. apply (STEP w _ o); auto. rewrite NN. right. exists n. split; [exact N|apply L2].
      * assert (WR : (match c with WMeta x => gWrite mergeMeta x w | WStatus x => gWrite mergeStatus x w | _ => (w, r) end) = (w, r)).
        { destruct c; try discriminate IW; reflexivity. }
        rewrite WR. assert (UP : (since <=? z_now (g_z w)) = true) by lia. rewrite UP in EA.
        assert (EA' : answers cf true c (match c with CNow => RTime (z_now (g_z w) / 1000) | _ => r end)) by (destruct c; try exact EA; exact Logic.I).
        apply (STEP w _ o); auto. destruct RU as [KP|(n & N & L)].
        -- left. cbn [keeps] in KP. rewrite IW in KP. apply KP, EA'.
        -- right. exists n. split; [exact N|]. cbn [lame] in L. rewrite IW in L. exact (L true _ EA').
Qed.

(** ** In time *)
Section Time.
Variables (cf : Cfg) (lam delta eps since t0 : Z).
Hypothesis LAM : 0 <= lam.
Hypothesis DEL : 0 <= delta.
Hypothesis EPS : 0 <= eps.
Hypothesis LIM : up_by lam delta eps since t0 <= t0 + 1000 * cf_creation cf.

Let base := t0 / 1000.
Let stp := stage_time lam delta eps.
Let T0 := Z.max t0 since.
Definition per (o : MObj) : Z := if String.eqb (phase o) "Pending" then 60000 else 5000.

(** The reconcile at work. *)
Inductive work (w : GW) (o : MObj) (C : Z) (p : rprog) : Prop :=
| WFresh : forall s tm, safe cf base (since <=? z_began (g_z w)) s o p tm -> (s = true -> since <= z_now (g_z w)) -> base <= tm -> tm * 1000 <= z_now (g_z w) -> work w o C p
| WStale : forall n pend, n <> mo_rv o -> stale cf n pend p -> (pend = true -> phase o = "Pending") -> z_began (g_z w) <= C + lam -> work w o C p
| WTail : tail p -> z_began (g_z w) <= C + lam -> soon (C + lam + eps + per o) (g_z w) -> work w o C p.

Record Going (w : GW) (C : Z) (o : MObj) : Prop := mkGoing {
  o_obj : g_obj w = Some o;
  o_fit : fit base o;
  o_chg : g_chg w <= C;
  o_T0 : T0 <= C;
  o_C : C <= T0 + (4 - Z.of_nat (rank o)) * stp;
  o_pend : rank o = 1%nat -> T0 + eps <= C;
  o_all : forall x, In x (g_hist w) -> exists v, x = Some v /\ fit base v /\ (phase v = "Pending" -> phase o = "Pending");
  o_dead : z_dead (g_z w) = false;
  o_t0 : t0 <= z_now (g_z w);
  o_began : z_began (g_z w) <= z_now (g_z w);
  o_ahead : ahead (g_z w);
  o_idle : z_run (g_z w) = None -> soon (C + lam + eps + per o) (g_z w) /\ (z_queued (g_z w) = true -> z_ready (g_z w) <= C + lam + eps + per o);
  o_work : forall p, z_run (g_z w) = Some p -> z_began (g_z w) <= C + lam + eps + per o + delta /\ work w o C p }.

Lemma per_rank o : fit base o -> (rank o = 1%nat /\ per o = 60000) \/ ((2 <= rank o <= 4)%nat /\ per o = 5000).
Proof.
  intros _. unfold rank, per. destruct (String.eqb (phase o) "Pending"); [left; auto|]. right. split; [|reflexivity].
  destruct (negb (hasFin o)); [lia|]. destruct (has _ _); lia.
Qed.

Lemma going_time w C o : timely lam delta eps w -> Going w C o -> z_now (g_z w) <= C + lam + 2 * eps + per o + delta.
Proof.
  intros [[P1 P2] _] G. assert (0 <= per o) by (unfold per; destruct (String.eqb _ _); lia). destruct (z_run (g_z w)) as [p|] eqn:R.
  - destruct (o_work _ _ _ G p R) as [B _]. assert (z_now (g_z w) <= z_began (g_z w) + eps) by (apply P2; discriminate). lia.
  - destruct (o_idle _ _ _ G R) as [[Q|(u & U & L)] RD].
    + specialize (RD Q). assert (z_now (g_z w) <= z_ready (g_z w) + delta) by (apply P1; auto). lia.
    + pose proof (o_ahead _ _ _ G u U). lia.
Qed.
Lemma going_by w C o : timely lam delta eps w -> Going w C o -> z_now (g_z w) <= up_by lam delta eps since t0.
Proof.
  intros TI G. pose proof (going_time _ _ _ TI G) as N. pose proof (o_C _ _ _ G) as CC. unfold up_by. fold T0. fold stp.
  assert (SP : stp = lam + delta + 2 * eps + 5000) by reflexivity.
  destruct (per_rank o (o_fit _ _ _ G)) as [[R P]|[R P]]; rewrite P in N.
  - rewrite R in CC. lia.
  - assert ((4 - Z.of_nat (rank o)) * stp <= 2 * stp) by (apply Z.mul_le_mono_nonneg_r; lia). lia.
Qed.

Lemma div_floor a : a / 1000 * 1000 <= a.
Proof. pose proof (Z.mul_div_le a 1000). lia. Qed.
Lemma clock_lim a : a <= up_by lam delta eps since t0 -> a / 1000 <= base + cf_creation cf.
Proof.
  intros L. unfold base. replace (t0 / 1000 + cf_creation cf) with ((t0 + cf_creation cf * 1000) / 1000) by (rewrite Z.div_add; lia).
  apply Z.div_le_mono; lia.
Qed.

Lemma work_ext w w' o C p : work w o C p -> z_now (g_z w) <= z_now (g_z w') -> z_began (g_z w') = z_began (g_z w) ->
  (soon (C + lam + eps + per o) (g_z w) -> soon (C + lam + eps + per o) (g_z w')) -> work w' o C p.
Proof.
  intros [s tm S T B M|n pend N L B X|T B S] A E SO.
  - apply (WFresh _ _ _ _ s tm); [rewrite E; exact S|intros Q; specialize (T Q); lia|exact B|lia].
  - apply (WStale _ _ _ _ n pend); auto. rewrite E. exact X.
  - apply WTail; [exact T|rewrite E; exact B|exact (SO S)].
Qed.

Lemma going_step w op C o : Hist w -> timely lam delta eps w -> easy cf since w op -> Going w C o ->
  Final cf since (cstep cf w op) \/ exists C' o', Going (cstep cf w op) C' o'.
Proof.
  intros HI TI EA G. pose proof (going_time _ _ _ TI G) as NOW. pose proof (going_by _ _ _ TI G) as BY.
  assert (P0 : 5000 <= per o <= 60000) by (unfold per; destruct (String.eqb _ _); lia).
  assert (SAME : onZ (g_z w) w = w) by (destruct w; reflexivity). pose proof G as G0.
  assert (SP : stp = lam + delta + 2 * eps + 5000) by reflexivity.
  assert (TB : base <= z_now (g_z w) / 1000) by (apply Z.div_le_mono; [lia|exact (o_t0 _ _ _ G)]).
  destruct TI as [[P1 P2] FR]. destruct G as [OB FIT CH CT CC CP AL DE BT BE AH ID WO].
  destruct op as [d|n| | |r lim]; unfold cstep.
  - (* time *)
    right. exists C, o. unfold zstep. rewrite DE. split; cbn [onZ g_z g_obj g_chg g_hist]; auto.
    + cbn. lia.
    + cbn. lia.
    + apply ahead_tick, AH.
    + intros R. destruct (ID R) as [S RD]. split; [apply soon_tick, S|].
      unfold zTick. cbv zeta. cbn. destruct (z_due (g_z w)) as [u|] eqn:U; cbn [andb].
      * destruct (u <=? _) eqn:L; cbn [andb]; [|rewrite orb_false_r; exact RD].
        destruct (z_queued (g_z w)) eqn:Q; cbn [negb]; [intros _; apply RD; reflexivity|].
        intros _. destruct S as [S|(u' & U' & L')]; [congruence|]. rewrite U in U'. injection U' as <-. pose proof (AH u U). lia.
      * rewrite orb_false_r. exact RD.
    + intros p R. destruct (WO p R) as [X W]. split; [exact X|]. eapply work_ext; [exact W|cbn; lia|reflexivity|apply soon_tick].
  - (* the cache *)
    right. exists C, o. destruct (nth_error _ _) as [v|]; [|exact G0].
    unfold zstep. rewrite DE. split; cbn [onZ g_z g_obj g_chg g_hist]; auto.
    intros p R. destruct (WO p R) as [X W]. split; [exact X|]. eapply work_ext; [exact W|cbn; lia|reflexivity|auto].
  - (* a handler *)
    right. exists C, o. unfold zstep. rewrite DE. unfold zAdd. destruct (z_queued (g_z w)) eqn:Q; [rewrite SAME; exact G0|].
    split; cbn [onZ g_z g_obj g_chg g_hist]; auto.
    + intros R. destruct (ID R) as [S _]. split; [left; reflexivity|]. intros _. cbn.
      destruct S as [S|(u & U & L)]; [congruence|]. pose proof (AH u U). lia.
    + intros p R. destruct (WO p R) as [X W]. split; [exact X|]. eapply work_ext; [exact W|cbn; lia|reflexivity|left; reflexivity].
  - (* a worker *)
    right. exists C, o. unfold zstep. rewrite DE. unfold zStart. destruct (z_run (g_z w)) as [p0|] eqn:R.
    { rewrite SAME. exact G0. }
    destruct (z_queued (g_z w)) eqn:Q.
    2:{ rewrite SAME. exact G0. }
    destruct (AL _ (h_view _ HI)) as (v & V & FV & PV). rewrite V, (proj1 FV).
    split; cbn [onZ g_z g_obj g_chg g_hist zRun z_now z_began z_run z_dead z_due z_queued z_ready]; auto; try lia; try discriminate.
    intros p E. injection E as <-. destruct (ID eq_refl) as [_ RD]. specialize (RD eq_refl). specialize (P1 eq_refl eq_refl). split; [lia|].
    destruct (Nat.eq_dec (mo_rv v) (mo_rv o)) as [E|E].
    + assert (v = o). { destruct (h_vers _ HI v) as [_ U]; [rewrite <- V; apply (h_view _ HI)|]. exact (U o OB E). }
      subst v. apply (WFresh _ _ _ _ (since <=? z_now (g_z w)) (z_now (g_z w) / 1000)).
      * apply safe_machine; assumption.
      * cbn. lia.
      * exact TB.
      * cbn. apply div_floor.
    + apply (WStale _ _ _ _ (mo_rv v) (String.eqb (phase v) "Pending")); [exact E|apply (stale_machine cf base); exact FV|intros X; apply PV, String.eqb_eq, X|]. cbn.
      destruct (Z_le_gt_dec (z_now (g_z w)) (C + lam)) as [L|L]; [exact L|]. exfalso. rewrite FR in V by lia. rewrite OB in V. injection V as <-. apply E. reflexivity.
  - (* a step *)
    destruct (z_run (g_z w)) as [p|] eqn:R.
    2:{ right. exists C, o. unfold zstep. rewrite DE. unfold zStep. rewrite R, SAME. exact G0. }
    destruct (WO p eq_refl) as [BX W]. specialize (P2 ltac:(discriminate)).
    cbn [easy] in EA. rewrite R in EA.
    assert (BF : (since <=? z_began (g_z w)) = false -> z_began (g_z w) <= C + lam) by (intros Q; unfold T0 in CT; lia).
    destruct p as [x f| |x p|c kk].
    + (* the end *)
      right. exists C, o. unfold zstep. rewrite DE. unfold zStep. rewrite R.
      assert (X5 : z_began (g_z w) <= C + lam /\ soon (C + lam + eps + per o) (zAfter x (g_z w))).
      { destruct W as [s tm [S1 S2] T B M|n pend N L B X|T B S].
        - split; [exact (BF S1)|]. apply soon_new. specialize (BF S1). lia.
        - split; [exact X|]. apply soon_new. cbn in L. lia.
        - split; [exact B|]. apply soon_after, S. }
      destruct X5 as [BG SO]. unfold zFinish. cbn [andb].
      destruct (after_keeps x (g_z w)) as [F1 [_ [_ [F4 [F5 _]]]]].
      split; cbn [onZ g_z g_obj g_chg g_hist zClose zWorker zFails negb z_now z_began z_run z_dead z_due z_queued z_ready]; auto.
      * rewrite F4. exact DE.
      * rewrite F1. exact BT.
      * rewrite F5, F1. exact BE.
      * intros u U. cbn in U |- *. exact (ahead_after _ _ AH u U).
      * intros _. split; [exact SO|]. intros _. rewrite F1. lia.
      * discriminate.
    + exfalso. destruct W as [s tm S T B M|n pend N L B X|T B S]; contradiction.
    + (* a later look *)
      right. exists C, o. unfold zstep. rewrite DE. unfold zStep. rewrite R.
      assert (X5 : z_began (g_z w) <= C + lam /\ x <= per o /\ tail p).
      { destruct W as [s tm (S1 & S2 & S3 & S4) T B M|n pend N (L1 & L2 & L3) B X|T B S].
        - split; [exact (BF S1)|]. split; [|exact S3]. unfold per. rewrite S4. exact S2.
        - split; [exact X|]. split; [|exact L3]. unfold per. rewrite (B L1). exact L2.
        - contradiction. }
      destruct X5 as (BG & XP & TL).
      destruct (after_keeps x (g_z w)) as [F1 [_ [_ [F4 [F5 _]]]]].
      split; cbn [onZ g_z g_obj g_chg g_hist zRun z_now z_began z_run z_dead z_due z_queued z_ready]; auto.
      * rewrite F4. exact DE.
      * rewrite F1. exact BT.
      * rewrite F5, F1. exact BE.
      * intros u U. cbn in U |- *. exact (ahead_after _ _ AH u U).
      * discriminate.
      * intros q E. injection E as <-. rewrite F5. split; [exact BX|]. apply WTail; [exact TL|cbn; rewrite F5; exact BG|].
        assert (S : soon (C + lam + eps + per o) (zAfter x (g_z w))) by (apply soon_new; lia). exact S.
    + (* a call *)
      assert (KEEP : forall r', work (onZ (zstep cf false (g_z w) (ZStep r' lim)) w) o C (kk (match c with CNow => RTime (z_now (g_z w) / 1000) | _ => r' end)) ->
        Going (onZ (zstep cf false (g_z w) (ZStep r' lim)) w) C o).
      { intros r'. unfold zstep. rewrite DE. unfold zStep. rewrite R. intros W'. split; cbn [onZ g_z g_obj g_chg g_hist z_now z_began z_run z_dead z_due z_queued z_ready]; auto; try discriminate.
        intros p E. injection E as <-. split; [exact BX|exact W']. }
      assert (NB : forall r', let z := zstep cf false (g_z w) (ZStep r' lim) in z_now z = z_now (g_z w) /\ z_began z = z_began (g_z w) /\ z_queued z = z_queued (g_z w) /\ z_due z = z_due (g_z w)).
      { intros r'. cbv zeta. unfold zstep. rewrite DE. unfold zStep. rewrite R. repeat split; reflexivity. }
      assert (TAIL : forall r', tail (RDo c kk) -> z_began (g_z w) <= C + lam -> soon (C + lam + eps + per o) (g_z w) ->
        work (onZ (zstep cf false (g_z w) (ZStep r' lim)) w) o C (kk (match c with CNow => RTime (z_now (g_z w) / 1000) | _ => r' end))).
      { intros r' [_ T] B S. destruct (NB r') as (_ & N2 & N3 & N4). apply WTail; [apply T|cbn [onZ g_z]; rewrite N2; exact B|]. cbn [onZ g_z]. unfold soon. rewrite N3, N4. exact S. }
      destruct (isWrite c) as [x|] eqn:IW.
      * (* a write *)
        assert (WR : match c with WMeta x => gWrite mergeMeta x w | WStatus x => gWrite mergeStatus x w | _ => (w, r) end = gWrite (mergeOf c) x w).
        { destruct c; try discriminate IW; injection IW as <-; reflexivity. }
        assert (NN : forall r', match c with CNow => RTime (z_now (g_z w) / 1000) | _ => r' end = r') by (intros r'; destruct c; try discriminate IW; reflexivity).
        rewrite WR.
        destruct W as [s tm S T B M|n pend N L B X|T B S].
        -- cbn [safe] in S. rewrite IW in S. destruct S as (S1 & S2 & S3 & S4).
           unfold gWrite. rewrite OB, S1, S2, !Nat.eqb_refl. cbn [andb]. cbv zeta.
           destruct (MObj_eq_dec o (mergeOf c o x)) as [E|E]; [contradiction|]. clear E.
           specialize (S4 (g_next w)). set (y := withRv (g_next w) (mergeOf c o x)) in *. destruct S4 as [LA S4].
           assert (RV : (mo_rv o < g_next w)%nat). { apply (h_vers _ HI). rewrite <- OB. apply (h_obj _ HI). }
           assert (DY : mo_dt y = None) by (destruct S4 as [[F _]|[F _]]; apply F).
           rewrite DY. unfold zstep. rewrite DE. unfold zStep. rewrite R, NN.
           destruct S4 as [[F ST]|(F & RL)].
           ++ left. split; cbn [onZ g_z g_obj g_next z_run z_now z_dead].
              ** exact (T ST).
              ** rewrite DE. discriminate.
              ** exists y. split; [reflexivity|]. split; [exact F|]. split; [cbn; lia|]. intros p Ep. injection Ep as <-. right. exists (mo_rv o). split; [cbn; lia|].
                 exact (stale_lame _ _ _ LA).
           ++ right. pose proof (per_rank o FIT) as PO. pose proof (per_rank y F) as PY.
              assert (YN : mo_rv y <> mo_rv o) by (cbn; lia).
              destruct RL as [RL|(RB & R1 & R2)].
              ** exists (C + stp), y.
                 assert (PL : 5000 <= per y <= 60000) by (destruct PY as [[_ ->]|[_ ->]]; lia).
                 assert (PO5 : per o = 5000) by (destruct PO as [[Q _]|[_ Q]]; [destruct PY as [[Q' _]|[Q' _]]; lia|exact Q]).
                 split; cbn [onZ g_z g_obj g_chg g_hist z_now z_began z_run z_dead z_due z_queued z_ready]; auto; try lia; try discriminate.
                 --- intros x' [I|I].
                     +++ exists y. split; [symmetry; exact I|]. split; [exact F|auto].
                     +++ destruct (AL x' I) as (v & -> & FV & PV). exists v. split; [reflexivity|]. split; [exact FV|]. intros Q. specialize (PV Q).
                         exfalso. unfold per in PO5. rewrite PV in PO5. discriminate PO5.
                 --- intros p Ep. injection Ep as <-. split; [lia|].
                     apply (WStale _ _ _ _ (mo_rv o) false); [auto|exact LA|discriminate|]. cbn. lia.
              ** exists C, y.
                 assert (PEQ : per y = per o) by (destruct PO as [[_ ->]|[Q _]]; [|lia]; destruct PY as [[_ ->]|[Q _]]; [reflexivity|lia]).
                 assert (PYP : phase y = "Pending"). { destruct (String.eqb_spec (phase y) "Pending") as [|Q]; [assumption|]. apply String.eqb_neq in Q. unfold rank in R1. rewrite Q in R1. destruct (negb (hasFin y)); [discriminate R1|]. destruct (has _ _); discriminate R1. }
                 split; cbn [onZ g_z g_obj g_chg g_hist z_now z_began z_run z_dead z_due z_queued z_ready]; auto; try lia; try discriminate.
                 --- intros x' [I|I].
                     +++ exists y. split; [symmetry; exact I|]. split; [exact F|auto].
                     +++ destruct (AL x' I) as (v & -> & FV & PV). exists v. split; [reflexivity|]. split; [exact FV|]. intros _. exact PYP.
                 --- intros p Ep. injection Ep as <-. split; [rewrite PEQ; exact BX|].
                     apply (WStale _ _ _ _ (mo_rv o) false); [auto|exact LA|discriminate|]. cbn. apply BF, RB.
        -- cbn [stale] in L. rewrite IW in L. destruct L as [L1 L2]. destruct (write_rejected (mergeOf c) x w) as [e E].
           { intros o' Eo. rewrite OB in Eo. injection Eo as <-. rewrite L1. auto. }
           rewrite E. right. exists C, o. apply KEEP. rewrite NN.
           apply (WStale _ _ _ _ n pend); [exact N|apply L2|exact B|]. cbn [onZ g_z]. destruct (NB (RErr e)) as (_ & -> & _). exact X.
        -- destruct T as [T _]. congruence.
      * (* any other call *)
        assert (WR : (match c with WMeta x => gWrite mergeMeta x w | WStatus x => gWrite mergeStatus x w | _ => (w, r) end) = (w, r)).
        { destruct c; try discriminate IW; reflexivity. }
        rewrite WR. right. exists C, o. apply KEEP. destruct (NB r) as (N1 & N2 & N3 & N4).
        destruct W as [s tm S T B M|n pend N L B X|TT B S].
        -- cbn [safe] in S. rewrite IW in S.
           destruct (match c with CNow => true | _ => false end) eqn:CN.
           ++ destruct c; try discriminate CN. assert (LT : tm <= z_now (g_z w) / 1000) by (apply Z.div_le_lower_bound; lia).
              apply (WFresh _ _ _ _ s (z_now (g_z w) / 1000)); cbn [onZ g_z]; rewrite ?N1, ?N2.
              ** apply S. split; [exact LT|]. apply clock_lim, BY.
              ** exact T.
              ** exact TB.
              ** apply div_floor.
           ++ apply (WFresh _ _ _ _ (since <=? z_now (g_z w)) tm); cbn [onZ g_z]; rewrite ?N1, ?N2.
              ** destruct c; try discriminate CN; try discriminate IW; (apply S with (up := since <=? z_now (g_z w)); [lia|intros Q; specialize (T Q); lia|exact EA]).
              ** lia.
              ** exact B.
              ** exact M.
        -- cbn [stale] in L. rewrite IW in L.
           apply (WStale _ _ _ _ n pend); [exact N| |exact B|cbn [onZ g_z]; rewrite N2; exact X].
           destruct c; try discriminate IW; try (apply (L (since <=? z_now (g_z w))), EA).
        -- apply TAIL; assumption.
Qed.

Definition Ok (w : GW) : Prop := Hist w /\ (Final cf since w \/ exists C o, Going w C o).

Lemma ok_run : forall ops w, Ok w -> Forall (timely lam delta eps) (cstates cf w ops) -> easily cf since w ops -> Ok (crun cf w ops).
Proof.
  induction ops as [|op ops IH]; intros w O T S; [exact O|].
  cbn [cstates] in T. inversion T as [|? ? T1 T2]; subst. destruct S as [S1 S2]. apply (IH (cstep cf w op)); auto.
  destruct O as [HI O]. split; [apply hist_step, HI|]. destruct O as [F|(C & o & G)].
  - left. apply final_step; assumption.
  - eapply going_step; eassumption.
Qed.

Lemma ok_last : forall ops w, Forall (timely lam delta eps) (cstates cf w ops) -> timely lam delta eps (crun cf w ops).
Proof.
  induction ops as [|op ops IH]; intros w T; cbn [cstates] in T; inversion T as [|? ? T1 T2]; subst; [exact T1|].
  exact (IH _ T2).
Qed.

Lemma newborn_fit m : newborn m -> fit base m /\ (3 <= rank m <= 4)%nat.
Proof.
  intros (D & N & P & C). split; [split; [exact D|]; left; split; [exact P|]; split; [exact C|]; now left|].
  unfold rank. rewrite P, has_get, N. cbn [String.eqb]. destruct (negb (hasFin m)); lia.
Qed.

Lemma ok_init m : newborn m -> Ok (cinit t0 m).
Proof.
  intros NB. destruct (newborn_fit m NB) as [F R]. split; [apply hist_init|]. right. exists T0, m.
  assert (P0 : 5000 <= per m <= 60000) by (unfold per; destruct (String.eqb _ _); lia).
  assert (0 <= stp) by (unfold stp, stage_time; lia).
  split; cbn [cinit g_z g_obj g_chg g_hist zinit z_now z_began z_run z_dead z_due z_queued z_ready]; auto; try discriminate; try lia; try (unfold T0; lia).
  - assert (0 <= (4 - Z.of_nat (rank m)) * stp) by (apply Z.mul_nonneg_nonneg; lia). lia.
  - intros x [<-|[]]. exists m. auto.
  - intros _. split; [left; reflexivity|]. intros _. unfold T0. lia.
Qed.

Lemma in_time m ops : newborn m -> Forall (timely lam delta eps) (cstates cf (cinit t0 m) ops) -> easily cf since (cinit t0 m) ops ->
  let w := crun cf (cinit t0 m) ops in up_by lam delta eps since t0 < z_now (g_z w) -> running w.
Proof.
  intros NB T S. cbv zeta. intros L. destruct (ok_run ops _ (ok_init m NB) T S) as [_ [[_ _ (o & O & LA & _)]|(C & o & G)]].
  - exists o. split; [exact O|]. destruct LA as (_ & A & B & D & E & _). auto.
  - pose proof (going_by _ _ _ (ok_last _ _ T) G). lia.
Qed.

Lemma on_the_way m ops : newborn m -> Forall (timely lam delta eps) (cstates cf (cinit t0 m) ops) -> easily cf since (cinit t0 m) ops ->
  let w := crun cf (cinit t0 m) ops in exists o, g_obj w = Some o /\ mo_dt o = None /\ In (phase o) [""; "Pending"; "Running"] /\
    (phase o = "Running" -> since <= z_now (g_z w)).
Proof.
  intros NB T S. cbv zeta. destruct (ok_run ops _ (ok_init m NB) T S) as [_ [[SI _ (o & O & LA & _)]|(C & o & G)]].
  - exists o. split; [exact O|]. destruct LA as (D & A & _). split; [exact D|]. rewrite A. split; [cbn; auto|auto].
  - exists o. split; [apply (o_obj _ _ _ G)|]. destruct (o_fit _ _ _ G) as (D & FT). split; [exact D|].
    destruct FT as [(P & _)|(P & _)]; rewrite P; (split; [cbn; auto|discriminate]).
Qed.
End Time.
