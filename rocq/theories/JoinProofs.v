(** Proofs of C109. *)
Require Import Coq.ZArith.ZArith Coq.Lists.List Coq.Strings.String Coq.Bool.Bool Coq.NArith.NArith Coq.micromega.Lia Coq.micromega.ZifyBool.
From Verif Require Import CodesModel MachModel LevModel HealthModel LifeModel LifeSpec LifeProofs CreaSpec LiveSpec LiveProofs JoinSpec.
Import ListNotations.
Open Scope string_scope.
Open Scope list_scope.
Open Scope Z_scope.

(** ** Writes *)
Lemma jn_store w m n : w_obj w = Some m -> mo_dt n = None ->
  exists m', w_obj (store w m n) = Some m' /\ mo_dt m' = None /\ mo_fins m' = mo_fins n /\ mo_labels m' = mo_labels n /\ mo_annots m' = mo_annots n /\
    mo_pid m' = mo_pid n /\ mo_status m' = mo_status n /\ (if MObj_eq_dec m n then m else withRv (w_next w) n) = m'.
Proof.
  intros E D. unfold store. destruct (MObj_eq_dec m n) as [<-|NE].
  - exists m. repeat split; auto.
  - exists (withRv (w_next w) n). cbn. rewrite D. repeat split.
Qed.

Lemma jn_meta env w m x k : w_obj w = Some m -> mo_dt m = None -> mo_rv x = mo_rv m -> mo_uid x = mo_uid m ->
  exists m' w', w_obj w' = Some m' /\ mo_dt m' = None /\ mo_fins m' = mo_fins x /\ mo_labels m' = mo_labels x /\ mo_annots m' = mo_annots x /\
    mo_pid m' = mo_pid x /\ mo_status m' = mo_status m /\ execC env (Do (WMeta x) k) w = execC env (k (RObj m')) w'.
Proof.
  intros E D R U. destruct (jn_store w m (mergeMeta m x) E D) as (m' & A1 & A2 & A3 & A4 & A5 & A6 & A7 & A8).
  exists m'. eexists. cbn [execC]. unfold perform, apiWrite. rewrite (accepted_self w m mergeMeta x E R U). rewrite A8.
  repeat split; try eassumption.
Qed.

Lemma jn_status env w m s k : w_obj w = Some m -> mo_dt m = None ->
  exists m' w', w_obj w' = Some m' /\ mo_dt m' = None /\ mo_fins m' = mo_fins m /\ mo_labels m' = mo_labels m /\ mo_annots m' = mo_annots m /\
    mo_pid m' = mo_pid m /\ mo_status m' = s /\ execC env (Do (WStatus (withStatus s m)) k) w = execC env (k (RObj m')) w'.
Proof.
  intros E D. destruct (jn_store w m (mergeStatus m (withStatus s m)) E D) as (m' & A1 & A2 & A3 & A4 & A5 & A6 & A7 & A8).
  exists m'. eexists. cbn [execC]. unfold perform, apiWrite. rewrite (accepted_self w m mergeStatus (withStatus s m) E eq_refl eq_refl). rewrite A8.
  repeat split; try eassumption.
Qed.

(** ** Creation *)
Lemma jn_rec m : (negb (has "node" (mo_labels m)) || negb (has MachinePriority (mo_annots m)) || String.eqb (mo_pid m) "")%bool = false <-> recorded m.
Proof.
  unfold recorded, has. destruct (get "node" (mo_labels m)), (get MachinePriority (mo_annots m)), (String.eqb_spec (mo_pid m) ""); cbn; split; intros H; try discriminate; try (destruct H as (A & B & C); try contradiction; reflexivity); repeat split; congruence.
Qed.

Lemma jn_get_put k v l : get k (put k v l) = Some v.
Proof.
  induction l as [|(k', v') r IH]; cbn; [now rewrite String.eqb_refl|].
  destruct (String.eqb k k') eqn:E; cbn; [now rewrite String.eqb_refl|]. rewrite E. exact IH.
Qed.

Lemma jn_labelled m node pid : pid <> "" -> recorded (labelled m node pid) /\ nodeName (labelled m node pid) = node.
Proof.
  intros P. unfold recorded, nodeName, getS, labelled. cbn [mo_labels mo_annots mo_pid]. rewrite jn_get_put.
  split; [|reflexivity]. split; [discriminate|]. split; [|exact P].
  destruct (String.eqb_spec (getS MachinePriority (mo_annots m)) "") as [|n]; [rewrite jn_get_put; discriminate|].
  unfold getS in n. destruct (get MachinePriority (mo_annots m)); [discriminate|]. now contradict n.
Qed.

(** The parts of an object that creation leaves alone. *)
Definition same (a b : MObj) : Prop := mo_dt a = mo_dt b /\ mo_fins a = mo_fins b /\ ms_conds (mo_status a) = ms_conds (mo_status b).

Lemma jn_init cf r w m : works cf r -> w_obj (execC (snd r) (initializeMachine cf m) w) = w_obj w.
Proof.
  intros W. pose proof (W (CInit m)) as I. cbn in I. unfold initializeMachine. cbn [execC]. unfold perform.
  destruct I as [(n & p & l & ->)|(t & rs & msg & E & F)]; [reflexivity|]. rewrite E, F. reflexivity.
Qed.

Lemma jn_pending env w m : w_obj w = Some m -> mo_dt m = None ->
  exists m', w_obj (execC env (setPending m) w) = Some m' /\ same m' m /\ mo_labels m' = mo_labels m /\ mo_annots m' = mo_annots m /\ mo_pid m' = mo_pid m /\
    (inCreation m -> phase m' = "Pending") /\ (~ inCreation m -> m' = m).
Proof.
  intros E D. unfold setPending, inCreation.
  destruct (String.eqb (phase m) "" || String.eqb (phase m) "CrashLoopBackOff") eqn:C.
  - cbn [execC]. unfold perform at 1. set (w0 := setLog w _ _). assert (E0 : w_obj w0 = Some m) by exact E.
    destruct (jn_status env w0 m (mkMS (ms_conds (mo_status m)) (mkOp "Creating machine on cloud provider" "" (w_now w) "Processing" "Create")
               (mkCur "Pending" true (w_now w)) (ms_lks (mo_status m))) (fun _ => Done) E0 D) as (m' & w' & A1 & A2 & A3 & A4 & A5 & A6 & A7 & A8).
    exists m'. cbn [w_now] in *. rewrite A8. cbn [execC]. split; [exact A1|]. unfold same, phase. rewrite A7. cbn.
    repeat split; try congruence. intros N. exfalso. apply N. apply orb_true_iff in C. rewrite !String.eqb_eq in C. exact C.
  - exists m. cbn [execC]. apply orb_false_iff in C. rewrite !String.eqb_neq in C. unfold same. repeat split; auto. intros [|]; tauto.
Qed.

Lemma jn_finish cf r w m uninit node pid : works cf r -> w_obj w = Some m -> mo_dt m = None -> pid <> "" \/ recorded m ->
  exists m', w_obj (execC (snd r) (finishCreation cf m uninit node pid) w) = Some m' /\ same m' m /\
    (~ recorded m -> recorded m' /\ nodeName m' = node /\ phase m' = phase m) /\
    (recorded m -> mo_labels m' = mo_labels m /\ recorded m' /\ (uninit = true \/ ~ inCreation m -> m' = m) /\ (uninit = false -> inCreation m -> phase m' = "Pending")).
Proof.
  intros W E D P. unfold finishCreation.
  destruct (negb (has "node" (mo_labels m)) || negb (has MachinePriority (mo_annots m)) || String.eqb (mo_pid m) "")%bool eqn:C.
  - assert (N : ~ recorded m) by (intros Q; apply jn_rec in Q; congruence). destruct P as [P|P]; [|contradiction].
    destruct (jn_meta (snd r) w m (labelled m node pid) (fun r0 => match r0 with RObj m' => if uninit then initializeMachine cf m' else Done | _ => if uninit then initializeMachine cf m else Done end) E D eq_refl eq_refl)
      as (m' & w' & A1 & A2 & A3 & A4 & A5 & A6 & A7 & A8).
    exists m'. rewrite A8. destruct (jn_labelled m node pid P) as (L1 & L2). split.
    { destruct uninit; [rewrite (jn_init cf r w' m' W); exact A1 | exact A1]. }
    split; [unfold same; rewrite A7; cbn in A3; repeat split; congruence|]. split; [|contradiction]. intros _.
    unfold recorded, nodeName, phase in *. rewrite A4, A5, A6, A7. repeat split; tauto.
  - apply jn_rec in C. destruct uninit.
    + exists m. rewrite (jn_init cf r w m W). split; [exact E|]. split; [repeat split|]. split; [tauto|]. intros _. repeat split; auto; try apply C; discriminate.
    + destruct (jn_pending (snd r) w m E D) as (m' & B1 & B2 & B3 & B4 & B5 & B6 & B7). exists m'. split; [exact B1|]. split; [exact B2|]. split; [tauto|]. intros _.
      split; [exact B3|]. split; [unfold recorded; rewrite B3, B4, B5; exact C|]. split; [intros [|]; [discriminate|auto]|auto].
Qed.

Lemma jn_trigger cf r w m : works cf r -> w_obj w = Some m ->
  exists uninit node pid w', w_obj w' = Some m /\
    execC (snd r) (triggerCreationFlow cf m) w = execC (snd r) (finishCreation cf m uninit node pid) w' /\
    (pid <> "" \/ recorded m) /\ (recorded m \/ node <> "") /\ (initialized r -> recorded m -> uninit = false).
Proof.
  intros W E. pose proof (W (CSecret m)) as S1; pose proof (W (CGetStatus m)) as S2; cbn in S1, S2.
  unfold triggerCreationFlow. cbn [execC]. unfold perform at 1. rewrite S1. cbn [execC]. unfold perform at 1.
  match goal with |- context [execC _ _ ?x] => set (w1 := x) end. assert (E1 : w_obj w1 = Some m) by exact E.
  destruct S2 as [(n & p & l & -> & Hn & Hp)|[(t & n & p & l & EQ & Hn & Hp & U)|(U & K)]].
  - exists false, n, p, w1. split; [exact E1|]. split; [reflexivity|]. split; [now left|]. split; [now right|reflexivity].
  - destruct U as (t' & rs & msg & EQ' & FE). rewrite EQ' in EQ. injection EQ as -> ->. rewrite EQ', FE.
    exists true, n, p, w1. split; [exact E1|]. split; [reflexivity|]. split; [auto|]. split; [auto|].
    intros I. exfalso. apply (I m). exists t, (Some (n, p, l)), msg. auto.
  - assert (exists t rs st, snd r (CGetStatus m) = PFail t rs /\ FromError t = (st, true) /\ (N.eqb (s_code st) cNotFound || N.eqb (s_code st) cUnimplemented)%bool = true) as (t & rs & st & EQ & FE & CO).
    { destruct U as [(t & rs & msg & EQ & FE)|(t & rs & msg & EQ & FE)]; exists t, rs; eexists; (split; [exact EQ|]; split; [exact FE|reflexivity]). }
    rewrite EQ, FE. cbn [negb]. rewrite CO. unfold has.
    destruct (get "node" (mo_labels m)) as [nl|] eqn:GN.
    + destruct K as [K|K]; [discriminate|]. exists false, (nodeName m), "", w1. split; [exact E1|]. split; [reflexivity|]. split; [now right|]. split; [now left|reflexivity].
    + unfold createVM. cbn [execC]. unfold perform at 1. pose proof (W (CCreate m)) as S3. cbn in S3. destruct S3 as (n & p & l & -> & Hn & Hp & ST).
      cbn [execC]. unfold perform at 1.
      match goal with |- context [execC _ _ (setLog ?x ?y ?z)] => set (w2 := setLog x y z) end.
      exists true, n, p. exists w2. split; [exact E|]. split.
      { destruct ST as [-> |(-> & ->)]; rewrite ?String.eqb_refl; reflexivity. }
      split; [auto|]. split; [auto|]. intros _ (R & _). contradiction.
Qed.

(** Whether the creation flow runs. *)
Definition needs (m : MObj) : Prop := mo_pid m = "" \/ inCreation m.
Lemma jn_needs m : (String.eqb (mo_pid m) "" || String.eqb (phase m) "" || String.eqb (phase m) "CrashLoopBackOff")%bool = true <-> needs m.
Proof. rewrite !orb_true_iff, !String.eqb_eq. unfold needs, inCreation. tauto. Qed.
Lemma jn_increation m : inCreation m \/ ~ inCreation m.
Proof. unfold inCreation. destruct (String.eqb_spec (phase m) ""), (String.eqb_spec (phase m) "CrashLoopBackOff"); tauto. Qed.
Lemma jn_recorded m : recorded m \/ ~ recorded m.
Proof.
  destruct (negb (has "node" (mo_labels m)) || negb (has MachinePriority (mo_annots m)) || String.eqb (mo_pid m) "")%bool eqn:C.
  - right. intros R. apply jn_rec in R. congruence.
  - left. apply jn_rec. exact C.
Qed.

Lemma jn_create cf r w m : works cf r -> w_obj w = Some m -> mo_dt m = None ->
  exists m', w_obj (execC (snd r) (creationIfNeeded cf m) w) = Some m' /\ same m' m /\
    (needs m -> ~ recorded m -> recorded m' /\ nodeName m' <> "" /\ phase m' = phase m) /\
    (~ needs m \/ recorded m -> mo_labels m' = mo_labels m /\ (recorded m -> recorded m') /\ (m' = m \/ phase m' = "Pending" /\ inCreation m)) /\
    (recorded m -> initialized r -> inCreation m -> phase m' = "Pending").
Proof.
  intros W E D. unfold creationIfNeeded.
  destruct (String.eqb (mo_pid m) "" || String.eqb (phase m) "" || String.eqb (phase m) "CrashLoopBackOff")%bool eqn:C.
  - apply jn_needs in C. destruct (jn_trigger cf r w m W E) as (u & node & pid & w' & E' & -> & P & N & I).
    destruct (jn_finish cf r w' m u node pid W E' D P) as (m' & B1 & B2 & B3 & B4).
    exists m'. split; [exact B1|]. split; [exact B2|]. split; [|split].
    + intros _ R. destruct (B3 R) as (X & Y & Z). destruct N as [N|N]; [contradiction|]. rewrite Y. auto.
    + intros [K|R]; [contradiction|]. destruct (B4 R) as (X & Y & Z & V). split; [exact X|]. split; [auto|].
      destruct u; [left; apply Z; now left|]. destruct (jn_increation m) as [J|J]; [right; split; [apply V; auto|exact J]|left; apply Z; now right].
    + intros R Q J. destruct (B4 R) as (X & Y & Z & V). apply V; auto.
  - assert (NN : ~ needs m) by (intros K; apply jn_needs in K; congruence).
    exists m. split; [exact E|]. split; [repeat split|]. split; [intros; contradiction|]. split; [intros _; auto|].
    intros _ _ J. exfalso. apply NN. now right.
Qed.

(** ** The health check *)
Lemma jn_bytype t l c : byType t l = Some c -> In c l /\ nc_type c = t.
Proof. unfold byType. intros H. apply find_some in H. destruct H as (A & B). apply String.eqb_eq in B. apply in_rev in A. auto. Qed.
Lemma jn_nodup_type l c d : NoDup (map nc_type l) -> In c l -> In d l -> nc_type c = nc_type d -> c = d.
Proof.
  induction l as [|x l IH]; cbn; [tauto|]. intros N [-> |A] [-> |B] T; auto; inversion N as [|? ? NI ND]; subst.
  - exfalso. apply NI. rewrite T. now apply in_map.
  - exfalso. apply NI. rewrite <- T. now apply in_map.
  - now apply IH.
Qed.
Lemma jn_bytype_self l c : NoDup (map nc_type l) -> In c l -> byType (nc_type c) l = Some c.
Proof.
  intros N H. unfold byType. destruct (find _ (rev l)) as [d|] eqn:F.
  - apply find_some in F. destruct F as (A & B). apply String.eqb_eq in B. apply in_rev in A. f_equal. now apply (jn_nodup_type l).
  - exfalso. apply (find_none _ _) with (x := c) in F; [|now apply -> in_rev]. rewrite String.eqb_refl in F. discriminate.
Qed.
Lemma jn_unchanged l : NoDup (map nc_type l) -> nodeConditionsHaveChanged l l = false.
Proof.
  intros N. unfold nodeConditionsHaveChanged. apply orb_false_iff. split.
  - destruct (existsb _ l) eqn:X; [|reflexivity]. apply existsb_exists in X. destruct X as (c & Hc & X). rewrite (jn_bytype_self l c N Hc), String.eqb_refl in X. discriminate.
  - destruct (existsb _ l) eqn:X; [|reflexivity]. apply existsb_exists in X. destruct X as (c & Hc & X). rewrite (jn_bytype_self l c N Hc) in X. discriminate.
Qed.
Lemma jn_same_health bad old new : NoDup (map nc_type old) -> nodeConditionsHaveChanged old new = false -> isHealthy bad new = true -> isHealthy bad old = true.
Proof.
  intros N C H. unfold nodeConditionsHaveChanged in C. apply orb_false_iff in C. destruct C as (C1 & C2).
  assert (S : forall c, In c old -> exists d, In d new /\ nc_type d = nc_type c /\ nc_status d = nc_status c).
  { intros c Hc. destruct (byType (nc_type c) new) as [d|] eqn:B.
    - destruct (jn_bytype _ _ _ B) as (D1 & D2). exists d. split; [exact D1|]. split; [exact D2|].
      destruct (String.eqb_spec (nc_status d) (nc_status c)) as [|n]; [assumption|exfalso].
      assert (X : existsb (fun c0 => match byType (nc_type c0) old with Some o => negb (String.eqb (nc_status o) (nc_status c0)) | None => true end) new = true); [|congruence].
      apply existsb_exists. exists d. split; [exact D1|]. rewrite D2, (jn_bytype_self old c N Hc). apply negb_true_iff, String.eqb_neq. congruence.
    - exfalso. assert (X : existsb (fun c0 => match byType (nc_type c0) new with Some _ => false | None => true end) old = true); [|congruence].
      apply existsb_exists. exists c. rewrite B. auto. }
  unfold isHealthy in *. destruct old as [|o old].
  - exfalso. destruct new as [|d new]; [discriminate|]. cbn in C1. discriminate.
  - apply forallb_forall. intros c Hc. destruct (S c Hc) as (d & D1 & D2 & D3).
    destruct new as [|x new]; [destruct D1|]. rewrite forallb_forall in H. specialize (H d D1). rewrite D2, D3 in H. exact H.
Qed.

(** How many passes are still needed. *)
Definition far (m : MObj) : nat :=
  ((if hasFin m then 0 else 1) +
   (if String.eqb (nodeName m) "" then (if String.eqb (phase m) "" then 3 else if String.eqb (phase m) "Running" then 1 else 2)
    else if String.eqb (phase m) "Running" then 0
    else if String.eqb (phase m) "" then (if negb (has "node" (mo_labels m)) || negb (has MachinePriority (mo_annots m)) || String.eqb (mo_pid m) "" then 3 else 2)
    else 1))%nat.

Lemma jn_startable_name m : nodeName m <> "" -> mo_dt m = None -> NoDup (map nc_type (ms_conds (mo_status m))) -> startable m.
Proof. intros. split; [assumption|]. split; [assumption|]. now left. Qed.

Lemma jn_same_fin a b : mo_fins a = mo_fins b -> hasFin a = hasFin b.
Proof. unfold hasFin. now intros ->. Qed.
Lemma jn_same_name a b : mo_labels a = mo_labels b -> nodeName a = nodeName b.
Proof. unfold nodeName. now intros ->. Qed.

(** Creation brings the machine nearer. *)
Lemma jn_create_far cf r w m : works cf r -> w_obj w = Some m -> startable m -> hasFin m = true -> (nodeName m = "" \/ phase m = "" \/ phase m = "Running") ->
  exists m', w_obj (execC (snd r) (creationIfNeeded cf m) w) = Some m' /\ startable m' /\ (far m' <= far m)%nat /\ (initialized r -> (far m' <= pred (far m))%nat) /\
    ((nodeName m = "" \/ recorded m) -> recorded m').
Proof.
  intros W E (D & ND & S) F Q. destruct (jn_create cf r w m W E D) as (m' & A & (S1 & S2 & S3) & B & C & P). exists m'. split; [exact A|].
  assert (F' : hasFin m' = true) by (rewrite (jn_same_fin m' m S2); exact F).
  assert (S' : nodeName m' <> "" -> startable m') by (intros N; apply jn_startable_name; congruence).
  destruct (jn_recorded m) as [R|R].
  - destruct S as [NN|(X & _)]; [|contradiction].
    destruct (C (or_intror R)) as (C1 & C2 & C3). pose proof (jn_same_name m' m C1) as EN.
    split; [apply S'; congruence|]. pose proof R as RB. apply jn_rec in RB.
    assert (FM : far m = if String.eqb (phase m) "Running" then 0%nat else if String.eqb (phase m) "" then 2%nat else 1%nat).
    { unfold far. rewrite F. apply String.eqb_neq in NN. rewrite NN, RB. reflexivity. }
    assert (FM' : (far m' <= if String.eqb (phase m') "Running" then 0%nat else if String.eqb (phase m') "" then 2%nat else 1%nat)%nat).
    { unfold far. rewrite F', EN. apply String.eqb_neq in NN. rewrite NN. pose proof (C2 R) as R'. apply jn_rec in R'. rewrite R'. apply le_n. }
    split; [|split; [|auto]].
    + destruct C3 as [-> |(PH & J)]; [apply le_n|]. rewrite PH in FM'. cbn in FM'. rewrite FM.
      destruct J as [J|J]; rewrite J; cbn; lia.
    + intros I. destruct Q as [Q|[Q|Q]]; [contradiction| |].
      * rewrite FM, Q. cbn. rewrite (P R I (or_introl Q)) in FM'. exact FM'.
      * rewrite FM, Q. cbn. destruct C3 as [-> |(_ & J)]; [rewrite FM, Q; apply le_n|]. destruct J as [J|J]; rewrite Q in J; discriminate.
  - assert (needs m \/ ~ needs m) as [NE|NE].
    { destruct (String.eqb (mo_pid m) "" || String.eqb (phase m) "" || String.eqb (phase m) "CrashLoopBackOff")%bool eqn:X; [left; now apply jn_needs|right; intros K; apply jn_needs in K; congruence]. }
    + destruct (B NE R) as (B1 & B2 & B3). split; [apply S'; exact B2|].
      assert (FM' : far m' = if String.eqb (phase m) "Running" then 0%nat else if String.eqb (phase m) "" then 2%nat else 1%nat).
      { unfold far. rewrite F', B3. apply String.eqb_neq in B2. rewrite B2. apply jn_rec in B1. rewrite B1. reflexivity. }
      assert (FM : (far m' <= pred (far m))%nat \/ (nodeName m <> "" /\ phase m = "Running" /\ far m' = 0%nat)).
      { rewrite FM'. unfold far. rewrite F. destruct (String.eqb_spec (nodeName m) "") as [NN|NN].
        - left. destruct (String.eqb_spec (phase m) "Running") as [-> |]; [cbn; lia|]. destruct (String.eqb (phase m) ""); cbn; lia.
        - destruct Q as [Q|[Q|Q]]; [contradiction| |right; rewrite Q; auto]. left. rewrite Q. cbn [String.eqb].
          replace (negb (has "node" (mo_labels m)) || negb (has MachinePriority (mo_annots m)) || String.eqb (mo_pid m) "")%bool with true; [cbn; lia|].
          symmetry. destruct (negb _ || _ || _)%bool eqn:X; [reflexivity|]. apply jn_rec in X. contradiction. }
      split; [destruct FM as [FM|(_ & _ & FM)]; lia|]. split; [intros _; destruct FM as [FM|(_ & _ & FM)]; lia|]. auto.
    + destruct (C (or_introl NE)) as (C1 & C2 & C3).
      assert (NN : nodeName m <> "") by (destruct S as [|(_ & X)]; [assumption|contradiction]).
      destruct C3 as [-> |(_ & J)]; [|exfalso; apply NE; now right].
      split; [apply S'; exact NN|]. split; [apply le_n|]. split.
      * intros _. destruct Q as [Q|[Q|Q]]; [contradiction|exfalso; apply NE; right; now left|].
        unfold far. rewrite F, Q. apply String.eqb_neq in NN. rewrite NN. cbn. lia.
      * intros [K|K]; contradiction.
Qed.

Lemma jn_pass cf r w m : works cf r -> w_obj w = Some m -> startable m ->
  exists m', w_obj (pass cf w r) = Some m' /\ startable m' /\ (far m' <= far m)%nat /\ (initialized r -> (far m' <= pred (far m))%nat) /\
    ((nodeName m = "" \/ recorded m) -> (hasFin m = true \/ nodeName m <> "" -> recorded m') /\ (nodeName m' = "" \/ recorded m')).
Proof.
  intros W E ST. pose proof ST as (D & ND & S). unfold pass. rewrite E, D. unfold reconcileMachine. cbn [execC]. unfold perform at 1. pose proof (W CFrozen) as W1. cbn in W1. rewrite W1.
  cbn [execC]. unfold perform at 1. pose proof (W CClass) as W2. cbn in W2. rewrite W2.
  match goal with |- context [execC _ _ ?x] => set (w1 := x) end. assert (E1 : w_obj w1 = Some m) by exact E.
  destruct (hasFin m) eqn:HF; cbn [negb].
  2:{ destruct (jn_meta (snd r) w1 m (withFins (MCM :: mo_fins m) m) (fun _ => Done) E1 D eq_refl eq_refl) as (m' & w' & A1 & A2 & A3 & A4 & A5 & A6 & A7 & A8).
      exists m'. rewrite A8. split; [exact A1|].
      assert (F' : hasFin m' = true) by (unfold hasFin; rewrite A3; reflexivity).
      assert (RR : recorded m' <-> recorded m) by (unfold recorded; rewrite A4, A5, A6; reflexivity).
      cbn in A4, A5, A6. split.
      { split; [exact A2|]. rewrite A7. split; [exact ND|]. unfold nodeName, inCreation, phase. rewrite A4, A6, A7. rewrite RR. exact S. }
      assert (FE : far m = Datatypes.S (far m')).
      { unfold far. rewrite HF, F'. unfold nodeName, phase. rewrite A4, A5, A6, A7. reflexivity. }
      rewrite FE. cbn [pred]. split; [lia|]. split; [intros _; lia|]. rewrite RR. intros [K|K]; unfold nodeName in *; rewrite A4.
      - split; [intros [|]; [discriminate|contradiction]|now left].
      - split; auto. }
  destruct (String.eqb_spec (nodeName m) "") as [NN|NN]; cbn [negb andb].
  { destruct (jn_create_far cf r w1 m W E1 ST HF (or_introl NN)) as (m' & B1 & B2 & B3 & B4 & B5). exists m'. split; [exact B1|]. split; [exact B2|]. split; [exact B3|]. split; [exact B4|]. intros K. split; [intros _; exact (B5 K)|right; exact (B5 K)]. }
  destruct (String.eqb_spec (phase m) "") as [PE|PE]; cbn [negb].
  { destruct (jn_create_far cf r w1 m W E1 ST HF (or_intror (or_introl PE))) as (m' & B1 & B2 & B3 & B4 & B5). exists m'. split; [exact B1|]. split; [exact B2|]. split; [exact B3|]. split; [exact B4|]. intros K. split; [intros _; exact (B5 K)|right; exact (B5 K)]. }
  unfold healthThenCreate. cbn [execC]. unfold perform at 1. pose proof (W (CNode m)) as W3. cbn in W3. destruct W3 as (a & W3 & (conds & -> & HH) & CL). rewrite W3. cbn in CL.
  cbn [execC]. unfold perform at 1.
  match goal with |- context [execC _ _ (setLog ?x ?y ?z)] => set (w2 := setLog x y z) end. assert (E2 : w_obj w2 = Some m) by exact E.
  match goal with |- context [reconcileMachineHealth _ _ _ _ ?n _ _] => set (now := n) end.
  unfold reconcileMachineHealth.
  set (cs := if nodeConditionsHaveChanged (ms_conds (mo_status m)) conds then conds else ms_conds (mo_status m)).
  assert (CS : isHealthy (cf_bad cf) cs = true /\ NoDup (map nc_type cs)).
  { unfold cs. destruct (nodeConditionsHaveChanged _ conds) eqn:X; [auto|]. split; [|exact ND]. apply (jn_same_health (cf_bad cf) _ conds ND X HH). }
  destruct CS as (CS & NC). rewrite CS. rewrite andb_false_r. cbn [negb]. rewrite andb_true_r.
  assert (FN : far m = if String.eqb (phase m) "Running" then 0%nat else 1%nat).
  { unfold far. rewrite HF. pose proof NN as N1. apply String.eqb_neq in N1. rewrite N1. apply String.eqb_neq in PE. rewrite PE. reflexivity. }
  assert (WR : forall st k, NoDup (map nc_type (ms_conds st)) -> cs_phase (ms_cur st) = "Running" -> (forall m', k (RObj m') = Done) ->
    exists m', w_obj (execC (snd r) (Do (WStatus (withStatus st m)) k) w2) = Some m' /\ startable m' /\ (far m' <= far m)%nat /\ (initialized r -> (far m' <= pred (far m))%nat) /\
      ((nodeName m = "" \/ recorded m) -> (true = true \/ nodeName m <> "" -> recorded m') /\ (nodeName m' = "" \/ recorded m'))).
  { intros st k N1 P1 K. destruct (jn_status (snd r) w2 m st k E2 D) as (m' & w' & A1 & A2 & A3 & A4 & A5 & A6 & A7 & A8).
    exists m'. rewrite A8, K. split; [exact A1|].
    assert (RR : recorded m' <-> recorded m) by (unfold recorded; rewrite A4, A5, A6; reflexivity).
    assert (N' : nodeName m' = nodeName m) by (unfold nodeName; now rewrite A4).
    split; [apply jn_startable_name; [congruence|exact A2|now rewrite A7]|].
    assert (F0 : far m' = 0%nat).
    { unfold far. rewrite (jn_same_fin m' m A3), HF, N'. pose proof NN as N2. apply String.eqb_neq in N2. rewrite N2. unfold phase. rewrite A7, P1. reflexivity. }
    rewrite F0. split; [lia|]. split; [intros _; lia|]. rewrite RR, N'. intros [Q|Q]; [contradiction|]. auto. }
  destruct (String.eqb_spec (phase m) "Running") as [PR|PR]; cbn [negb].
  - assert (GO : forall w3, w_obj w3 = Some m -> exists m', w_obj (execC (snd r) (Do (CSync m) (fun r0 => match r0 with RUnit => creationIfNeeded cf m | _ => Done end)) w3) = Some m' /\
      startable m' /\ (far m' <= far m)%nat /\ (initialized r -> (far m' <= pred (far m))%nat) /\
      ((nodeName m = "" \/ recorded m) -> (true = true \/ nodeName m <> "" -> recorded m') /\ (nodeName m' = "" \/ recorded m'))).
    { intros w3 E3. cbn [execC]. unfold perform at 1. pose proof (W (CSync m)) as W4. cbn in W4. rewrite W4.
      match goal with |- context [execC _ _ ?x] => set (w4 := x) end. assert (E4 : w_obj w4 = Some m) by exact E3.
      destruct (jn_create_far cf r w4 m W E4 ST HF (or_intror (or_intror PR))) as (m' & B1 & B2 & B3 & B4 & B5). exists m'. split; [exact B1|]. split; [exact B2|]. split; [exact B3|]. split; [exact B4|]. intros K. split; [intros _; exact (B5 K)|right; exact (B5 K)]. }
    destruct (nodeConditionsHaveChanged (ms_conds (mo_status m)) conds) eqn:CH.
    + apply WR; [exact NC|exact PR|reflexivity].
    + rewrite PR. cbn [String.eqb orb]. apply GO. exact E2.
  - apply WR; [exact NC|reflexivity|reflexivity].
Qed.

Lemma comes_up : forall cf w m l n, w_obj w = Some m -> startable m -> Forall (works cf) l -> telling l n -> (4 <= n)%nat ->
  exists m', w_obj (passes cf w l) = Some m' /\ phase m' = "Running" /\ hasFin m' = true /\ nodeName m' <> "" /\ (nodeName m = "" \/ recorded m -> recorded m').
Proof.
  assert (G : forall cf l n w m, w_obj w = Some m -> startable m -> Forall (works cf) l -> telling l n -> (far m <= n)%nat ->
    exists m', w_obj (passes cf w l) = Some m' /\ far m' = 0%nat /\ (nodeName m = "" \/ recorded m -> nodeName m' = "" \/ recorded m')).
  { intros cf l. induction l as [|r l IH]; intros n w m E S W T L.
    - inversion T; subst. exists m. split; [exact E|]. split; [lia|auto].
    - inversion W as [|? ? W1 W2]; subst. destruct (jn_pass cf r w m W1 E S) as (m1 & A1 & A2 & A3 & A4 & A5).
      inversion T; subst.
      + destruct (IH n0 (pass cf w r) m1 A1 A2 W2) as (m' & B1 & B2 & B3); [assumption|specialize (A4 ltac:(assumption)); lia|].
        exists m'. split; [exact B1|]. split; [exact B2|]. intros K. apply B3. apply A5. exact K.
      + destruct (IH n (pass cf w r) m1 A1 A2 W2) as (m' & B1 & B2 & B3); [assumption|lia|].
        exists m'. split; [exact B1|]. split; [exact B2|]. intros K. apply B3. apply A5. exact K. }
  intros cf w m l n E S W T L. destruct (G cf l n w m E S W T) as (m' & A & B & C).
  { unfold far. repeat match goal with |- context [if ?b then _ else _] => destruct b end; lia. }
  exists m'. split; [exact A|].
  unfold far in B. destruct (hasFin m'); [|discriminate]. destruct (String.eqb_spec (nodeName m') "") as [|NN].
  - exfalso. destruct (String.eqb (phase m') ""), (String.eqb (phase m') "Running"); discriminate.
  - destruct (String.eqb_spec (phase m') "Running") as [PR|]; [|exfalso; destruct (String.eqb (phase m') ""); [destruct (negb (has "node" (mo_labels m')) || negb (has MachinePriority (mo_annots m')) || String.eqb (mo_pid m') "")%bool|]; discriminate].
    split; [exact PR|]. split; [reflexivity|]. split; [exact NN|]. intros K. destruct (C K); [contradiction|assumption].
Qed.

(** ** Giving up *)
Lemma jn_same_health_back bad old new : nodeConditionsHaveChanged old new = false -> isHealthy bad old = true -> isHealthy bad new = true.
Proof.
  intros C H. unfold nodeConditionsHaveChanged in C. apply orb_false_iff in C. destruct C as (C1 & C2).
  unfold isHealthy in *. destruct new as [|x new].
  - exfalso. destruct old as [|o old]; [discriminate|]. cbn in C2. discriminate.
  - apply forallb_forall. intros c Hc. destruct (byType (nc_type c) old) as [o|] eqn:B.
    + destruct (jn_bytype _ _ _ B) as (O1 & O2). destruct (String.eqb_spec (nc_status o) (nc_status c)) as [EQ|NE].
      * destruct old as [|y old]; [destruct O1|]. rewrite forallb_forall in H. specialize (H o O1). rewrite O2, EQ in H. exact H.
      * exfalso. apply not_true_iff_false in C1. apply C1. apply existsb_exists. exists c. rewrite B. split; [exact Hc|]. apply negb_true_iff, String.eqb_neq. exact NE.
    + exfalso. apply not_true_iff_false in C1. apply C1. apply existsb_exists. exists c. rewrite B. auto.
Qed.

(** What the health check says of a Pending machine past its time. *)
Lemma jn_overdue sh cr he bad now a m : phase m = "Pending" -> a <> NodeErr -> 0 < (now - cr) - cs_time (ms_cur (mo_status m)) ->
  (forall conds, a = NodeIs conds false -> isHealthy bad conds = false) ->
  (exists st, reconcileMachineHealth sh cr he bad now a m = HWrite st /\ cs_phase (ms_cur st) = "Failed") \/
  (exists conds b, a = NodeIs conds b /\ nodeConditionsHaveChanged (ms_conds (mo_status m)) conds = true /\
     reconcileMachineHealth sh cr he bad now a m = HWrite (mkMS conds (ms_op (mo_status m)) (ms_cur (mo_status m)) (ms_lks (mo_status m)))).
Proof.
  intros P NE L B. apply Z.ltb_lt in L. unfold reconcileMachineHealth. rewrite P. cbn [String.eqb Ascii.eqb Bool.eqb andb orb negb]. rewrite L.
  destruct a as [| |conds b]; [contradiction| |].
  - left. rewrite andb_false_r. eexists. split; reflexivity.
  - set (ch := nodeConditionsHaveChanged (ms_conds (mo_status m)) conds).
    assert (Q : isHealthy bad (if ch then conds else ms_conds (mo_status m)) = true -> b = true).
    { destruct b; [reflexivity|]. specialize (B conds eq_refl). unfold ch. destruct (nodeConditionsHaveChanged _ _) eqn:C; [congruence|].
      intros H. apply (jn_same_health_back bad _ conds) in H; [congruence|exact C]. }
    destruct (isHealthy bad (if ch then conds else ms_conds (mo_status m))) eqn:H; [rewrite (Q eq_refl); cbn [negb andb]|].
    + destruct ch eqn:C; [right; exists conds, true; auto|left; eexists; split; reflexivity].
    + destruct ch eqn:C; [right; exists conds, b; auto|left; eexists; split; reflexivity].
Qed.

Lemma jn_reach cf w m r a : w_obj w = Some m -> mo_dt m = None -> hasFin m = true -> nodeName m <> "" -> phase m = "Pending" -> shows a r ->
  forall st, reconcileMachineHealth (cf_show cf) (cf_creation cf) (cf_health cf) (cf_bad cf) (fst r) a m = HWrite st ->
  exists m', w_obj (pass cf w r) = Some m' /\ mo_dt m' = None /\ hasFin m' = true /\ nodeName m' = nodeName m /\ mo_status m' = st.
Proof.
  intros E D HF NN PH (S1 & S2 & S3) st HW. unfold pass. rewrite E, D. unfold reconcileMachine. cbn [execC]. unfold perform at 1. rewrite S1.
  cbn [execC]. unfold perform at 1. rewrite S2, HF. apply String.eqb_neq in NN. rewrite NN, PH. cbn [negb andb String.eqb Ascii.eqb Bool.eqb].
  unfold healthThenCreate. cbn [execC]. unfold perform at 1. rewrite S3. cbn [execC]. unfold perform at 1.
  match goal with |- context [reconcileMachineHealth _ _ _ _ ?n _ _] => change n with (fst r) end. rewrite HW.
  match goal with |- context [execC _ _ (setLog ?x ?y ?z)] => set (w2 := setLog x y z) end. assert (E2 : w_obj w2 = Some m) by exact E.
  destruct (jn_status (snd r) w2 m st (fun _ => Done) E2 D) as (m' & w' & A1 & A2 & A3 & A4 & A5 & A6 & A7 & A8).
  exists m'. rewrite A8. split; [exact A1|]. split; [exact A2|]. split; [rewrite <- HF; now apply jn_same_fin|]. split; [now apply jn_same_name|exact A7].
Qed.

Lemma gives_up cf w m r1 r2 a : w_obj w = Some m -> mo_dt m = None -> hasFin m = true -> nodeName m <> "" -> phase m = "Pending" ->
  shows a r1 -> shows a r2 -> a <> NodeErr -> ~ joined cf a -> clear a ->
  cs_time (ms_cur (mo_status m)) + cf_creation cf < fst r1 -> fst r1 <= fst r2 ->
  exists m1, w_obj (pass cf w r1) = Some m1 /\ (phase m1 = "Failed" \/
    exists m2, w_obj (pass cf (pass cf w r1) r2) = Some m2 /\ phase m2 = "Failed").
Proof.
  intros E D HF NN PH S1 S2 NE NJ CL T1 T2.
  assert (B : forall conds, a = NodeIs conds false -> isHealthy (cf_bad cf) conds = false).
  { intros conds ->. apply not_true_iff_false. intros H. apply NJ. exists conds. auto. }
  destruct (jn_overdue (cf_show cf) (cf_creation cf) (cf_health cf) (cf_bad cf) (fst r1) a m PH NE ltac:(lia) B) as [(st & HW & F)|(conds & b & EA & CH & HW)].
  - destruct (jn_reach cf w m r1 a E D HF NN PH S1 st HW) as (m1 & A1 & _ & _ & _ & A2). exists m1. split; [exact A1|]. left. unfold phase. now rewrite A2.
  - destruct (jn_reach cf w m r1 a E D HF NN PH S1 _ HW) as (m1 & A1 & A2 & A3 & A4 & A5). exists m1. split; [exact A1|]. right.
    assert (P1 : phase m1 = "Pending") by (unfold phase; rewrite A5; exact PH).
    destruct (jn_overdue (cf_show cf) (cf_creation cf) (cf_health cf) (cf_bad cf) (fst r2) a m1 P1 NE ltac:(rewrite A5; cbn; lia) B) as [(st & HW2 & F)|(conds2 & b2 & EA2 & CH2 & HW2)].
    + destruct (jn_reach cf (pass cf w r1) m1 r2 a A1 A2 A3 ltac:(congruence) P1 S2 st HW2) as (m2 & B1 & _ & _ & _ & B2). exists m2. split; [exact B1|]. unfold phase. now rewrite B2.
    + exfalso. rewrite EA in EA2. injection EA2 as <- <-. rewrite A5 in CH2. cbn in CH2. rewrite EA in CL. cbn in CL. rewrite (jn_unchanged conds CL) in CH2. discriminate.
Qed.

Lemma creation_given_up cf w m r text resp : w_obj w = Some m -> mo_dt m = None -> hasFin m = true -> nodeName m = "" -> inCreation m ->
  snd r CFrozen = RBool false -> snd r CClass = RUnit -> snd r (CSecret m) = RUnit ->
  (noVM m (snd r (CGetStatus m)) /\ snd r (CCreate m) = PFail text resp \/
   snd r (CGetStatus m) = PFail text resp /\ snd (FromError text) = true /\ (forall c, In c [cNotFound; cUnimplemented; cUninitialized] -> ~ failsWith (PFail text resp) c)) ->
  late cf m (fst r) ->
  exists m', w_obj (pass cf w r) = Some m' /\ phase m' = "Failed".
Proof.
  intros E D HF NN IC F1 F2 F3 FA L. unfold pass. rewrite E, D. unfold reconcileMachine. cbn [execC]. unfold perform at 1. rewrite F1.
  cbn [execC]. unfold perform at 1. rewrite F2, HF, NN. cbn [negb andb String.eqb].
  unfold creationIfNeeded. replace (String.eqb (mo_pid m) "" || String.eqb (phase m) "" || String.eqb (phase m) "CrashLoopBackOff")%bool with true.
  2:{ symmetry. apply jn_needs. now right. }
  unfold triggerCreationFlow. cbn [execC]. unfold perform at 1. rewrite F3. cbn [execC]. unfold perform at 1.
  assert (G : forall lks w', w_obj w' = Some m -> w_now w' = fst r -> exists m', w_obj (execC (snd r) (machineCreateErrorHandler cf m lks text) w') = Some m' /\ phase m' = "Failed").
  { intros lks w' E' T'. unfold machineCreateErrorHandler, statusUpdate. cbn [execC]. unfold perform at 1. unfold machineStatusUpdate, createFailurePhase. rewrite T'.
    replace (0 <? fst r - cf_creation cf - mo_created m) with true by (symmetry; apply Z.ltb_lt; unfold late in L; lia).
    match goal with |- context [isMachineStatusSimilar ?n ?a ?b] => assert (SM : isMachineStatusSimilar n a b = false) end.
    { unfold isMachineStatusSimilar. destruct (_ || _)%bool; [reflexivity|]. cbn [ms_cur cs_phase cs_timeoutActive]. unfold inCreation, phase in IC.
      replace (String.eqb "Failed" (cs_phase (ms_cur (mo_status m)))) with false by (destruct IC as [-> | ->]; reflexivity). rewrite andb_false_r. reflexivity. }
    rewrite SM. match goal with |- context [execC _ _ (setLog ?x ?y ?z)] => set (w2 := setLog x y z) end. assert (E2 : w_obj w2 = Some m) by exact E'.
    match goal with |- context [withStatus ?s m] => destruct (jn_status (snd r) w2 m s (fun _ => Done) E2 D) as (m' & w3 & A1 & A2 & A3 & A4 & A5 & A6 & A7 & A8) end.
    exists m'. rewrite A8. split; [exact A1|]. unfold phase. now rewrite A7. }
  destruct FA as [((NL & U) & CR)|(GS & OK & NO)].
  - assert (exists t rs st, snd r (CGetStatus m) = PFail t rs /\ FromError t = (st, true) /\ (N.eqb (s_code st) cNotFound || N.eqb (s_code st) cUnimplemented)%bool = true) as (t & rs & st & EQ & FE & CO).
    { destruct U as [(t & rs & msg & EQ & FE)|(t & rs & msg & EQ & FE)]; exists t, rs; eexists; (split; [exact EQ|]; split; [exact FE|reflexivity]). }
    rewrite EQ, FE. cbn [negb]. rewrite CO. unfold has. rewrite NL. unfold createVM. cbn [execC]. unfold perform at 1. rewrite CR. apply G; [exact E|reflexivity].
  - rewrite GS. destruct (FromError text) as [st ok] eqn:FE. cbn in OK. subst ok. cbn [negb].
    assert (K : forall c, In c [cNotFound; cUnimplemented; cUninitialized] -> N.eqb (s_code st) c = false).
    { intros c I. apply N.eqb_neq. intros Q. apply (NO c I). exists text, resp, (s_msg st). split; [reflexivity|]. rewrite FE. destruct st as [sc sm]. cbn in Q. now subst sc. }
    rewrite (K cNotFound), (K cUnimplemented), (K cUninitialized) by (cbn; auto). cbn [orb]. apply G; [exact E|reflexivity].
Qed.

(** ** Passes are steps of the world *)
Lemma execC_steps cf env : forall p w t,
  exists ops c, Forall appliedC ops /\ run cf (setSlots w (Some p) t) ops = setSlots (execC env p w) (Some c) t /\ (c = Done \/ c = Panic).
Proof.
  intros p. induction p as [| | cl k IH]; intros w t.
  - exists [], Done. split; [constructor|]. split; [reflexivity | auto].
  - exists [], Panic. split; [constructor|]. split; [reflexivity | auto].
  - cbn [execC]. destruct (perform w QC cl (env cl) Applied (w_vms w)) as (w' & r') eqn:EP.
    destruct (IH r' w' t) as (ops & c & A & B & C).
    exists (OStep false (env cl) Applied (w_vms w) :: ops), c. split; [constructor; [exact Logic.I | exact A]|]. split; [|exact C].
    change (run cf (setSlots w (Some (Do cl k)) t) (OStep false (env cl) Applied (w_vms w) :: ops)) with
      (run cf (step cf (setSlots w (Some (Do cl k)) t) (OStep false (env cl) Applied (w_vms w))) ops).
    assert (E : step cf (setSlots w (Some (Do cl k)) t) (OStep false (env cl) Applied (w_vms w)) = setSlots w' (Some (k r')) t).
    { cbn [step]. change (w_c (setSlots w (Some (Do cl k)) t)) with (Some (Do cl k)). cbv iota.
      rewrite (perform_slots w (Some (Do cl k)) t QC cl (env cl) Applied (w_vms w) w' r' EP). reflexivity. }
    rewrite E. exact B.
Qed.

Lemma pass_steps cf w r m : w_obj w = Some m -> mo_dt m = None -> w_c w = None ->
  exists ops c, Forall appliedC ops /\ (c = Done \/ c = Panic) /\
    run cf (onTime (fst r) w) (OStart false :: ops) = setSlots (pass cf w r) (Some c) (w_t w).
Proof.
  intros E D Q. unfold pass. rewrite E, D.
  destruct (execC_steps cf (snd r) (reconcileMachine cf m) (onTime (fst r) w) (w_t w)) as (ops & c & A & B & C).
  exists ops, c. split; [exact A|]. split; [exact C|]. rewrite <- B.
  change (run cf (onTime (fst r) w) (OStart false :: ops)) with (run cf (step cf (onTime (fst r) w) (OStart false)) ops).
  assert (G : step cf (onTime (fst r) w) (OStart false) = setSlots (onTime (fst r) w) (Some (reconcileMachine cf m)) (w_t w)).
  { unfold step, start. cbv iota. change (w_c (onTime (fst r) w)) with (w_c w). change (w_view (onTime (fst r) w)) with (w_obj w). rewrite Q, E, D. reflexivity. }
  rewrite G. reflexivity.
Qed.
